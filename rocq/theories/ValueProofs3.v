(** Lemmas about ValueSpec, part 3: the types of decimal numbers. *)
From Verif Require Import PyStrProofs SchemaProofs1 SchemaProofs2 SchemaProofs3.
From Verif Require Import XsdPattern XsdFiles XsdMatch IdSpec IdProofs3 IdProofs4 IdProofs5 ValueSpec ValueProofs1 ValueProofs2.
From Coq Require Import Lqa.
Local Open Scope nat_scope.

Lemma num_pattern p s q : number_allows s q [($"xsd:pattern", p)] <-> matches p s.
Proof.
  split.
  - intros (H & _). destruct H as (x & [E|[]] & M); [exists p; now left|]. injection E as ->. exact M.
  - intro M. split; [intros _; exists p; split; [now left|exact M]|]. split; [intros (v & [E|[]]); discriminate E|].
    do 3 (split; [intros v r [E|[]]; discriminate E|]). intros v r [E|[]]; discriminate E.
Qed.
Lemma num_limits v w a b s q : decimal_value v a -> decimal_value w b ->
  (number_allows s q [($"xsd:minInclusive", v); ($"xsd:maxInclusive", w)] <-> (a <= q <= b)%Q).
Proof.
  intros A B. split.
  - intros (_ & _ & H1 & H2 & _). split; [apply (H1 v); [now left|exact A]|apply (H2 w); [right; now left|exact B]].
  - intros [H1 H2]. split; [intros (p & [E|[E|[]]]); discriminate E|]. split; [intros (p & [E|[E|[]]]); discriminate E|].
    split; [intros x r [E|[E|[]]] D; [injection E as <-; now rewrite (decimal_fun _ _ _ D A)|discriminate E]|].
    split; [intros x r [E|[E|[]]] D; [discriminate E|injection E as <-; now rewrite (decimal_fun _ _ _ D B)]|].
    split; intros x r [E|[E|[]]] D; discriminate E.
Qed.
Lemma num_limits_pattern v w p a b s q : decimal_value v a -> decimal_value w b ->
  (number_allows s q [($"xsd:minInclusive", v); ($"xsd:maxInclusive", w); ($"xsd:pattern", p)] <-> (a <= q <= b)%Q /\ matches p s).
Proof.
  intros A B. split.
  - intros (H0 & _ & H1 & H2 & _). split; [split; [apply (H1 v); [now left|exact A]|apply (H2 w); [right; now left|exact B]]|].
    destruct H0 as (x & [E|[E|[E|[]]]] & M); [exists p; right; right; now left|discriminate E|discriminate E|]. injection E as ->. exact M.
  - intros [[H1 H2] M]. split; [intros _; exists p; split; [right; right; now left|exact M]|]. split; [intros (x & [E|[E|[E|[]]]]); discriminate E|].
    split; [intros x r [E|[E|[E|[]]]] D; try discriminate E; injection E as <-; now rewrite (decimal_fun _ _ _ D A)|].
    split; [intros x r [E|[E|[E|[]]]] D; try discriminate E; injection E as <-; now rewrite (decimal_fun _ _ _ D B)|].
    split; intros x r [E|[E|[E|[]]]] D; discriminate E.
Qed.
Lemma num_below_pattern v w p a b s q : decimal_value v a -> decimal_value w b ->
  (number_allows s q [($"xsd:minInclusive", v); ($"xsd:maxExclusive", w); ($"xsd:pattern", p)] <-> ((a <= q)%Q /\ (q < b)%Q) /\ matches p s).
Proof.
  intros A B. split.
  - intros (H0 & _ & H1 & _ & _ & H2). split; [split; [apply (H1 v); [now left|exact A]|apply (H2 w); [right; now left|exact B]]|].
    destruct H0 as (x & [E|[E|[E|[]]]] & M); [exists p; right; right; now left|discriminate E|discriminate E|]. injection E as ->. exact M.
  - intros [[H1 H2] M]. split; [intros _; exists p; split; [right; right; now left|exact M]|]. split; [intros (x & [E|[E|[E|[]]]]); discriminate E|].
    split; [intros x r [E|[E|[E|[]]]] D; try discriminate E; injection E as <-; now rewrite (decimal_fun _ _ _ D A)|].
    split; [intros x r [E|[E|[E|[]]]] D; discriminate E|]. split; [intros x r [E|[E|[E|[]]]] D; discriminate E|].
    intros x r [E|[E|[E|[]]]] D; try discriminate E; injection E as <-; now rewrite (decimal_fun _ _ _ D B).
Qed.
Lemma num_enum l s q : (exists v, In v l /\ decimal_value v q) -> number_allows s q (map (fun v => ($"xsd:enumeration", v)) l).
Proof.
  intros (v & I & D). split; [intros (p & J); apply in_map_iff in J as (y & E & _); discriminate (f_equal fst E)|].
  split; [intros _; exists v; split; [apply in_map_iff; now exists v|exact D]|].
  do 3 (split; [intros x r J; apply in_map_iff in J as (y & E & _); discriminate (f_equal fst E)|]).
  intros x r J; apply in_map_iff in J as (y & E & _); discriminate (f_equal fst E).
Qed.
(** literals *)
Ltac decimal_lit sg a b := exists sg, a, b; split; [first [left; split; reflexivity|right; reflexivity]|]; split; [cbn [In]; tauto|];
  split; [reflexivity|]; split; [discriminate|]; vm_compute; reflexivity.
Lemma lit_m5 : decimal_value $"-5.0" (-5). Proof. decimal_lit $"-" $"5" $"0". Qed.
Lemma lit_35 : decimal_value $"35.0" 35. Proof. decimal_lit (@nil ascii) $"35" $"0". Qed.
Lemma lit_0 : decimal_value $"0.0" 0. Proof. decimal_lit (@nil ascii) $"0" $"0". Qed.
Lemma lit_360 : decimal_value $"360.0" 360. Proof. decimal_lit (@nil ascii) $"360" $"0". Qed.
Lemma lit_m90 : decimal_value $"-90.0" (-90). Proof. decimal_lit $"-" $"90" $"0". Qed.
Lemma lit_90 : decimal_value $"90.0" 90. Proof. decimal_lit (@nil ascii) $"90" $"0". Qed.

(** ** The pattern of decimal numbers *)
Definition dec_pattern : str := $"[+\-]?(0|([1-9][0-9]*))(\.[0-9]*)?".
Definition w8_pattern : str := $"[+\-]?[0123456789\.]{1,7}".
Definition sign_pat : pat := PRep (PSet false [("+", "+"); ("-", "-")]%char) 0 (Some 1).
Definition dig_set : pat := PSet false [("0", "9")]%char.
Definition frac_pat (mx : option nat) : pat := PSeq (PSet false [(".", ".")]%char) (PSeq (PRep dig_set 0 mx) PEps).
Lemma sign_lang x : lang sign_pat x <-> In x [[]; $"+"; $"-"].
Proof.
  unfold sign_pat. rewrite lang_opt. cbn [lang]. split.
  - intros [->|(c & -> & H)]; [now left|]. unfold in_ranges in H. cbn [existsb fst snd] in H. rewrite orb_false_r, xorb_false_l in H.
    change (in_ranges [("+", "+"); ("-", "-")]%char c) with (in_ranges (map (fun x => (x, x)) ["+"; "-"]%char) c) in H.
    assert (In c ["+"; "-"]%char) as I.
    { apply in_points. unfold in_ranges. cbn [map existsb fst snd]. rewrite orb_false_r, xorb_false_l. exact H. }
    destruct I as [<-|[<-|[]]]; [right; now left|right; right; now left].
  - intros [<-|[<-|[<-|[]]]]; [now left|right; exists "+"%char; split; reflexivity|right; exists "-"%char; split; reflexivity].
Qed.
Lemma frac_lang mx y : lang (PRep (frac_pat mx) 0 (Some 1)) y <->
  y = [] \/ exists b, y = point :: b /\ forallb isdig b = true /\ match mx with Some k => length b <= k | None => True end.
Proof.
  rewrite lang_opt. unfold frac_pat. rewrite lang_char. split.
  - intros [->|(t & -> & H)]; [now left|]. right. exists t. split; [reflexivity|]. apply (proj1 (lang_end _ _)) in H. apply lang_rep_set in H as (A & _ & B).
    rewrite r_digs in A. now split.
  - intros [->|(b & -> & A & B)]; [now left|]. right. exists b. split; [reflexivity|]. apply (proj2 (lang_end _ _)), lang_rep_set. rewrite r_digs. split; [exact A|]. split; [lia|exact B].
Qed.
Lemma dec_read : pattern dec_pattern =
  Some (PSeq sign_pat (PSeq (PAlt (PSeq (PSet false [("0", "0")]%char) PEps)
     (PSeq (PSeq (PSet false [("1", "9")]%char) (PSeq (PRep dig_set 0 None) PEps)) PEps)) (PSeq (PRep (frac_pat None) 0 (Some 1)) PEps))).
Proof. vm_compute. reflexivity. Qed.
Lemma r_19 : forall c, xorb false (in_ranges [("1", "9")]%char c) = isdig c && negb (ceqb c "0").
Proof. apply eqb_ascii. vm_compute. reflexivity. Qed.
Definition plain_shape (s : str) : Prop :=
  exists sg a t, s = sg ++ a :: t /\ In sg [[]; $"+"; $"-"] /\ isdig a = true /\ (a = "0"%char -> forall b t', t = b :: t' -> isdig b = false).
Lemma dec_shape s q : decimal_value s q -> (matches dec_pattern s <-> plain_shape s).
Proof.
  intro D. rewrite (matches_lang _ _ s dec_read). split.
  - intro H. apply lang_seq in H as (sg & w & -> & Hs & H). apply sign_lang in Hs. apply lang_seq in H as (x & y & -> & Hx & Hy). apply (proj1 (lang_end _ _)) in Hy.
    destruct Hx as [Hx|Hx].
    + apply lang_char in Hx as (t & -> & Ht). cbn [lang] in Ht. subst t. exists sg, "0"%char, y. split; [reflexivity|]. split; [exact Hs|]. split; [reflexivity|].
      intros _ b t' ->. apply frac_lang in Hy as [E|(b' & E & _)]; [discriminate E|]. injection E as -> _. reflexivity.
    + apply (proj1 (lang_end _ _)) in Hx. apply lang_seq in Hx as (c & v & -> & (x & -> & Hc) & Hv). rewrite r_19 in Hc. apply andb_prop in Hc as [C1 C2].
      exists sg, x, (v ++ y). split; [reflexivity|]. split; [exact Hs|]. split; [exact C1|]. intros ->. discriminate C2.
  - intros (sg & a & t & -> & Hs & Ha & Hz). apply decimal_numeral in D as (sg' & w & x & y & E & I & M & _).
    destruct (numeral_chars _ _ _ M) as [C1 N1].
    assert (sg = sg' /\ a :: t = w) as [<- Ew].
    { destruct Hs as [<-|[<-|[<-|[]]]], I as [<-|[<-|[<-|[]]]]; cbn [app lit list_ascii_of_string] in E; try (split; [reflexivity|]; try (injection E as E1 E2; rewrite E1 || idtac); try congruence).
      all: exfalso; first [injection E as E1 E2; subst a; discriminate Ha | rewrite <- E in C1; discriminate C1 | discriminate E]. }
    exists sg, (a :: t). split; [reflexivity|]. split; [now apply sign_lang|]. rewrite Ew in *. clear E Hs I.
    assert (exists y', w = x ++ y' /\ lang (PRep (frac_pat None) 0 (Some 1)) y' /\ forallb isdig x = true) as (y' & E & Hy & Hx).
    { destruct M as [z D N|z b D1 D2 N].
      - exists []. rewrite app_nil_r. split; [reflexivity|]. split; [apply frac_lang; now left|exact D].
      - exists (point :: b). split; [reflexivity|]. split; [apply frac_lang; right; exists b; auto|exact D1]. }
    exists x, y'. split; [exact E|]. split; [|now apply (proj2 (lang_end _ _))].
    destruct x as [|c x].
    { exfalso. cbn [app] in E. subst y'. apply frac_lang in Hy as [E|(b & E & _)]; [now elim N1|]. rewrite E in Ew. injection Ew as -> _. discriminate Ha. }
    rewrite E in Ew. cbn [app] in Ew. injection Ew as -> ->. cbn [forallb] in Hx. apply andb_prop in Hx as [Hc Hx].
    destruct (ceqb c "0") eqn:E0.
    + apply ceqb_eq in E0. subst c. left. apply lang_char. exists x. split; [reflexivity|]. cbn [lang]. destruct x as [|b x]; [reflexivity|]. exfalso.
      specialize (Hz eq_refl b (x ++ y') eq_refl). cbn [forallb] in Hx. rewrite Hz in Hx. discriminate Hx.
    + right. apply (proj2 (lang_end _ _)). exists [c], x. split; [reflexivity|]. split; [exists c; split; [reflexivity|]; now rewrite r_19, Hc, E0|].
      apply (proj2 (lang_end _ _)), lang_rep_set. rewrite r_digs. split; [exact Hx|]. split; [lia|exact Logic.I].
Qed.
Lemma w8_read : pattern w8_pattern = Some (PSeq sign_pat (PSeq (PRep (PSet false (map (fun x => (x, x)) ["0"; "1"; "2"; "3"; "4"; "5"; "6"; "7"; "8"; "9"; "."]%char)) 1 (Some 7)) PEps)).
Proof. vm_compute. reflexivity. Qed.
Lemma r_body : forall c, xorb false (in_ranges (map (fun x => (x, x)) ["0"; "1"; "2"; "3"; "4"; "5"; "6"; "7"; "8"; "9"; "."]%char) c) = body_char c.
Proof. apply eqb_ascii. vm_compute. reflexivity. Qed.
Lemma w8_shape s q : decimal_value s q -> length s <= 7 -> matches w8_pattern s.
Proof.
  intros D L. rewrite (matches_lang _ _ s w8_read). apply decimal_numeral in D as (sg & w & a & b & -> & I & M & _).
  destruct (numeral_chars _ _ _ M) as [C N]. exists sg, w. split; [reflexivity|]. split; [now apply sign_lang|].
  apply (proj2 (lang_end _ _)), lang_rep_set. rewrite (forallb_eq _ _ w r_body). split; [exact C|]. rewrite app_length in L. split; [|lia].
  destruct w; [now elim N|cbn; lia].
Qed.

Section Numbers.
Variable F : derivation -> str -> Prop.
Hypothesis R : reads_decimals F.
Notation G := general_xsd.
Lemma number_type t l s : chain_of G $"xsd:decimal" 6 $t = Some l -> strip s = s ->
  (simple F G $t s <-> exists q, decimal_value s q /\ Forall (number_allows s q) l).
Proof. intros H E. rewrite (chain_of_simple F G $"xsd:decimal" 6 $t l s eq_refl H), (R l s), (trim_id s E). reflexivity. Qed.
Lemma mag_type s : strip s = s -> length s <= 7 -> (simple F G $"MagType" s <-> exists q, plain_number s q /\ (-5 <= q <= 35)%Q).
Proof.
  intros E L. rewrite (number_type "MagType" [[($"xsd:minInclusive", $"-5.0"); ($"xsd:maxInclusive", $"35.0")]; [($"xsd:pattern", w8_pattern)]; [($"xsd:pattern", dec_pattern)]] s ltac:(vm_compute; reflexivity) E).
  split.
  - intros (q & D & H). apply forall_3 in H as (H1 & _ & H3). apply (proj1 (num_limits _ _ _ _ _ _ lit_m5 lit_35)) in H1. apply (proj1 (num_pattern _ _ _)), (proj1 (dec_shape s q D)) in H3.
    exists q. split; [split; [exact D|exact H3]|exact H1].
  - intros (q & [D P] & H). exists q. split; [exact D|]. apply forall_3. split; [now apply (num_limits _ _ _ _ _ _ lit_m5 lit_35)|].
    split; apply num_pattern; [now apply (w8_shape s q)|now apply (dec_shape s q)].
Qed.
Lemma enum_number t l s q : chain_of G $"xsd:decimal" 6 $t = Some [map (fun v => ($"xsd:enumeration", v)) l] -> strip s = s -> decimal_value s q -> In s l ->
  simple F G $t s.
Proof.
  intros H E D I. apply (number_type t _ s H E). exists q. split; [exact D|]. constructor; [|constructor]. apply num_enum. exists s. auto.
Qed.
End Numbers.
