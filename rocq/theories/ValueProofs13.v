(** Lemmas about ValueSpec, part 13: the types of radar values. *)
From Verif Require Import PyStrProofs Mpc80Spec.
From Verif Require Import XsdPattern XsdFiles IdSpec IdProofs3 IdProofs4 IdProofs5 ValueSpec ValueProofs1 ValueProofs2 ValueProofs3 ValueProofs8 ValueProofs10.
Local Open Scope nat_scope.
Notation G := general_xsd.

Definition pos_pattern : str := $"(0|([1-9][0-9]*))(\.[0-9]*)?".
Definition pos_pat : pat := PSeq (PAlt (PSeq (PSet false [("0", "0")]%char) PEps)
     (PSeq (PSeq (PSet false [("1", "9")]%char) (PSeq (PRep dig_set 0 None) PEps)) PEps)) (PSeq (PRep (frac_pat None) 0 (Some 1)) PEps).
Lemma pos_read : pattern pos_pattern = Some pos_pat. Proof. vm_compute. reflexivity. Qed.
Definition body_set : pat := PSet false (map (fun x => (x, x)) ["0"; "1"; "2"; "3"; "4"; "5"; "6"; "7"; "8"; "9"; "."]%char).
Lemma unsigned_body s : forallb body_char s = true -> unsigned s = s.
Proof.
  destruct s as [|c s]; [reflexivity|]. cbn [forallb unsigned]. intro H. apply andb_prop in H as [H _].
  assert (one_of $"+-" c = false) as ->; [|reflexivity]. revert c H. apply implf_ascii. vm_compute. reflexivity.
Qed.
Lemma unsigned_parts sg w : In sg [[]; $"+"; $"-"] -> forallb body_char w = true -> unsigned (sg ++ w) = w.
Proof. intros [<-|[<-|[<-|[]]]] B; [exact (unsigned_body w B)|reflexivity|reflexivity]. Qed.
Lemma decimal_parts s q : decimal_value s q -> exists sg, s = sg ++ unsigned s /\ In sg [[]; $"+"; $"-"] /\ forallb body_char (unsigned s) = true /\ unsigned s <> [].
Proof.
  intro D. apply decimal_numeral in D as (sg & w & a & b & -> & I & M & _). destruct (numeral_chars _ _ _ M) as [C N].
  exists sg. rewrite (unsigned_parts sg w I C). auto.
Qed.
Lemma unsigned_len s : unsigned s = s \/ length s = S (length (unsigned s)).
Proof. destruct s as [|c s]; [now left|]. cbn [unsigned]. destruct (one_of $"+-" c); [now right|now left]. Qed.
Lemma pos_shape s q : decimal_value s q -> (matches pos_pattern s <-> plain_shape s /\ unsigned s = s).
Proof.
  intro D. rewrite (matches_lang _ _ s pos_read), <- (dec_shape s q D), (matches_lang _ _ s dec_read). change (PSeq (PAlt _ _) _) with pos_pat. split.
  - intro H. split.
    + exists [], s. split; [reflexivity|]. split; [apply sign_lang; now left|exact H].
    + unfold pos_pat in H. apply lang_seq in H as (x & y & -> & Hx & _).
      assert (exists c t, x = c :: t /\ isdig c = true) as (c & t & -> & C).
      { destruct Hx as [Hx|Hx].
        - apply lang_char in Hx as (t & -> & _). exists "0"%char, t. split; reflexivity.
        - apply (proj1 (lang_end _ _)) in Hx. apply lang_seq in Hx as (c & v & -> & (x & -> & Hc) & _). rewrite r_19 in Hc. apply andb_prop in Hc as [C1 _]. exists x, v. split; [reflexivity|exact C1]. }
      cbn [app unsigned]. assert (one_of $"+-" c = false) as ->; [|reflexivity]. clear -C. revert c C. apply implf_ascii. vm_compute. reflexivity.
  - intros [H U]. apply lang_seq in H as (sg & w & E & Hs & H). apply sign_lang in Hs.
    assert (sg = []) as ->; [|cbn [app] in E; now subst s]. destruct Hs as [<-|[<-|[<-|[]]]]; [reflexivity| |]; exfalso.
    all: rewrite E in U; cbn [app unsigned] in U; apply (f_equal (@length ascii)) in U; cbn [length app lit list_ascii_of_string unsigned] in U.
    all: change (length w = S (length w)) in U; lia.
Qed.
Lemma body_shape n s : 1 <= n -> s <> [] -> forallb body_char s = true -> (lang (PSeq (PRep body_set 1 (Some n)) PEps) s <-> length s <= n).
Proof.
  intros N Ne B. rewrite (lang_end _ s). unfold body_set. rewrite (lang_rep_set _ _ 1 (Some n) s), (forallb_eq _ _ s r_body). split; [tauto|].
  intro L. split; [exact B|]. split; [destruct s; [now elim Ne|cbn; lia]|exact L].
Qed.
(** [0-9.]{1,n} and a sign or not *)
Lemma width_shape p n s q : 1 <= n -> pattern p = Some (PSeq (PRep body_set 1 (Some n)) PEps) -> decimal_value s q -> unsigned s = s -> (matches p s <-> length s <= n).
Proof.
  intros N E D U. rewrite (matches_lang _ _ s E). destruct (decimal_parts s q D) as (sg & _ & _ & B & Ne). rewrite U in *. now apply body_shape.
Qed.
Lemma signed_shape s q : decimal_value s q -> (matches w14_pattern s <-> length (unsigned s) <= 13).
Proof.
  intros D. rewrite (matches_lang _ _ s w14_read). destruct (decimal_parts s q D) as (sg & E & I & B & Ne). split.
  - intro H. apply lang_seq in H as (sg' & w & E' & Hs & H). apply sign_lang in Hs. apply (proj1 (lang_end _ _)), lang_rep_set in H as (H1 & _ & H2).
    rewrite (forallb_eq _ _ w r_body) in H1. rewrite E', (unsigned_parts sg' w Hs H1). exact H2.
  - intro L. rewrite E. exists sg, (unsigned s). split; [reflexivity|]. split; [now apply sign_lang|]. apply (body_shape 13); auto. lia.
Qed.
Lemma lit_5 : decimal_value $"100000.0" 100000. Proof. decimal_lit (@nil ascii) $"100000" $"0". Qed.
Lemma num_open v w p a b s q : decimal_value v a -> decimal_value w b ->
  (number_allows s q [($"xsd:minExclusive", v); ($"xsd:maxExclusive", w); ($"xsd:pattern", p)] <-> ((a < q)%Q /\ (q < b)%Q) /\ matches p s).
Proof.
  intros A B. split.
  - intros (H0 & _ & _ & _ & H1 & H2). split; [split; [apply (H1 v); [now left|exact A]|apply (H2 w); [right; now left|exact B]]|].
    destruct H0 as (x & [E|[E|[E|[]]]] & M); [exists p; right; right; now left|discriminate E|discriminate E|]. injection E as ->. exact M.
  - intros [[H1 H2] M]. split; [intros _; exists p; split; [right; right; now left|exact M]|]. split; [intros (x & [E|[E|[E|[]]]]); discriminate E|].
    split; [intros x r [E|[E|[E|[]]]] D; discriminate E|]. split; [intros x r [E|[E|[E|[]]]] D; discriminate E|].
    split; intros x r [E|[E|[E|[]]]] D; try discriminate E; injection E as <-; [now rewrite (decimal_fun _ _ _ D A)|now rewrite (decimal_fun _ _ _ D B)].
Qed.
Lemma num_above v p a s q : decimal_value v a ->
  (number_allows s q [($"xsd:minExclusive", v); ($"xsd:pattern", p)] <-> (a < q)%Q /\ matches p s).
Proof.
  intros A. split.
  - intros (H0 & _ & _ & _ & H1 & _). split; [apply (H1 v); [now left|exact A]|].
    destruct H0 as (x & [E|[E|[]]] & M); [exists p; right; now left|discriminate E|]. injection E as ->. exact M.
  - intros [H1 M]. split; [intros _; exists p; split; [right; now left|exact M]|]. split; [intros (x & [E|[E|[]]]); discriminate E|].
    split; [intros x r [E|[E|[]]] D; discriminate E|]. split; [intros x r [E|[E|[]]] D; discriminate E|].
    split; intros x r [E|[E|[]]] D; try discriminate E; injection E as <-; now rewrite (decimal_fun _ _ _ D A).
Qed.
Section Types.
Variable F : derivation -> str -> Prop.
Hypothesis RD : reads_decimals F.
Lemma positive_type t p n s : 1 <= n -> chain_of G $"xsd:decimal" 6 $t = Some [[($"xsd:pattern", p)]; [($"xsd:minExclusive", $"0.0"); ($"xsd:maxExclusive", $"100000.0"); ($"xsd:pattern", pos_pattern)]] ->
  pattern p = Some (PSeq (PRep body_set 1 (Some n)) PEps) -> strip s = s -> (simple F G $t s <-> positive n s).
Proof.
  intros N C P E. rewrite (number_type F RD t _ s C E). split.
  - intros (q & D & H). apply forall_2 in H as (H1 & H2). apply (proj1 (num_open _ _ _ _ _ _ _ lit_0 lit_5)) in H2 as ((L1 & L2) & H2).
    apply (proj1 (pos_shape s q D)) in H2 as [S U]. apply (proj1 (num_pattern _ _ _)), (proj1 (width_shape p n s q N P D U)) in H1.
    exists q. split; [split; [exact D|exact S]|]. auto.
  - intros (q & [D S] & L1 & L2 & U & L). exists q. split; [exact D|]. apply forall_2. split.
    + apply (proj2 (num_pattern _ _ _)). now apply (proj2 (width_shape p n s q N P D U)).
    + apply (proj2 (num_open _ _ _ _ _ _ _ lit_0 lit_5)). split; [auto|]. apply (proj2 (pos_shape s q D)). auto.
Qed.
Lemma delay_type s : strip s = s -> (simple F G $"PosDecimalTypeW14" s <-> positive 14 s).
Proof. apply (positive_type "PosDecimalTypeW14" $"[0123456789\.]{1,14}" 14); [lia|vm_compute; reflexivity|vm_compute; reflexivity]. Qed.
Lemma rms_type s : strip s = s -> (simple F G $"PosDecimalTypeW6" s <-> positive 6 s).
Proof. apply (positive_type "PosDecimalTypeW6" $"[0123456789\.]{1,6}" 6); [lia|vm_compute; reflexivity|vm_compute; reflexivity]. Qed.
Lemma shift_type s : strip s = s -> (simple F G $"DecimalTypeW14" s <-> exists q, plain_number s q /\ length (unsigned s) <= 13).
Proof.
  intro E. rewrite (number_type F RD "DecimalTypeW14" [[($"xsd:pattern", w14_pattern)]; [($"xsd:pattern", dec_pattern)]] s ltac:(vm_compute; reflexivity) E). split.
  - intros (q & D & H). apply forall_2 in H as (H1 & H). apply (proj1 (num_pattern _ _ _)), (proj1 (dec_shape s q D)) in H. apply (proj1 (num_pattern _ _ _)), (proj1 (signed_shape s q D)) in H1. exists q. split; [split; [exact D|exact H]|exact H1].
  - intros (q & [D P] & L). exists q. split; [exact D|]. apply forall_2. split; apply num_pattern; [now apply (proj2 (signed_shape s q D))|now apply (dec_shape s q)].
Qed.
Lemma frq_type s : strip s = s -> unsigned s = s -> length s <= 16 -> (simple F G $"FrequencyType" s <-> exists q, decimal_value s q /\ (0 < q)%Q).
Proof.
  intros E U L. rewrite (number_type F RD "FrequencyType" [[($"xsd:minExclusive", $"0.0"); ($"xsd:pattern", $"[0123456789\.]{1,16}")]] s ltac:(vm_compute; reflexivity) E). split.
  - intros (q & D & H). apply Forall_inv in H. apply (proj1 (num_above _ _ _ _ _ lit_0)) in H as [H _]. eauto.
  - intros (q & D & H). exists q. split; [exact D|]. constructor; [|constructor]. apply (proj2 (num_above _ _ _ _ _ lit_0)). split; [exact H|].
    apply (proj2 (width_shape $"[0123456789\.]{1,16}" 16 s q ltac:(lia) ltac:(vm_compute; reflexivity) D U)). exact L.
Qed.
Lemma com_type s : reads_integers F -> In s [$"0"; $"1"] -> simple F G $"LogicalType" s.
Proof.
  intros RI I. apply (chain_of_simple F G $"xsd:integer" 6 $"LogicalType" [map (fun v => ($"xsd:enumeration", v)) [$"0"; $"1"]] _ eq_refl ltac:(vm_compute; reflexivity)). apply RI.
  assert (trim s = s) as -> by (destruct I as [<-|[<-|[]]]; vm_compute; reflexivity).
  assert (exists q, decimal_value s q) as (q & D).
  { destruct I as [<-|[<-|[]]]; [exists 0%Q; exists [], $"0", []|exists 1%Q; exists [], $"1", []];
      (split; [left; split; reflexivity|]; split; [now left|]; split; [reflexivity|]; split; [discriminate|]; vm_compute; reflexivity). }
  split; [destruct I as [<-|[<-|[]]]; intros [X|[]]; discriminate X|]. exists q. split; [exact D|]. constructor; [|constructor]. apply num_enum. exists s. auto.
Qed.
End Types.
