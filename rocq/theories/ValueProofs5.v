(** Lemmas about ValueSpec, part 5: times. *)
From Verif Require Import PyStrProofs SchemaProofs1 SchemaProofs2 SchemaProofs3.
From Verif Require Import PyFloat PyFloatProofs SexVals SexSpec SexProofs1 SexProofs13 SexProofs15 SexProofs16 SexProofs18.
From Verif Require Import PackProofs5 XsdPattern XsdFiles XsdMatch IdSpec IdProofs3 IdProofs4 IdProofs5 ValueSpec ValueProofs1 ValueProofs2 ValueProofs3.
From Coq Require Import Lqa.
Local Open Scope Z_scope.

Definition time_pattern : str := $"\d{4}-\d{2}-\d{2}T\d{2}:\d{2}:\d{2}(\.\d{1,6})?Z".
Definition time_pat : pat := Eval vm_compute in match pattern time_pattern with Some p => p | None => PEps end.
Lemma time_read : pattern time_pattern = Some time_pat. Proof. vm_compute. reflexivity. Qed.
Lemma num_digs w n : (1 <= w)%nat -> 0 <= n < 10 ^ Z.of_nat w -> forall q s, lang q s -> lang (PSeq (PRep dig_set w (Some w)) q) (num w n ++ s).
Proof.
  intros W H q s Q. destruct (num_spec w n W H) as (L & A & _). apply lang_split; [|exact Q]. apply lang_digs; [exact A|lia|lia].
Qed.
Lemma year_digs y : 1600 <= y <= 9999 -> forall q s, lang q s -> lang (PSeq (PRep dig_set 4 (Some 4%nat)) q) (dec y ++ s).
Proof.
  intros H q s Q. apply lang_split; [|exact Q]. destruct (year_shape y H) as (a & b & c & e & E & B & C & D & _).
  pose proof (dec_alldig y ltac:(lia)) as A. apply lang_digs; [exact A|rewrite E; cbn; lia|rewrite E; cbn; lia].
Qed.
Lemma time_matches y m d sec f : calendar y m d -> 0 <= sec < 86400 -> forallb isdig f = true -> (length f <= 6)%nat -> matches time_pattern (iso_time y m d sec f).
Proof.
  intros (Hy & Hm & Hd) Hs Hf Lf. apply (matches_lang _ _ _ time_read).
  assert (d <= 31) as Hd31 by (unfold month_days in Hd; destruct (m =? 2); [destruct (is_leap y)|destruct ((m =? 4) || (m =? 6) || (m =? 9) || (m =? 11))]; lia).
  unfold iso_time, iso_day_time. rewrite <- !app_assoc.
  change time_pat with (PSeq (PRep dig_set 4 (Some 4%nat)) (PSeq (PSet false [("-", "-")]%char) (PSeq (PRep dig_set 2 (Some 2%nat)) (PSeq (PSet false [("-", "-")]%char)
    (PSeq (PRep dig_set 2 (Some 2%nat)) (PSeq (PSet false [("T", "T")]%char) (PSeq (PRep dig_set 2 (Some 2%nat)) (PSeq (PSet false [(":", ":")]%char)
    (PSeq (PRep dig_set 2 (Some 2%nat)) (PSeq (PSet false [(":", ":")]%char) (PSeq (PRep dig_set 2 (Some 2%nat))
    (PSeq (PRep (PSeq (PSet false [(".", ".")]%char) (PSeq (PRep dig_set 1 (Some 6%nat)) PEps)) 0 (Some 1%nat)) (PSeq (PSet false [("Z", "Z")]%char) PEps))))))))))))).
  assert (0 <= sec / 3600 < 24) as B1 by (split; [apply Z.div_pos; lia|apply Z.div_lt_upper_bound; lia]).
  assert (0 <= sec / 60 mod 60 < 60) as B2 by (apply Z.mod_pos_bound; lia).
  assert (0 <= sec mod 60 < 60) as B3 by (apply Z.mod_pos_bound; lia).
  assert (10 ^ Z.of_nat 2 = 100) as P2 by reflexivity.
  apply year_digs; [exact Hy|]. apply (lang_head "-"). apply num_digs; [lia|lia|]. apply (lang_head "-"). apply num_digs; [lia|lia|].
  apply (lang_head "T"). apply num_digs; [lia|lia|]. apply (lang_head ":"). apply num_digs; [lia|lia|]. apply (lang_head ":"). apply num_digs; [lia|lia|].
  apply lang_split; [|apply (lang_head "Z"), lang_eps]. destruct f as [|a f]; [apply lang_none|]. apply lang_some. apply (lang_head "."). apply lang_last, lang_digs; [exact Hf|cbn; lia|exact Lf].
Qed.

Section Times.
Variable F : derivation -> str -> Prop.
Hypothesis R : reads_times F.
Notation G := general_xsd.
Lemma time_type y m d sec f : calendar y m d -> 0 <= sec < 86400 -> forallb isdig f = true -> (length f <= 6)%nat ->
  simple F G $"TimeType" (iso_time y m d sec f).
Proof.
  intros C S D L. apply (proj2 (union_simple F G $"TimeType" (Elem $"xsd:union" [($"memberTypes", $"TimeHelp LeapSecondsHelp")] [] []) _ _ ltac:(vm_compute; reflexivity) ltac:(vm_compute; reflexivity) ltac:(vm_compute; reflexivity) eq_refl)).
  exists $"TimeHelp". split; [vm_compute; left; reflexivity|].
  apply (proj2 (chain_of_simple F G $"xsd:dateTime" 6 $"TimeHelp" [[($"xsd:pattern", time_pattern)]] _ ltac:(vm_compute; reflexivity) ltac:(vm_compute; reflexivity))).
  apply (R [[($"xsd:pattern", time_pattern)]] y m d sec f C S D).
  { intros fs k v [<-|[]] [E|[]]. exact (eq_sym (f_equal fst E)). }
  constructor; [|constructor]. apply (proj2 (one_pattern _ _)). now apply time_matches.
Qed.
(** every time that comes from the 17 columns of a date is one; its precision is enumerated *)
Lemma date_time y m d k N t p : calendar y m d -> (1 <= k <= 6)%nat -> 0 <= N < 10 ^ Z.of_nat k -> checkDate (date_text y m d k N) false = Ok (t, p) ->
  exists sec f, t = iso_time y m d sec f /\ 0 <= sec < 86400 /\ forallb isdig f = true /\ (length f <= 6)%nat /\ p = PInt (10 ^ (6 - Z.of_nat k)).
Proof.
  intros C K HN H. set (n := N * 10 ^ (6 - Z.of_nat k)).
  assert (0 <= n < 1000000) as Bn.
  { unfold n. assert (0 < 10 ^ (6 - Z.of_nat k)) by (apply Z.pow_pos_nonneg; lia). assert (10 ^ Z.of_nat k * 10 ^ (6 - Z.of_nat k) = 1000000) as E by (rewrite <- Z.pow_add_r by lia; replace (Z.of_nat k + (6 - Z.of_nat k)) with 6 by lia; reflexivity). nia. }
  destruct (in_dec Z.eq_dec n (map (Z.mul 625) short_by_rounding)) as [I|NI].
  - apply in_map_iff in I as (j & Ej & I). assert (0 <= 54 * j < 86400) as Bj by (clearbody n; clear - Ej Bn; lia). destruct (date_bad y m d k N j C K HN (eq_sym Ej) I) as [_ D]. rewrite D in H. destruct (Nat.eqb k 6); [discriminate H|].
    exists (54 * j), $"1000". split; [injection H as <- _; reflexivity|]. split; [exact Bj|]. split; [reflexivity|]. split; [cbn; lia|]. injection H as _ <-. reflexivity.
  - destruct (date_ok y m d k N C K HN NI) as [D _]. rewrite D in H. fold n in H. exists (864 * n / 10000), (num 3 ((864 * n mod 10000 + 5) / 10)).
    assert (0 <= 864 * n mod 10000 < 10000) as Bm by (apply Z.mod_pos_bound; lia).
    assert (0 <= (864 * n mod 10000 + 5) / 10 <= 1000) as Bq by (split; [apply Z.div_pos; lia|]; enough ((864 * n mod 10000 + 5) / 10 < 1001) by lia; apply Z.div_lt_upper_bound; lia).
    set (q := (864 * n mod 10000 + 5) / 10) in *. clearbody q.
    assert (exists a f, num 3 q = a :: f /\ forallb isdig (num 3 q) = true /\ (length (num 3 q) <= 6)%nat) as (a & f & E & A & L).
    { destruct (Z.eq_dec q 1000) as [->|NE].
      - exists "1"%char, $"000". split; [reflexivity|]. split; [reflexivity|apply Nat.leb_le; vm_compute; reflexivity].
      - destruct (num_spec 3 q ltac:(lia) ltac:(change (10 ^ Z.of_nat 3) with 1000; lia)) as (L & A & _). destruct (num 3 q) as [|a f]; [discriminate L|].
        exists a, f. split; [reflexivity|]. split; [exact A|lia]. }
    split; [injection H as <- _; unfold iso_time; rewrite E; reflexivity|]. split; [split; [apply Z.div_pos; lia|apply Z.div_lt_upper_bound; lia]|]. split; [exact A|]. split; [exact L|].
    injection H as _ <-. reflexivity.
Qed.
Lemma time_fine w t p : length w = 17%nat -> checkDate w false = Ok (t, p) -> simple F G $"TimeType" t.
Proof.
  intros L H. destruct (date_only w false _ L H) as (y & m & d & k & N & C & K & HN & ->).
  destruct (date_time y m d k N t p C K HN H) as (sec & f & -> & S & D & Lf & _). now apply time_type.
Qed.
Lemma time_prec_fine w t p : reads_decimals F -> length w = 17%nat -> checkDate w false = Ok (t, p) -> simple F G $"TimePrecType" (prec_str p).
Proof.
  intros R' L H. destruct (date_only w false _ L H) as (y & m & d & k & N & C & K & HN & ->).
  destruct (date_time y m d k N t p C K HN H) as (_ & _ & _ & _ & _ & _ & ->). cbn [prec_str].
  assert (In (Z.of_nat k) [1; 2; 3; 4; 5; 6]) as I by (cbn [In]; lia).
  apply (enum_number F R' "TimePrecType" [$"100000"; $"10000"; $"1000"; $"100"; $"10"; $"1"; $"41667"; $"4167"; $"694"; $"69"] _ (inject_Z (10 ^ (6 - Z.of_nat k)))).
  - vm_compute. reflexivity.
  - destruct I as [<-|[<-|[<-|[<-|[<-|[<-|[]]]]]]]; vm_compute; reflexivity.
  - exists [], (dec (10 ^ (6 - Z.of_nat k))), []. split; [left; split; reflexivity|]. split; [now left|]. rewrite app_nil_r.
    assert (0 <= 10 ^ (6 - Z.of_nat k)) as P by (apply Z.pow_nonneg; lia).
    split; [now apply dec_alldig|]. split; [destruct I as [<-|[<-|[<-|[<-|[<-|[<-|[]]]]]]]; vm_compute; discriminate|].
    rewrite dec_val by exact P. change (streqb [] $"-") with false. cbn iota. change (length (@nil ascii)) with 0%nat. change (inject_Z (10 ^ Z.of_nat 0)) with 1%Q. field.
  - destruct I as [<-|[<-|[<-|[<-|[<-|[<-|[]]]]]]];
      [left|right; left|right; right; left|do 3 right; left|do 4 right; left|do 5 right; left]; vm_compute; reflexivity.
Qed.
End Times.
