(** Lemmas about ValueSpec, part 8: references and catalogues. *)
From Verif Require Import PyStrProofs PackUtil Codes PackProofs14 JsonProofs2 Back80Proofs3 Back80Proofs1.
From Verif Require Import IdProofs3 IdProofs5 ValueSpec XsdFiles ValueProofs1 ValueProofs6.
Local Open Scope Z_scope.

Lemma int_digits_range s : forall acc b z k, int_digits s acc b = Some z -> 0 <= acc < 10 ^ Z.of_nat k ->
  0 <= z < 10 ^ Z.of_nat (k + length s) /\ ~ In "|"%char s.
Proof.
  induction s as [|c s IH]; intros acc b z k H A; cbn [int_digits] in H.
  - destruct b; [|discriminate H]. injection H as <-. rewrite Nat.add_0_r. split; [exact A|intros []].
  - destruct (isdig c) eqn:D.
    + pose proof (digval_range _ D) as V. apply (IH _ _ _ (S k)) in H as [Z N].
      2:{ replace (Z.of_nat (S k)) with (Z.of_nat k + 1) by lia. rewrite Z.pow_add_r by lia. change (10 ^ 1) with 10. lia. }
      split; [replace (k + length (c :: s))%nat with (S k + length s)%nat by (cbn [length]; lia); exact Z|]. intros [->|I]; [discriminate D|contradiction].
    + destruct (ceqb c "_") eqn:U; [|discriminate H]. destruct b; [|discriminate H]. apply (IH _ _ _ (S k)) in H as [Z N].
      2:{ replace (Z.of_nat (S k)) with (Z.of_nat k + 1) by lia. rewrite Z.pow_add_r by lia. change (10 ^ 1) with 10. lia. }
      split; [replace (k + length (c :: s))%nat with (S k + length s)%nat by (cbn [length]; lia); exact Z|]. intros [->|I]; [discriminate U|contradiction].
Qed.
Lemma bar_strip s : In "|"%char s -> In "|"%char (strip s).
Proof.
  intro I. destruct (strip_decomp s) as (a & b & E & A & B). rewrite forallb_forall in A, B. rewrite E in I. apply in_app_or in I as [I|I]; [discriminate (A _ I)|].
  apply in_app_or in I as [I|I]; [exact I|discriminate (B _ I)].
Qed.
Lemma strip_len s : (length (strip s) <= length s)%nat.
Proof. destruct (strip_decomp s) as (a & b & E & _). rewrite E at 2. rewrite !app_length. lia. Qed.
Lemma py_int_range s z k : py_int s = Ok z -> (length s <= k)%nat -> - 10 ^ Z.of_nat k < z < 10 ^ Z.of_nat k /\ ~ In "|"%char s.
Proof.
  unfold py_int, pyint. intros H L. pose proof (strip_len s) as LS. destruct (strip s) as [|c t] eqn:E; [discriminate H|]. cbn [length] in LS.
  assert (forall u v, (length u <= k)%nat -> int_digits u 0 false = Some v -> 0 <= v < 10 ^ Z.of_nat k /\ ~ In "|"%char u) as K.
  { intros u v Lu Hu. apply (int_digits_range u 0 false v 0%nat) in Hu as [R N]; [|cbn; lia]. split; [|exact N].
    pose proof (Z.pow_le_mono_r 10 (Z.of_nat (0 + length u)) (Z.of_nat k) ltac:(lia) ltac:(lia)). lia. }
  assert (~ In "|"%char (c :: t) -> ~ In "|"%char s) as N by (rewrite <- E; intros N I; now apply N, bar_strip).
  destruct (ceqb c "+") eqn:P; [|destruct (ceqb c "-") eqn:M].
  - destruct (int_digits t 0 false) as [v|] eqn:V; [|discriminate H]. injection H as <-. apply K in V as [R Q]; [|lia]. split; [lia|]. apply N. intros [->|I]; [discriminate P|contradiction].
  - destruct (int_digits t 0 false) as [v|] eqn:V; [|discriminate H]. injection H as <-. apply K in V as [R Q]; [|lia]. split; [lia|]. apply N. intros [->|I]; [discriminate M|contradiction].
  - destruct (int_digits (c :: t) 0 false) as [v|] eqn:V; [|discriminate H]. injection H as <-. apply K in V as [R Q]; [|cbn [length]; lia]. split; [lia|]. now apply N.
Qed.
Lemma cfind_lt c s n : cfind c s = Some n -> (n < length s)%nat.
Proof. revert n. induction s as [|x s IH]; intros n H; [discriminate H|]. cbn [cfind] in H. destruct (ceqb x c); [injection H as <-; cbn; lia|]. destruct (cfind c s); [|discriminate H]. injection H as <-. specialize (IH n0 eq_refl). cbn [length]. lia. Qed.
Lemma letter_range c z : unpackLetter c = Ok z -> 0 <= z < 62 /\ c <> "|"%char.
Proof.
  unfold unpackLetter. intro H. destruct (cfind c packLetters) as [n|] eqn:E; [|discriminate H]. injection H as <-. split.
  - apply cfind_lt in E. change (length packLetters) with 62%nat in E. lia.
  - intros ->. discriminate E.
Qed.
Lemma radix_range c c1 c2 c3 c4 z : unRadix62_4 [c; c1; c2; c3; c4] = Ok z -> 0 <= z < 62 * 62 * 62 * 62 /\ ~ In "|"%char [c1; c2; c3; c4].
Proof.
  unfold unRadix62_4, chat. cbn [nth_error rbind]. intro H.
  destruct (unpackLetter c1) as [a|] eqn:E1; [|discriminate H]. destruct (unpackLetter c2) as [b|] eqn:E2; [|discriminate H].
  destruct (unpackLetter c3) as [d|] eqn:E3; [|discriminate H]. destruct (unpackLetter c4) as [e|] eqn:E4; [|discriminate H]. cbn [rbind] in H. injection H as <-.
  apply letter_range in E1 as [R1 N1], E2 as [R2 N2], E3 as [R3 N3], E4 as [R4 N4]. split; [lia|]. intros [X|[X|[X|[X|[]]]]]; congruence.
Qed.
Lemma dec_int_short n : - 100000000 < n < 100000000 -> (length (dec n) <= 9)%nat.
Proof.
  intro H. destruct (Z.ltb_spec n 0) as [L|L].
  - unfold dec. rewrite (proj2 (Z.ltb_lt n 0) L). pose proof (dec_short (- n) 8 ltac:(change (10 ^ Z.of_nat 8) with 100000000; lia) ltac:(lia)) as D.
    unfold dec in D. rewrite (proj2 (Z.ltb_ge (- n) 0) ltac:(lia)) in D. cbn [length]. lia.
  - pose proof (dec_short n 8 ltac:(change (10 ^ Z.of_nat 8) with 100000000; lia) ltac:(lia)). lia.
Qed.
Lemma dec_no_bar n : ~ In "|"%char (dec n).
Proof.
  intro I. assert (forall m, 0 <= m -> ~ In "|"%char (dec m)) as K.
  { intros m M J. pose proof (dec_alldig m M) as D. unfold alldig in D. pose proof (proj1 (forallb_forall _ _) D) as D2. clear D. rename D2 into D. discriminate (D _ J). }
  destruct (Z.ltb_spec n 0) as [L|L]; [|exact (K n L I)]. unfold dec in I. rewrite (proj2 (Z.ltb_lt n 0) L) in I. destruct I as [E|I]; [discriminate E|].
  specialize (K (- n) ltac:(lia)). unfold dec in K. rewrite (proj2 (Z.ltb_ge (- n) 0) ltac:(lia)) in K. contradiction.
Qed.
Lemma ok_inj {A} (a b : A) : Ok a = Ok b -> a = b. Proof. intro H. now injection H. Qed.
(** what a reference is unpacked to *)
Lemma ref_shape w r : length w = 5%nat -> unpackRef w = Ok r ->
  r = w \/ (~ In "|"%char w /\ exists q n, In q [$"MPC  "; $"MPS  "] /\ r = q ++ dec n /\ - 100000000 < n < 100000000).
Proof.
  destruct w as [|c [|c1 [|c2 [|c3 [|c4 [|]]]]]]; try discriminate. intros _ H. unfold unpackRef in H.
  assert (forall P : Prop, P -> In $"MPC  " [$"MPC  "; $"MPS  "] /\ In $"MPS  " [$"MPC  "; $"MPS  "]) as QQ by (intros; split; [now left|right; now left]). destruct (QQ True Logic.I) as [Q1 Q2]. clear QQ.
  destruct (cmem c _) eqn:E1.
  { destruct (py_int _) as [z|] eqn:P; [|discriminate H]. cbn [rbind] in H. assert (r = $"MPC  " ++ dec z) as -> by exact (eq_sym (ok_inj _ _ H)). apply (py_int_range _ _ 5) in P as [R N]; [|cbn; lia].
    right. split; [exact N|]. exists $"MPC  ", z. split; [exact Q1|]. split; [reflexivity|]. change (10 ^ Z.of_nat 5) with 100000 in R. lia. }
  destruct (ceqb c "@") eqn:E2.
  { destruct (py_int _) as [z|] eqn:P; [|discriminate H]. cbn [rbind] in H. assert (r = $"MPC  " ++ dec (100000 + z)) as -> by exact (eq_sym (ok_inj _ _ H)). apply (py_int_range _ _ 5) in P as [R N]; [|cbn; lia].
    right. split; [intros [->|X]; [discriminate E2|contradiction]|]. exists $"MPC  ", (100000 + z). split; [exact Q1|]. split; [reflexivity|]. change (10 ^ Z.of_nat 5) with 100000 in R. lia. }
  destruct (ceqb c "#") eqn:E3.
  { destruct (unRadix62_4 _) as [z|] eqn:P; [|discriminate H]. cbn [rbind] in H. assert (r = $"MPC  " ++ dec (110000 + z)) as -> by exact (eq_sym (ok_inj _ _ H)). apply radix_range in P as [R N].
    right. split; [intros [->|X]; [discriminate E3|contradiction]|]. exists $"MPC  ", (110000 + z). split; [exact Q1|]. split; [reflexivity|]. lia. }
  destruct (cfind c smalls) as [k|] eqn:E4.
  { destruct (py_int _) as [z|] eqn:P; [|discriminate H]. cbn [rbind] in H. assert (r = $"MPS  " ++ dec (z + 10000 * Z.of_nat k)) as -> by exact (eq_sym (ok_inj _ _ H)). apply (py_int_range _ _ 5) in P as [R N]; [|cbn; lia].
    right. split; [intros [->|X]; [discriminate E4|contradiction]|]. exists $"MPS  ", (z + 10000 * Z.of_nat k). split; [exact Q2|]. split; [reflexivity|]. apply cfind_lt in E4. change (length smalls) with 26%nat in E4. change (10 ^ Z.of_nat 5) with 100000 in R. lia. }
  destruct (ceqb c "~") eqn:E5.
  { destruct (unRadix62_4 _) as [z|] eqn:P; [|discriminate H]. cbn [rbind] in H. assert (r = $"MPS  " ++ dec (260000 + z)) as -> by exact (eq_sym (ok_inj _ _ H)). apply radix_range in P as [R N].
    right. split; [intros [->|X]; [discriminate E5|contradiction]|]. exists $"MPS  ", (260000 + z). split; [exact Q2|]. split; [reflexivity|]. lia. }
  left. injection H as <-. reflexivity.
Qed.
Lemma solid_strip s : strip s <> [] -> existsb solid_char (strip s) = true \/ In "|"%char (strip s).
Proof.
  intro N. destruct (strip s) as [|c t] eqn:E; [contradiction|]. pose proof (lstrip_head s) as H.
  assert (pyspace c = false) as P.
  { assert (exists u, lstrip s = c :: u) as (u & Q).
    { unfold strip in E. destruct (rstrip_prefix (lstrip s)) as (b & Q & _). rewrite E in Q. eexists. exact Q. }
    rewrite Q in H. exact H. }
  destruct (ceqb c "|") eqn:B; [right; left; now apply ceqb_eq in B|]. left. cbn [existsb].
  assert (solid_char c = true) as ->; [|reflexivity]. clear -P B. assert (forall c, implb (negb (pyspace c || ceqb c "|")) (solid_char c) = true) as S by (apply forall_ascii; vm_compute; reflexivity).
  specialize (S c). now rewrite P, B in S.
Qed.
Lemma no_bar_plain s : ~ In "|"%char s <-> forallb plain_char s = true.
Proof.
  rewrite forallb_forall. split.
  - intros N c I. unfold plain_char. destruct (ceqb c "|") eqn:E; [|reflexivity]. apply ceqb_eq in E. subst c. contradiction.
  - intros H I. discriminate (H _ I).
Qed.
Lemma ref_fine F w r : reads_texts F -> length w = 5%nat -> unpackRef w = Ok r -> ((strip r <> [] -> simple F general_xsd $"RefType" (strip r)) <-> ~ In "|"%char w).
Proof.
  intros R L U. rewrite (ref_type F R). destruct (ref_shape w r L U) as [->|(N & q & n & Q & -> & Rn)].
  - split.
    + intros H I. pose proof (bar_strip w I) as J. destruct H as [_ [H _]]; [intro E; rewrite E in J; destruct J|]. apply no_bar_plain in H. contradiction.
    + intros N E. assert (~ In "|"%char (strip w)) as N2 by (intro I; apply N; now apply strip_In). split; [pose proof (strip_len w); lia|].
      split; [now apply no_bar_plain|]. destruct (solid_strip w E) as [S|S]; [exact S|contradiction].
  - split; [intros _; exact N|]. intros _ E.
    assert (~ In "|"%char (strip (q ++ dec n))) as N2.
    { intro I. apply strip_In in I. apply in_app_or in I as [I|I]; [|exact (dec_no_bar n I)]. destruct Q as [<-|[<-|[]]]; repeat (destruct I as [I|I]; [discriminate I|]); exact I. }
    split.
    + pose proof (strip_len (q ++ dec n)) as SL. rewrite app_length in SL. pose proof (dec_int_short n Rn). assert (length q = 5%nat) by (destruct Q as [<-|[<-|[]]]; reflexivity). lia.
    + split; [now apply no_bar_plain|]. destruct (solid_strip _ E) as [S|S]; [exact S|contradiction].
Qed.
