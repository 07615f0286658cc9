(** Precisions that are refused. *)
From Verif Require Import SexVals SexSpec SexProofs4 SexProofs19 SexProofs20 SexProofs21 SexProofs22 SexProofs23.
Local Open Scope Z_scope.

Lemma int_log10_tens x : (10 <= x)%Q -> 1 <= int_log10 x.
Proof.
  intros H. assert (L : 1 <= log10_floor x).
  { unfold log10_floor. assert (Qle_bool 1 x = true) as -> by (apply Qle_bool_iff; Lqa.lra).
    apply (up_ge x 1).
    - rewrite t10_Z by lia. exact H.
    - lia.
    - lia. }
  unfold int_log10, log10_exact.
  destruct (Qeq_bool x (rnd (decimal 1 (log10_floor x)))); [exact L|].
  destruct (Qeq_bool x (rnd (decimal 1 (log10_floor x + 1)))); [lia|].
  destruct (log10_floor x <? 0) eqn:E; [apply Z.ltb_lt in E; lia|exact L].
Qed.
Lemma coarse_text x p : (fval p <= 0)%Q \/ (fneg p = false /\ (10 <= fmag p)%Q) -> seconds_text x p = Err ValueError.
Proof.
  intros H. unfold seconds_text. destruct (Qle_bool (fval p) 0) eqn:E; [reflexivity|]. destruct H as [H|[_ H]].
  - apply Qle_bool_iff in H. congruence.
  - pose proof (int_log10_tens (fmag p) H). assert (- int_log10 (fmag p) <? 0 = true) as -> by (apply Z.ltb_lt; lia). reflexivity.
Qed.
Lemma coarse_ra t f p : pyfloat t = Ok f -> ~ minutes_only p -> (fval p <= 0)%Q \/ (fneg p = false /\ (10 <= fmag p)%Q) ->
  decRaToSexRa t p = Err ValueError /\ degDeclToSexDecl t p = Err ValueError.
Proof.
  intros P M H. destruct (not_minutes p M) as (A & B & C). split.
  - unfold decRaToSexRa. rewrite P. cbn [rbind]. rewrite A, B, C. rewrite coarse_text by exact H. reflexivity.
  - unfold degDeclToSexDecl. rewrite P. cbn [rbind].
    destruct (if fltb _ _ then _ else _) as [sg rv].
    rewrite A, B, C. rewrite coarse_text by exact H. reflexivity.
Qed.
