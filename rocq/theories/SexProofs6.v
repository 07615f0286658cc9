(** Reading sexagesimal texts. *)
From Verif Require Import PyStrProofs PyReInv PackProofs2 PyFloat PyFloatProofs SexVals SexSpec SexProofs1 SexProofs2 SexProofs3 SexProofs4 SexProofs5.
From Coq Require Import Lqa.
Open Scope Z_scope.

Lemma digs_alldig w : forallb (incls c_digit) w = true -> alldig w = true.
Proof.
  intros H. unfold alldig. rewrite forallb_forall in *. intros c I. rewrite <- k_digit_eq. auto.
Qed.
Lemma alldig_digs w : alldig w = true -> forallb (incls c_digit) w = true.
Proof. intros H. unfold alldig in H. rewrite forallb_forall in *. intros c I. rewrite k_digit_eq. auto. Qed.
Lemma dig2_int w : forallb (incls c_digit) w = true -> (1 <= length w)%nat -> (length w <= 2)%nat -> exists v, py_int w = Ok v /\ 0 <= v < 100.
Proof.
  intros D L1 L2. apply digs_alldig in D. exists (decval w). split.
  - apply py_int_digits; auto. destruct w; cbn in L1; [lia|discriminate].
  - pose proof (decval_bound w D) as B. assert (10 ^ Z.of_nat (length w) <= 10 ^ 2) by (apply Z.pow_le_mono_r; lia). lia.
Qed.
Lemma pyfloat_point a b : alldig a = true -> alldig b = true -> a <> [] ->
  exists f, pyfloat (a ++ "."%char :: b) = Ok f /\ isp f (rnd (inject_Z (decval (a ++ b)) * i10 (length b))).
Proof.
  intros A B Na. unfold pyfloat.
  assert (E : strip (a ++ "."%char :: b) = a ++ "."%char :: b).
  { apply strip_trimmed, nospace_trimmed.
    assert (H : forall l, alldig l = true -> forallb (fun c => negb (pyspace c)) l = true).
    { intros l L. apply forallb_forall. intros c I. unfold alldig in L. rewrite forallb_forall in L. now rewrite (isdig_nospace c (L c I)). }
    rewrite forallb_app. cbn [forallb]. rewrite (H _ A), (H _ B). reflexivity. }
  rewrite E.
  assert (M : float_mag (a ++ "."%char :: b) = Some (decimal (decval (a ++ b)) (- Z.of_nat (length b)))).
  { unfold float_mag. rewrite take_digits_app; auto. rewrite ceqb_refl.
    rewrite <- (app_nil_r b) at 1. rewrite take_digits_app; auto. destruct a; [congruence|]. cbn [app float_exp]. reflexivity. }
  destruct a as [|c a]; [congruence|]. cbn [app] in *. assert (C : isdig c = true) by now apply alldig_cons in A.
  destruct (isdig_nosign c C) as [-> ->]. rewrite M. eexists. split; [reflexivity|]. split; [reflexivity|]. cbn [fmag].
  apply rnd_comp. destruct (length b) as [|n] eqn:Lb.
  - change (- Z.of_nat 0) with 0. unfold decimal, i10. cbn [Z.leb Z.compare]. change (10 ^ 0) with 1. change (10 ^ Z.of_nat 0) with 1. rewrite inject_Z_mult. change (inject_Z 1) with 1%Q. field.
  - rewrite decimal_neg by lia. unfold i10. reflexivity.
Qed.
Lemma dig2_float a b : forallb (incls c_digit) a = true -> (1 <= length a)%nat -> (length a <= 2)%nat -> forallb (incls c_digit) b = true ->
  exists f N, pyfloat (a ++ "."%char :: b) = Ok f /\ isp f (rnd (inject_Z N * i10 (length b))) /\ 0 <= N < 100 * 10 ^ Z.of_nat (length b).
Proof.
  intros DA L1 L2 DB. apply digs_alldig in DA, DB. destruct (pyfloat_point a b DA DB) as (f & E & I); [destruct a; cbn in L1; [lia|discriminate]|].
  exists f, (decval (a ++ b)). split; [exact E|]. split; [exact I|].
  assert (AB : alldig (a ++ b) = true) by (apply alldig_app; auto).
  pose proof (decval_bound _ AB) as B. rewrite app_length, Nat2Z.inj_add, Z.pow_add_r in B by lia.
  assert (10 ^ Z.of_nat (length a) <= 10 ^ 2) by (apply Z.pow_le_mono_r; lia). pose proof (p10_pos (length b)). nia.
Qed.

Lemma isp_Z10 z : 0 <= z < 100 -> isp (of_Z z) (rnd (inject_Z z * i10 0)).
Proof.
  intros H. eapply isp_comp; [apply isp_Z; lia|]. symmetry. rewrite (rnd_comp _ (inject_Z z)); [apply rnd_Z; lia|].
  unfold i10. change (inject_Z (10 ^ Z.of_nat 0)) with 1%Q. field.
Qed.
Ltac get_ints :=
  repeat match goal with
         | D : forallb _ ?w = true, L1 : (1 <= length ?w)%nat, L2 : (1 <= 2 -> length ?w <= 2)%nat |- _ =>
             pose proof (dig2_int w D L1 (L2 (le_S 1 1 (le_n 1)))); pose proof (L2 (le_S 1 1 (le_n 1))); clear L2
         end;
  repeat match goal with H : exists v, py_int _ = Ok v /\ _ |- _ => destruct H as (? & ? & ?) end.
Ltac use_int w := match goal with H : py_int w = Ok _ |- _ => rewrite H end.
(** what a text that is accepted delivers; the other texts are refused with RuntimeError *)
Lemma check_inv w : (length w <= 12)%nat ->
  checkSexagesimal w = Err RuntimeError \/
  exists r, checkSexagesimal w = Ok r /\
   ((exists p pr h m N, sec_fields r p pr h m N) \/ (exists q pr h N, min_fields r q pr h N)).
Proof.
  intros L. unfold checkSexagesimal, checks. cbn [first_check].
  destruct (re_match re_normal w) as [g|] eqn:E1.
  { right. unfold re_normal in E1. invert_match E1. get_ints.
    match goal with |- context [actionNormal [(_, ?a ++ _ :: ?b); _; (_, ?c); (_, ?d)]] =>
      destruct (dig2_float a b) as (f & N & Ef & If & HN); auto;
      unfold actionNormal, gs; cbn [grp fst snd find Nat.eqb]; use_int c; use_int d; cbn [rbind]; rewrite Ef; cbn [rbind]; eexists; split; [reflexivity|]; left; exists (length b) end.
    do 4 eexists. constructor; [| | | | |eexists; split; [reflexivity|eassumption]]; try eassumption; [|now left].
    rewrite !app_length in L. cbn [length] in L. rewrite !app_length in L. lia. }
  destruct (re_match re_intsec w) as [g|] eqn:E2.
  { right. unfold re_intsec in E2. invert_match E2. get_ints.
    match goal with |- context [actionIntegerSeconds [(_, ?a); (_, ?c); (_, ?d)]] =>
      unfold actionIntegerSeconds, gs; cbn [grp fst snd find Nat.eqb]; use_int a; use_int c; use_int d end.
    cbn [rbind]; eexists; split; [reflexivity|]; left; exists O.
    do 4 eexists. constructor; [| | | | |eexists; split; [reflexivity|now apply isp_Z10]]; try eassumption; [lia|right; split; reflexivity]. }
  destruct (re_match re_minhund w) as [g|] eqn:E3.
  { right. unfold re_minhund in E3. invert_match E3. get_ints.
    match goal with |- context [actionMinutesHundredths [(_, ?a ++ _ :: ?x :: ?y :: []); (_, ?d)]] =>
      destruct (dig2_float a [x; y]) as (f & N & Ef & If & HN); auto; [cbn [forallb]; rewrite !andb_true_iff; auto|];
      unfold actionMinutesHundredths, gs; cbn [grp fst snd find Nat.eqb]; use_int d; cbn [rbind]; rewrite Ef end.
    cbn [rbind]; eexists; split; [reflexivity|]; right; exists 2%nat.
    do 3 eexists. constructor; [| | |eexists; split; [reflexivity|eassumption]]; try eassumption. left; split; reflexivity. }
  destruct (re_match re_minten w) as [g|] eqn:E4.
  { right. unfold re_minten in E4. invert_match E4. get_ints.
    match goal with |- context [actionMinutesTenths [(_, ?a ++ _ :: ?x :: []); (_, ?d)]] =>
      destruct (dig2_float a [x]) as (f & N & Ef & If & HN); auto; [cbn [forallb]; rewrite !andb_true_iff; auto|];
      unfold actionMinutesTenths, gs; cbn [grp fst snd find Nat.eqb]; use_int d; cbn [rbind]; rewrite Ef end.
    cbn [rbind]; eexists; split; [reflexivity|]; right; exists 1%nat.
    do 3 eexists. constructor; [| | |eexists; split; [reflexivity|eassumption]]; try eassumption. right; left; split; reflexivity. }
  destruct (re_match re_intmin w) as [g|] eqn:E5; [|left; reflexivity].
  right. unfold re_intmin in E5. invert_match E5. get_ints.
  match goal with |- context [actionIntegerMinutes [(_, ?c); (_, ?d)]] =>
    unfold actionIntegerMinutes, gs; cbn [grp fst snd find Nat.eqb]; use_int c; use_int d end.
  cbn [rbind]; eexists; split; [reflexivity|]; right; exists O.
  do 3 eexists. constructor; [| | |eexists; split; [reflexivity|now apply isp_Z10]]; try eassumption. right; right; split; reflexivity.
Qed.
