(** Dates: the arithmetic. *)
From Verif Require Import PyStrProofs PyFloat PyFloatProofs SexVals SexSpec SexProofs1 SexProofs2 SexProofs3 SexProofs4 SexProofs5 SexProofs6.
From Coq Require Import Lqa.
Open Scope Z_scope.

(** ".ddd" *)
Lemma pyfloat_frac b : alldig b = true -> b <> [] ->
  exists f, pyfloat ($"." ++ b) = Ok f /\ isp f (rnd (inject_Z (decval b) * i10 (length b))).
Proof.
  intros B Nb. unfold pyfloat.
  assert (E : strip ($"." ++ b) = $"." ++ b).
  { apply strip_trimmed, nospace_trimmed.
    assert (H : forall l, alldig l = true -> forallb (fun c => negb (pyspace c)) l = true).
    { intros l L. apply forallb_forall. intros c I. unfold alldig in L. rewrite forallb_forall in L. now rewrite (isdig_nospace c (L c I)). }
    rewrite forallb_app. rewrite (H _ B). reflexivity. }
  rewrite E.
  assert (M : float_mag ("."%char :: b) = Some (decimal (decval b) (- Z.of_nat (length b)))).
  { unfold float_mag. change (take_digits ("."%char :: b)) with (@nil ascii, "."%char :: b). cbn iota beta. rewrite ceqb_refl.
    rewrite <- (app_nil_r b) at 1. rewrite take_digits_app; auto. destruct b; [congruence|]. cbn [app float_exp]. reflexivity. }
  change ($"." ++ b) with ("."%char :: b). cbv iota beta.
  match goal with |- context [if ?a then _ else if ?b then _ else _] => replace a with false by reflexivity; replace b with false by reflexivity end. cbv iota beta.
  rewrite M. eexists. split; [reflexivity|]. split; [reflexivity|]. cbn [fmag].
  apply rnd_comp. destruct (length b) as [|n] eqn:Lb; [destruct b; [congruence|discriminate]|].
  rewrite decimal_neg by lia. unfold i10. reflexivity.
Qed.

(** seconds of the day for n millionths *)
Definition secs (n : Z) : Q := rnd (rnd (inject_Z n * (1 # 1000000)) * 86400).
Definition tus_q (s : Q) : Z := Qfloor s * 1000000 + rheQ (rnd ((s - inject_Z (Qfloor s)) * inject_Z 1000000)).
Definition ms_q (s : Q) : Z := rheQ (rnd (rnd (s - inject_Z (Qfloor s)) * 1000)).
Lemma secs_isp x y n : isp x (rnd y) -> (y == inject_Z n * (1 # 1000000))%Q -> isp (fmul x (of_Z 86400)) (secs n).
Proof.
  intros I E. eapply isp_comp; [apply isp_mul; [exact I|apply isp_Z; lia]|]. unfold secs. apply rnd_comp.
  rewrite (rnd_comp _ _ E). reflexivity.
Qed.
Lemma tus_isp f s : isp f s -> timedelta_us f = tus_q s.
Proof.
  intros [_ E]. unfold timedelta_us, tus_q. rewrite (Qfloor_comp _ _ E). f_equal. apply rheQ_comp, rnd_comp. now rewrite E.
Qed.
Lemma isp_round f x : isp f x -> fround f = rheQ x.
Proof. intros [A B]. unfold fround. rewrite A. cbn [signed]. now apply rheQ_comp. Qed.
Lemma ms_isp f s : isp f s -> (0 <= s)%Q -> (s <= 90000)%Q -> fround (fmul (fsub f (of_Z (fint f))) (of_Z (10 ^ 3))) = ms_q s.
Proof.
  intros I P Q. rewrite (isp_int f s I). pose proof (Qfloor_le s) as L.
  assert (F : 0 <= Qfloor s <= 90000).
  { split; [change 0 with (Qfloor 0)|change 90000 with (Qfloor 90000)]; now apply Qfloor_resp_le. }
  pose proof (isp_sub f (of_Z (Qfloor s)) _ _ I (isp_Z (Qfloor s) ltac:(lia)) L) as J.
  pose proof (isp_mul _ (of_Z (10 ^ 3)) _ _ J (isp_Z (10 ^ 3) ltac:(lia))) as K.
  rewrite (isp_round _ _ K). unfold ms_q. reflexivity.
Qed.
Lemma secs_near n : 0 <= n < 1000000 -> near (3 # 1000000000000000) (secs n) (inject_Z n * (864 # 10000)).
Proof.
  intros H. assert (P : (0 <= inject_Z n)%Q) by (apply (injZ_le 0); lia).
  unfold secs. pose proof (near_rnd (inject_Z n * (1 # 1000000))%Q ltac:(lra)) as A.
  set (x := rnd (inject_Z n * (1 # 1000000))) in *. assert (X : (0 <= x)%Q) by apply rnd_nonneg. clearbody x.
  pose proof (near_rnd (x * 86400)%Q ltac:(lra)) as B. set (y := rnd (x * 86400)) in *. clearbody y.
  nears. set (v := inject_Z n) in *. clearbody v. lra.
Qed.
Definition T4 (n : Z) : Z := 864 * n.
Lemma secs_frac n q r : 0 <= n < 1000000 -> 864 * n = 10000 * q + r -> 0 < r < 10000 ->
  Qfloor (secs n) = q /\ (Qabs (secs n - inject_Z q - inject_Z r * (1 # 10000)) <= 1 # 1000000000)%Q /\ 16 <= r <= 9984 /\ (2 | r) /\ 0 <= q < 86400.
Proof.
  intros H E R. assert (D : (16 | r)). { exists (54 * n - 625 * q). lia. }
  destruct D as (d & D). assert (R2 : 16 <= r <= 9984) by lia. assert (Q0 : 0 <= q < 86400) by lia.
  pose proof (secs_near n H) as N. assert (EQ : (inject_Z n * (864 # 10000) == inject_Z q + inject_Z r * (1 # 10000))%Q).
  { assert (E1 : (864 * inject_Z n == 10000 * inject_Z q + inject_Z r)%Q).
    { change 864%Q with (inject_Z 864). change 10000%Q with (inject_Z 10000). rewrite <- !inject_Z_mult, <- inject_Z_plus. now rewrite E. }
    lra. }
  pose proof (injZ_le _ _ (proj1 R2)) as R3. pose proof (injZ_le _ _ (proj2 R2)) as R4.
  pose proof (injZ_le _ _ (proj1 Q0)) as Q1. assert (Q2 : (inject_Z q <= inject_Z 86400)%Q) by (apply injZ_le; lia).
  change (inject_Z 16) with 16%Q in *. change (inject_Z 9984) with 9984%Q in *. change (inject_Z 0) with 0%Q in *. change (inject_Z 86400) with 86400%Q in *.
  unfold near in N. rewrite EQ in N.
  assert (B : (Qabs (secs n - inject_Z q - inject_Z r * (1 # 10000)) <= 1 # 1000000000)%Q).
  { apply Qabs_Qle_condition. set (s := secs n) in *. clearbody s. set (a := inject_Z q) in *. clearbody a. set (b := inject_Z r) in *. clearbody b. split; lra. }
  split; [|split; [exact B|split; [exact R2|split; [exists (8 * d); lia|exact Q0]]]].
  apply Qabs_Qle_condition in B. apply floor_is.
  - lra.
  - rewrite inject_Z_plus. change (inject_Z 1) with 1%Q. lra.
Qed.
Lemma near_abs x a e : (0 <= x)%Q -> (x <= 2000000)%Q -> (Qabs (x - a) <= e)%Q -> (Qabs (rnd x - a) <= e + (1 # 100000000))%Q.
Proof.
  intros P U H. pose proof (near_rnd x P) as N. nears. apply Qabs_Qle_condition in H. apply Qabs_Qle_condition.
  set (y := rnd x) in *. clearbody y. split; lra.
Qed.
(** not a whole second *)
Lemma part_case n q r : 0 <= n < 1000000 -> 864 * n = 10000 * q + r -> 0 < r < 10000 ->
  tus_q (secs n) = q * 1000000 + 100 * r /\ ms_q (secs n) = (r + 5) / 10.
Proof.
  intros H E R. destruct (secs_frac n q r H E R) as (F & B & R2 & (d & D) & Q0).
  unfold tus_q, ms_q. rewrite F. set (x := (secs n - inject_Z q)%Q) in *. clearbody x.
  apply Qabs_Qle_condition in B. pose proof (injZ_le _ _ (proj1 R2)) as R3. pose proof (injZ_le _ _ (proj2 R2)) as R4.
  change (inject_Z 16) with 16%Q in *. change (inject_Z 9984) with 9984%Q in *. set (b := inject_Z r) in *.
  split.
  - f_equal. apply rheQ_uniq. change (inject_Z 1000000) with 1000000%Q.
    assert (C : (Qabs (rnd (x * 1000000) - b * 100) <= (1 # 1000) + (1 # 100000000))%Q).
    { apply near_abs; [lra|lra|]. apply Qabs_Qle_condition. split; lra. }
    apply Qabs_Qle_condition in C. replace (inject_Z (100 * r)) with (inject_Z 100 * b)%Q by (unfold b; now rewrite inject_Z_mult).
    change (inject_Z 100) with 100%Q. lra.
  - apply rheQ_uniq. assert (C : (Qabs (rnd x - b * (1 # 10000)) <= (1 # 1000000000) + (1 # 100000000))%Q).
    { apply near_abs; [lra|lra|]. apply Qabs_Qle_condition. split; lra. }
    apply Qabs_Qle_condition in C. pose proof (rnd_nonneg x). set (y := rnd x) in *. clearbody y.
    assert (C2 : (Qabs (rnd (y * 1000) - b * (1 # 10)) <= (1 # 10000) + (1 # 100000000))%Q).
    { apply near_abs; [lra|lra|]. apply Qabs_Qle_condition. split; lra. }
    apply Qabs_Qle_condition in C2. set (z := rnd (y * 1000)) in *. clearbody z.
    set (m := (r + 5) / 10). assert (M : 10 * m - 4 <= r <= 10 * m + 4) by (unfold m; lia).
    assert (M1 : (10 * inject_Z m - 4 <= b)%Q). { change 10%Q with (inject_Z 10). change 4%Q with (inject_Z 4). rewrite <- inject_Z_mult. unfold Qminus. change (- inject_Z 4)%Q with (inject_Z (-4)). rewrite <- inject_Z_plus. apply injZ_le. lia. }
    assert (M2 : (b <= 10 * inject_Z m + 4)%Q). { change 10%Q with (inject_Z 10). change 4%Q with (inject_Z 4). rewrite <- inject_Z_mult, <- inject_Z_plus. apply injZ_le. lia. }
    split; lra.
Qed.
(** whole seconds: 1600 cases *)
Definition whole_ok (j : Z) : bool :=
  let s := secs (625 * j) in
  (tus_q s =? 54 * j * 1000000) && (ms_q s =? if existsb (Z.eqb j) short_by_rounding then 1000 else 0).
Lemma whole_all : forallb whole_ok (upto 1600) = true.
Proof. vm_cast_no_check (eq_refl true). Qed.
Lemma existsb_In j l : existsb (Z.eqb j) l = true <-> In j l.
Proof.
  rewrite existsb_exists. split.
  - intros (x & I & E). apply Z.eqb_eq in E. now subst.
  - intros I. exists j. split; [exact I|apply Z.eqb_refl].
Qed.
Lemma whole_case j : 0 <= j < 1600 -> tus_q (secs (625 * j)) = 54 * j * 1000000 /\
  (~ In j short_by_rounding -> ms_q (secs (625 * j)) = 0) /\ (In j short_by_rounding -> ms_q (secs (625 * j)) = 1000).
Proof.
  intros H. pose proof whole_all as W. rewrite forallb_forall in W. specialize (W j (in_upto 1600 j H)).
  unfold whole_ok in W. apply andb_prop in W as [W1 W2]. apply Z.eqb_eq in W1, W2. split; [exact W1|].
  rewrite W2, <- existsb_In. destruct (existsb (Z.eqb j) short_by_rounding); split; congruence || reflexivity.
Qed.
(** rounding to whole seconds *)
Lemma round_secs n : 0 <= n < 1000000 -> rheQ (secs n) = (864 * n + 5000) / 10000.
Proof.
  intros H. set (R := (864 * n + 5000) / 10000).
  assert (D : 10000 * R - 4992 <= 864 * n <= 10000 * R + 4992).
  { unfold R. assert (exists d, 864 * n - 10000 * ((864 * n + 5000) / 10000) = 16 * d) as (d & Hd). { exists (54 * n - 625 * ((864 * n + 5000) / 10000)). lia. } lia. }
  apply rheQ_uniq. pose proof (secs_near n H) as N. unfold near in N.
  assert (D1 : (10000 * inject_Z R - 4992 <= 864 * inject_Z n)%Q).
  { change 10000%Q with (inject_Z 10000). change 864%Q with (inject_Z 864). rewrite <- !inject_Z_mult. change 4992%Q with (inject_Z 4992). unfold Qminus. change (- inject_Z 4992)%Q with (inject_Z (-4992)). rewrite <- inject_Z_plus. apply injZ_le. lia. }
  assert (D2 : (864 * inject_Z n <= 10000 * inject_Z R + 4992)%Q).
  { change 10000%Q with (inject_Z 10000). change 864%Q with (inject_Z 864). change 4992%Q with (inject_Z 4992). rewrite <- !inject_Z_mult, <- inject_Z_plus. apply injZ_le. lia. }
  assert (P0 : (0 <= inject_Z n)%Q) by (apply (injZ_le 0); lia). assert (P1 : (inject_Z n <= 1000000)%Q) by (apply (injZ_le _ 1000000); lia).
  set (s := secs n) in *. clearbody s. set (a := inject_Z n) in *. clearbody a. set (b := inject_Z R) in *. clearbody b. split; lra.
Qed.
