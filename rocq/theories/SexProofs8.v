(** Declination: the text of a decimal value and back. *)
From Verif Require Import PyStrProofs PyFloat PyFloatProofs SexVals SexSpec SexProofs1 SexProofs2 SexProofs3 SexProofs4 SexProofs5 SexProofs7.
From Coq Require Import Lqa.
Open Scope Z_scope.

(** whole degrees are exact *)
Definition dec_deg_ok (k : Z) : bool := Qeq_bool (rnd (rnd (inject_Z k) / fmag arcsecToDegrees)) (inject_Z (3600 * k)).
Lemma dec_deg_all : forallb dec_deg_ok (upto (Z.to_nat 110)) = true.
Proof. vm_compute. reflexivity. Qed.
Lemma dec_deg k : 0 <= k < 110 -> (rnd (rnd (inject_Z k) / fmag arcsecToDegrees) == inject_Z (3600 * k))%Q.
Proof. intros H. pose proof dec_deg_all as F. rewrite forallb_forall in F. apply Qeq_bool_eq, (F k). apply in_upto. lia. Qed.
Definition inv_a2d : Q := Eval vm_compute in (/ fmag arcsecToDegrees)%Q.
Lemma inv_a2d_val : (3600 * (999999999999999 # 1000000000000000) <= inv_a2d <= 3600 * (1000000000000001 # 1000000000000000))%Q.
Proof. split; unfold Qle; vm_compute; congruence. Qed.
Lemma dec_rev_near v : (0 <= v)%Q -> (3600 * v * (1 - e14) <= rnd (rnd v / fmag arcsecToDegrees) <= 3600 * v * (1 + e14))%Q.
Proof.
  intros H. pose proof (rnd_e v H) as [A B]. pose proof (rnd_nonneg v) as P. pose proof inv_a2d_val as [C1 C2].
  assert (E : (rnd v / fmag arcsecToDegrees == rnd v * inv_a2d)%Q) by reflexivity.
  rewrite (rnd_comp _ _ E).
  assert (N : (0 <= rnd v * inv_a2d)%Q) by (set (a := rnd v) in *; set (c := inv_a2d) in *; clearbody a c; nra).
  pose proof (rnd_e _ N) as [D1 D2]. change inv_a2d with (18446744073709551616 # 5124095576030431)%Q in *. unfold e14.
  split; lra.
Qed.

(** * splitting arc seconds *)
Lemma fval_sub a b x y : isp a x -> isp b y -> exists v, (fval (fsub a b) == v)%Q /\ (Qabs (v - (x - y)) <= e15 * Qabs (x - y))%Q.
Proof.
  intros [A1 A2] [B1 B2]. unfold fsub, fadd, fopp. cbn [fneg fmag]. unfold fval at 1 2. cbn [fneg fmag]. rewrite A1, B1. cbn [negb].
  unfold fval. rewrite A1. cbn [fneg fmag]. set (z := (fmag a + - fmag b)%Q). assert (Ez : (z == x - y)%Q) by (unfold z; rewrite A2, B2; ring).
  destruct (Qnum z =? 0) eqn:E.
  - apply Qnum_zero in E. exists 0%Q. split; [cbn; reflexivity|]. assert (E' : (x - y == 0)%Q) by now rewrite <- Ez. rewrite E'. vm_compute. congruence.
  - unfold of_Q. cbn [fneg fmag]. pose proof (Qabs_nonneg z) as PZ. pose proof (near_rnd (Qabs z) PZ) as NZ.
    eexists. split; [reflexivity|]. rewrite <- Ez. set (r := rnd (Qabs z)) in *. clearbody r.
    unfold Qneg. destruct (Z.ltb_spec (Qnum z) 0) as [L|G].
    + assert (Hz : (z <= 0)%Q) by (destruct z; unfold Qle; cbn in *; lia). pose proof (Qabs_neg z Hz) as Az. set (az := Qabs z) in *. clearbody az z.
      apply Qabs_Qle_condition. clear - NZ Az. nears. split; lra.
    + assert (Hz : (0 <= z)%Q) by (destruct z; unfold Qle; cbn in *; lia). pose proof (Qabs_pos z Hz) as Az. set (az := Qabs z) in *. clearbody az z.
      apply Qabs_Qle_condition. clear - NZ Az. nears. split; lra.
Qed.
Lemma isp_add100 f v : (fval f == v)%Q -> (-1 <= v)%Q -> isp (fadd (of_Z 100) f) (rnd (100 + v)).
Proof.
  intros E H. destruct (isp_Z 100 ltac:(lia)) as [A B]. unfold fadd. unfold fval at 1 3. rewrite A.
  assert (Ez : (fmag (of_Z 100) + fval f == 100 + v)%Q) by (rewrite B, E; reflexivity).
  destruct (Qnum (fmag (of_Z 100) + fval f) =? 0) eqn:Z0.
  - apply Qnum_zero in Z0. rewrite Ez in Z0. lra.
  - eapply isp_comp; [apply of_Q_pos; rewrite Ez; lra|]. now apply rnd_comp.
Qed.
Lemma twof_close2 n f v N a : (fval f == v)%Q -> (-1 <= v)%Q -> 0 <= N < 100 * 10 ^ Z.of_nat n ->
  (Qabs (rnd (100 + v) - (100 + a)) <= (4 # 10) * i10 n)%Q -> (a == inject_Z N * i10 n)%Q -> twof n f = fixed n N.
Proof.
  intros E Hv HN H A. unfold twof. destruct (isp_add100 f v E Hv) as [I1 I2]. apply tl_fixed; auto. apply rheQ_uniq.
  pose proof (i10_mul n) as UM. pose proof (p10_pos n) as P. set (D := 10 ^ Z.of_nat n) in *. apply (injZ_lt 0) in P. change (inject_Z 0) with 0%Q in P.
  assert (ED : (inject_Z (100 * D + N) == (100 + a) * inject_Z D)%Q).
  { rewrite inject_Z_plus, inject_Z_mult, A. change (inject_Z 100) with 100%Q.
    setoid_replace ((100 + inject_Z N * i10 n) * inject_Z D)%Q with (100 * inject_Z D + inject_Z N * (inject_Z D * i10 n))%Q by ring. rewrite UM. ring. }
  rewrite ED, I2. set (d := inject_Z D) in *. clearbody d. apply Qabs_Qle_condition in H.
  set (i := i10 n) in *. clearbody i. set (z := rnd (100 + v)) in *. clearbody z. split; nra.
Qed.
(** the seconds that remain may be a little below zero *)
Lemma dec_split_sec p pr h m N rev t : (p <= 6)%nat -> sec_prec p pr -> 0 <= h <= 101 -> 0 <= m < 60 -> 0 <= N < 60 * 10 ^ Z.of_nat p ->
  let u := i10 p in let x := (inject_Z N * u)%Q in isp rev t -> (0 <= t)%Q ->
  (Qabs (t - (inject_Z (3600 * h + 60 * m) + x)) <= (21 # 100) * u)%Q -> (t == inject_Z (3600 * h) \/ inject_Z (3600 * h) + (1 # 2) * u <= t)%Q ->
  fint (fdiv rev (of_Z 3600)) = h /\
  let rev1 := fsub rev (fmul (of_Z h) (of_Z 3600)) in
  fint (fdiv (fadd rev1 (fmul (of_Q (1 # 2)) (prec_fl pr))) (of_Z 60)) = m /\
  twof p (fsub rev1 (fmul (of_Z m) (of_Z 60))) = fixed p N.
Proof.
  intros Hp Hpr Hh Hm HN u x It T0 HT HL0. pose proof (i10_range p Hp) as [U1 U2]. pose proof (i10_pos p) as U0. pose proof (i10_mul p) as UM.
  fold u in U1, U2, U0, UM. pose proof (p10_pos p) as PP. set (P := 10 ^ Z.of_nat p) in *.
  assert (X : (0 <= x <= 60 - u)%Q).
  { assert (A : (0 <= inject_Z N)%Q) by (apply (injZ_le 0); lia).
    assert (B' : (inject_Z N <= 60 * inject_Z P - 1)%Q).
    { eapply Qle_trans; [apply injZ_le with (b := 60 * P + -1); lia|]. rewrite inject_Z_plus, inject_Z_mult. change (inject_Z 60) with 60%Q. change (inject_Z (-1)) with (-1)%Q. lra. }
    unfold x. set (n := inject_Z N) in *. set (pq := inject_Z P) in *. clearbody n pq u. split; nra. }
  assert (Ebase : (inject_Z (3600 * h + 60 * m) == 3600 * inject_Z h + 60 * inject_Z m)%Q) by (rewrite inject_Z_plus, !inject_Z_mult; reflexivity).
  assert (E3 : (inject_Z (3600 * h) == 3600 * inject_Z h)%Q) by (rewrite inject_Z_mult; reflexivity).
  assert (E4 : (inject_Z (60 * m) == 60 * inject_Z m)%Q) by (rewrite inject_Z_mult; reflexivity).
  assert (E1h : (inject_Z (h + 1) == inject_Z h + 1)%Q) by (rewrite inject_Z_plus; reflexivity).
  assert (E1m : (inject_Z (m + 1) == inject_Z m + 1)%Q) by (rewrite inject_Z_plus; reflexivity).
  assert (BH : (0 <= inject_Z h <= 101)%Q) by (split; [apply (injZ_le 0)|apply (injZ_le h 101)]; lia).
  assert (BM : (0 <= inject_Z m <= 59)%Q) by (split; [apply (injZ_le 0)|apply (injZ_le m 59)]; lia).
  assert (HL : (inject_Z (3600 * h) <= t)%Q) by (destruct HL0; lra).
  assert (HT' := HT). apply Qabs_Qle_condition in HT'. rewrite Ebase in HT'.
  assert (Imul : forall a b, 0 <= a <= 10000 -> 0 <= b <= 10000 -> isp (fmul (of_Z a) (of_Z b)) (inject_Z (b * a))).
  { intros a b Ha Hb. eapply isp_rnd_Z; [apply isp_mul; apply isp_Z; lia| |nia]. rewrite <- inject_Z_mult. now rewrite Z.mul_comm. }
  split; [|cbv zeta].
  - rewrite (isp_int _ _ (isp_div _ _ _ _ It (isp_Z 3600 ltac:(lia)))). change (inject_Z 3600) with 3600%Q.
    assert (Hr : near e15 (rnd (t / 3600)) (t * (1 # 3600))) by (apply near_rnd2; [lra|field]).
    assert (Lo : (inject_Z h <= rnd (t / 3600))%Q).
    { destruct HL0 as [Et|G].
      - rewrite (rnd_comp _ (inject_Z h)); [rewrite rnd_Z by lia; lra|]. rewrite Et, E3. field.
      - clear - G Hr U1 BH E3. nears. lra. }
    clear - Hr Lo HT' E1h BH BM U1 U2 X. nears. apply floor_is; lra.
  - assert (Is := isp_sub _ _ _ _ It (Imul h 3600 ltac:(lia) ltac:(lia)) HL).
    set (rev1 := fsub rev (fmul (of_Z h) (of_Z 3600))) in *.
    assert (NS : near e15 (rnd (t - inject_Z (3600 * h))) (t - inject_Z (3600 * h))) by (apply near_rnd; lra).
    set (s := rnd (t - inject_Z (3600 * h))) in *. assert (Ps : (0 <= s)%Q) by apply rnd_nonneg. clearbody s rev1.
    split.
    + assert (Ip : exists y, isp (fmul (of_Q (1 # 2)) (prec_fl pr)) y /\ near e14 y ((1 # 2) * u)).
      { destruct Hpr as [-> | [-> ->]].
        - clear - Hp. unfold u. clear u. nat_upto p; (eexists; split; [split; reflexivity|split; unfold Qle; vm_compute; congruence]).
        - eexists. split; [split; reflexivity|]. split; unfold Qle; vm_compute; congruence. }
      destruct Ip as (y & Iy & Ny). assert (Py : (0 <= y)%Q) by (clear - Ny U0; nears; lra).
      assert (Ia := isp_add _ _ _ _ Is Iy Ps Py). rewrite (isp_int _ _ (isp_div _ _ _ _ Ia (isp_Z 60 ltac:(lia)))). change (inject_Z 60) with 60%Q.
      pose proof (near_rnd (s + y) ltac:(lra)) as N1. set (z := rnd (s + y)) in *. assert (Pz : (0 <= z)%Q) by apply rnd_nonneg. clearbody z.
      assert (Hr : near e15 (rnd (z / 60)) (z * (1 # 60))) by (apply near_rnd2; [lra|field]).
      clear - Hr N1 Ny NS HT' E3 E4 E1m BH BM U1 U2 X. nears. apply floor_is; lra.
    + destruct (fval_sub _ _ _ _ Is (Imul m 60 ltac:(lia) ltac:(lia))) as (v & Ev & Nv).
      assert (Bd : (Qabs (s - inject_Z (60 * m)) <= 61)%Q) by (apply Qabs_Qle_condition; clear - NS HT' E3 E4 BH BM U1 U2 X; nears; split; lra).
      assert (Nv' : (Qabs (v - (s - inject_Z (60 * m))) <= 61 * e15)%Q).
      { eapply Qle_trans; [exact Nv|]. unfold e15. set (q := Qabs (s - inject_Z (60 * m))) in *. clearbody q. lra. }
      apply Qabs_Qle_condition in Nv'.
      assert (Bv : (-1 <= v)%Q) by (clear - Nv' NS HT' E3 E4 BH BM U1 U2 X; nears; lra).
      apply (twof_close2 p _ v N x Ev Bv); [fold P; lia| |reflexivity].
      pose proof (near_rnd (100 + v) ltac:(lra)) as N1. set (z := rnd (100 + v)) in *. clearbody z. fold u.
      apply Qabs_Qle_condition. clear - N1 Nv' NS HT' E3 E4 BH BM U1 U2 X. nears. split; lra.
Qed.
