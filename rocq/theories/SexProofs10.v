(** Declination: degrees and minutes; the decimal text of the parsed fields; complete. *)
From Verif Require Import PyStrProofs PyFloat PyFloatProofs SexVals SexSpec SexProofs1 SexProofs2 SexProofs3 SexProofs4 SexProofs5 SexProofs6 SexProofs7 SexProofs8 SexProofs9.
From Coq Require Import Lqa.
Open Scope Z_scope.

Lemma dec_back_min neg q pr T V : min_prec q pr -> let P := 10 ^ Z.of_nat q in let h := T / (60 * P) in
  0 <= T < 6050 * P -> 0 <= V -> (Qabs (inject_Z V - (5 # 3) * inject_Z T) <= 52 # 100)%Q ->
  degDeclToSexDecl (decimal_text neg (q + 2) V) (prec_fl pr) =
    Ok (padr 12 (sgn neg ++ min_text q (h mod 100) (T mod (60 * P)))).
Proof.
  intros Hpr P h HT HV HB. pose proof (p10_pos q) as PP. fold P in PP.
  assert (Hq : (q <= 2)%nat) by (destruct Hpr as [[-> _]|[[-> _]|[-> _]]]; lia).
  assert (TZ : V = 0 -> T = 0).
  { intros ->. apply Qabs_Qle_condition in HB. change (inject_Z 0) with 0%Q in HB. assert (L : (inject_Z T < inject_Z 1)%Q) by (change (inject_Z 1) with 1%Q; lra). rewrite <- Zlt_Qlt in L. lia. }
  destruct (Z.eq_dec V 0) as [V0|Vn].
  { rewrite V0. specialize (TZ V0). unfold h. rewrite TZ. rewrite Zdiv_0_l, Zmod_0_l. change (0 mod 100) with 0.
    clear - Hpr. destruct Hpr as [[-> ->]|[[-> ->]|[-> ->]]]; destruct neg; vm_compute; reflexivity. }
  destruct (decl_sign neg (q + 2) V (prec_fl pr) ltac:(lia) HV ltac:(lia)) as (v & rev & Eq & It & ->).
  set (t := rnd (rnd v / fmag arcsecToDegrees)) in *.
  assert (U1 : (1 # 100 <= i10 q <= 1)%Q) by (assert (Hc : (q = 0 \/ q = 1 \/ q = 2)%nat) by lia; destruct Hc as [-> | [-> | ->]]; split; unfold i10, Qle; vm_compute; congruence).
  pose proof (i10_pos q) as U0. pose proof (i10_mul q) as UM. fold P in UM.
  set (u := i10 q) in *.
  assert (Eq' : (v == inject_Z V * u * (1 # 100))%Q).
  { rewrite Eq. replace (10 ^ Z.of_nat (q + 2)) with (P * 100) by (unfold P; rewrite Nat2Z.inj_add, Z.pow_add_r by lia; reflexivity).
    rewrite inject_Z_mult. unfold u, i10. fold P. change (inject_Z 100) with 100%Q. field. change 0%Q with (inject_Z 0). rewrite inject_Z_injective. lia. }
  assert (QV : (0 <= inject_Z V)%Q) by (apply (injZ_le 0); auto).
  assert (Qq : (0 <= v)%Q) by (rewrite Eq'; clearbody u; nra).
  pose proof (dec_rev_near v Qq) as NT. fold t in NT.
  set (N := T mod (60 * P)). assert (HN : 0 <= N < 60 * P) by (apply Z.mod_pos_bound; lia).
  assert (ET : T = 60 * P * h + N) by (apply Z.div_mod; lia).
  assert (Hh : 0 <= h <= 100) by (split; [apply Z.div_pos; lia|]; enough (h < 101) by lia; apply Z.div_lt_upper_bound; lia).
  set (x := (60 * (inject_Z N * u))%Q).
  assert (X : (0 <= x <= 3600 - 60 * u)%Q).
  { assert (A : (0 <= inject_Z N)%Q) by (apply (injZ_le 0); lia).
    assert (B' : (inject_Z N <= 60 * inject_Z P - 1)%Q).
    { eapply Qle_trans; [apply injZ_le with (b := 60 * P + -1); lia|]. rewrite inject_Z_plus, inject_Z_mult. change (inject_Z 60) with 60%Q. change (inject_Z (-1)) with (-1)%Q. lra. }
    unfold x. set (n := inject_Z N) in *. set (pq := inject_Z P) in *. clearbody n pq u. split; nra. }
  assert (ETq : (60 * (inject_Z T * u) == inject_Z (3600 * h) + x)%Q).
  { rewrite ET. replace (60 * P * h + N) with (P * (60 * h) + N) by ring. replace (3600 * h) with (60 * (60 * h)) by ring.
    rewrite inject_Z_plus, (inject_Z_mult P), (inject_Z_mult 60 (60 * h)). unfold x. change (inject_Z 60) with 60%Q.
    set (a := inject_Z (60 * h)) in *. set (n := inject_Z N) in *. set (pq := inject_Z P) in *. clearbody a n pq u.
    setoid_replace (60 * ((pq * a + n) * u))%Q with (60 * a * (pq * u) + 60 * (n * u))%Q by ring. rewrite UM. ring. }
  assert (Bx : (inject_Z (3600 * h) <= 360000)%Q) by (apply (injZ_le _ 360000); lia).
  assert (Bx0 : (0 <= inject_Z (3600 * h))%Q) by (apply (injZ_le 0); lia).
  assert (HBu : (Qabs (inject_Z V * u - (5 # 3) * (inject_Z T * u)) <= (52 # 100) * u)%Q).
  { apply Qabs_Qle_condition in HB. apply Qabs_Qle_condition. set (vv := inject_Z V) in *. set (tt := inject_Z T) in *. clearbody vv tt u. split; nra. }
  assert (C : ((x == 0 /\ t == inject_Z (3600 * h)) \/ (60 * u <= x /\ Qabs (t - (inject_Z (3600 * h) + x)) <= (33 # 100) * (60 * u)))%Q).
  { destruct (Z.eq_dec N 0) as [N0|N0].
    - left. assert (EV : V = 100 * P * h).
      { assert (Ex : (5 # 3) * inject_Z T == inject_Z (100 * P * h)).
        { replace (100 * P * h) with (100 * (P * h)) by ring. replace T with (60 * (P * h)) by lia. rewrite !inject_Z_mult. change (inject_Z 60) with 60%Q. change (inject_Z 100) with 100%Q. ring. }
        rewrite Ex in HB. apply Qabs_Qle_condition in HB.
        assert (Hlt : (inject_Z (V - 1) < inject_Z (100 * P * h))%Q /\ (inject_Z (100 * P * h) < inject_Z (V + 1))%Q).
        { rewrite <- Z.add_opp_r, !(inject_Z_plus V). change (inject_Z (- (1))) with (-1)%Q. change (inject_Z 1) with 1%Q. split; lra. }
        rewrite <- !Zlt_Qlt in Hlt. lia. }
      split; [unfold x; rewrite N0; change (inject_Z 0) with 0%Q; ring|].
      assert (Eq4 : (v == inject_Z h)%Q).
      { rewrite Eq', EV. rewrite !inject_Z_mult. change (inject_Z 100) with 100%Q.
        set (pq := inject_Z P) in *. set (kk := inject_Z h). clearbody pq u kk.
        setoid_replace (100 * pq * kk * u * (1 # 100))%Q with ((pq * u) * kk)%Q by ring. rewrite UM. ring. }
      unfold t. assert (E2 : (rnd v / fmag arcsecToDegrees == rnd (inject_Z h) / fmag arcsecToDegrees)%Q) by (rewrite (rnd_comp _ _ Eq4); reflexivity).
      rewrite (rnd_comp _ _ E2), dec_deg by lia. reflexivity.
    - right. assert (N1 : (1 <= inject_Z N)%Q) by (apply (injZ_le 1); lia). split.
      + unfold x. set (n := inject_Z N) in *. clearbody n u. nra.
      + apply Qabs_Qle_condition. apply Qabs_Qle_condition in HBu. rewrite Eq' in NT.
        set (w := (inject_Z V * u)%Q) in *. set (Tu := (inject_Z T * u)%Q) in *. clearbody w t x u Tu. set (b := inject_Z (3600 * h)) in *. clearbody b.
        clear - NT HBu Bx Bx0 X U1 ETq. nears. split; lra. }
  assert (E3 : (inject_Z (3600 * h) == 3600 * inject_Z h)%Q) by (rewrite inject_Z_mult; reflexivity).
  assert (E1h : (inject_Z (h + 1) == inject_Z h + 1)%Q) by (rewrite inject_Z_plus; reflexivity).
  assert (S1 : (inject_Z (3600 * h) <= t)%Q) by (destruct C as [[_ ->]|[C1 C2]]; [lra|]; apply Qabs_Qle_condition in C2; lra).
  assert (FH : Qfloor (rnd (t / 3600)) = h).
  { assert (Hr : near e15 (rnd (t / 3600)) (t * (1 # 3600))) by (apply near_rnd2; [lra|field]).
    destruct C as [[C1 C2]|[C1 C2]].
    - assert (Ef : (rnd (t / 3600) == inject_Z h)%Q). { rewrite (rnd_comp _ (inject_Z h)); [apply rnd_Z; lia|]. rewrite C2, E3. field. }
      apply floor_is; lra.
    - apply Qabs_Qle_condition in C2. clear - Hr C1 C2 E3 E1h X U1 Bx Bx0. nears. apply floor_is; lra. }
  assert (FS : (Qabs (rnd (100 + rnd (rnd (t - inject_Z (3600 * h)) / 60)) * 60 - (6000 + x)) <= (4 # 10) * (60 * u))%Q).
  { destruct C as [[X0 T0]|[XU T0]].
    - assert (Es : (rnd (t - inject_Z (3600 * h)) == 0)%Q) by (rewrite rnd_0; lra).
      assert (E : (rnd (rnd (t - inject_Z (3600 * h)) / 60) == 0)%Q) by (rewrite rnd_0; [reflexivity|]; rewrite Es; reflexivity).
      rewrite (rnd_comp _ (inject_Z 100)) by (rewrite E; reflexivity). rewrite rnd_Z by lia. apply Qabs_Qle_condition. change (inject_Z 100) with 100%Q. split; lra.
    - apply Qabs_Qle_condition in T0.
      assert (NS : near e15 (rnd (t - inject_Z (3600 * h))) (t - inject_Z (3600 * h))) by (apply near_rnd; lra).
      set (s := rnd (t - inject_Z (3600 * h))) in *. assert (S2 : (0 <= s)%Q) by apply rnd_nonneg. clearbody s.
      assert (Hr : near e15 (rnd (s / 60)) (s * (1 # 60))) by (apply near_rnd2; [lra|field]).
      set (w := rnd (s / 60)) in *. assert (Pw : (0 <= w)%Q) by apply rnd_nonneg. clearbody w.
      pose proof (near_rnd (100 + w) ltac:(lra)) as Hw. set (z := rnd (100 + w)) in *. clearbody z.
      clear - Hw Hr NS T0 E3 U1 X XU Pw Bx Bx0. nears. apply Qabs_Qle_condition. split; lra. }
  unfold dec_body. rewrite (isp_int _ _ (isp_div _ _ _ _ It (isp_Z 3600 ltac:(lia)))). change (inject_Z 3600) with 3600%Q. rewrite FH.
  assert (Imul : isp (fmul (of_Z h) (of_Z 3600)) (inject_Z (3600 * h))).
  { eapply isp_rnd_Z; [apply isp_mul; apply isp_Z; lia| |nia]. rewrite <- inject_Z_mult. now rewrite Z.mul_comm. }
  pose proof (isp_sub _ _ _ _ It Imul S1) as Is.
  pose proof (isp_div _ _ _ _ Is (isp_Z 60 ltac:(lia))) as Im. change (inject_Z 60) with 60%Q in Im.
  set (mi := fdiv (fsub rev (fmul (of_Z h) (of_Z 3600))) (of_Z 60)) in *. rewrite (two_ok h) by lia.
  rewrite (min_text_of q pr (fun n => Ok (sgn neg ++ num 2 (h mod 100) ++ $" " ++ twof n mi)) Hpr) by exact (Ok []).
  cbn [rbind]. rewrite (twof_close2 q mi (rnd (rnd (t - inject_Z (3600 * h)) / 60)) N (inject_Z N * u)); [reflexivity| | | | |reflexivity].
  - destruct Im as [I1 I2]. unfold fval. rewrite I1, I2. reflexivity.
  - pose proof (rnd_nonneg (rnd (t - inject_Z (3600 * h)) / 60)). lra.
  - fold P. lia.
  - apply Qabs_Qle_condition in FS. apply Qabs_Qle_condition. unfold x in FS. fold u.
    set (z := rnd (100 + rnd (rnd (t - inject_Z (3600 * h)) / 60))) in *. set (n := (inject_Z N * u)%Q) in *. clearbody z n u. split; lra.
Qed.

(** * the decimal value *)
Definition dec_float (h : Z) (mi se : fl) : fl := fadd (fadd (of_Z h) (fdiv mi (of_Z 60))) (fdiv se (of_Z 3600)).
Lemma dec_value h mi se y1 y2 M S : 0 <= h < 100 -> isp mi y1 -> isp se y2 -> near e15 y1 M -> near e15 y2 S ->
  (0 <= M)%Q -> (0 <= S)%Q ->
  exists y, isp (dec_float h mi se) y /\ near (9 # 1000000000000000) y ((inject_Z (3600 * h) + 60 * M + S) * (1 # 3600)).
Proof.
  intros Hh I1 I2 N1 N2 PM PS. unfold dec_float.
  assert (Py1 : (0 <= y1)%Q) by (nears; lra). assert (Py2 : (0 <= y2)%Q) by (nears; lra).
  assert (E3 : (inject_Z (3600 * h) == 3600 * inject_Z h)%Q) by (rewrite inject_Z_mult; reflexivity).
  assert (PH : (0 <= inject_Z h)%Q) by (apply (injZ_le 0); lia).
  pose proof (isp_div _ _ _ _ I1 (isp_Z 60 ltac:(lia))) as B. change (inject_Z 60) with 60%Q in B.
  pose proof (near_rnd2 (y1 * (1 # 60)) (y1 / 60) ltac:(lra) ltac:(field)) as NB. set (b := rnd (y1 / 60)) in *. assert (Pb : (0 <= b)%Q) by apply rnd_nonneg. clearbody b.
  pose proof (isp_add _ _ _ _ (isp_Z h ltac:(lia)) B PH Pb) as C.
  pose proof (near_rnd (inject_Z h + b) ltac:(lra)) as NC. set (c := rnd (inject_Z h + b)) in *. assert (Pc : (0 <= c)%Q) by apply rnd_nonneg. clearbody c.
  pose proof (isp_div _ _ _ _ I2 (isp_Z 3600 ltac:(lia))) as D. change (inject_Z 3600) with 3600%Q in D.
  pose proof (near_rnd2 (y2 * (1 # 3600)) (y2 / 3600) ltac:(lra) ltac:(field)) as ND. set (d := rnd (y2 / 3600)) in *. assert (Pd : (0 <= d)%Q) by apply rnd_nonneg. clearbody d.
  pose proof (isp_add _ _ _ _ C D Pc Pd) as E. exists (rnd (c + d)). split; [exact E|].
  pose proof (near_rnd (c + d) ltac:(lra)) as NE. set (f := rnd (c + d)) in *. clearbody f. set (H := inject_Z h) in *. set (H36 := inject_Z (3600 * h)) in *. clearbody H H36.
  clear - E3 NB NC ND NE N1 N2 PM PS PH Pb Pc Pd Py1 Py2. nears. split; lra.
Qed.
Definition signval (neg : bool) : fl := if neg then of_Z (-1) else of_Z 1.
Lemma sign_mul neg a y : isp a y -> (0 <= y)%Q -> fneg (fmul (signval neg) a) = neg /\ (fmag (fmul (signval neg) a) == rnd y)%Q.
Proof.
  intros [A B] P. unfold fmul. cbn [fneg fmag]. rewrite A. split; [destruct neg; reflexivity|].
  apply rnd_comp. assert (S1 : (fmag (signval neg) == 1)%Q) by (destruct neg; vm_compute; reflexivity). rewrite S1, B. ring.
Qed.
Lemma dec_print neg h mi se d y W : isp (dec_float h mi se) y -> (1 <= d)%nat -> (0 <= y)%Q ->
  near (9 # 1000000000000000) (y * inject_Z (10 ^ Z.of_nat d)) W -> (0 <= W)%Q -> (W <= 1600000000000)%Q ->
  exists V, fmtf d (fmul (signval neg) (dec_float h mi se)) = decimal_text neg d V /\ 0 <= V /\ (Qabs (inject_Z V - W) <= 52 # 100)%Q.
Proof.
  intros I Hd Py NW PW UW. destruct (sign_mul neg _ _ I Py) as [S1 S2]. set (f := fmul (signval neg) (dec_float h mi se)) in *.
  pose proof (injZ_lt _ _ (p10_pos d)) as PD. change (inject_Z 0) with 0%Q in PD. set (D := inject_Z (10 ^ Z.of_nat d)) in *.
  exists (rheQ (fmag f * D)). split; [|split].
  - rewrite (fmtf_dec d f _ Hd eq_refl). now rewrite S1.
  - apply rheQ_nonneg. rewrite S2. apply mul_nonneg; [apply rnd_nonneg|lra].
  - rewrite (rheQ_comp (fmag f * D) (rnd y * D)) by now rewrite S2.
    pose proof (near_scale _ _ _ D (near_rnd y Py) PD) as NS. set (z := (rnd y * D)%Q) in *. set (w := (y * D)%Q) in *. clearbody z w.
    pose proof (rheQ_near z) as [R1 R2]. apply Qabs_Qle_condition. clear - NS NW PW UW R1 R2. nears. split; lra.
Qed.
Lemma sexDecl_eq neg w : sexDeclToDecDecl (sgn neg ++ w) =
  do (dms, p) <- checkSexagesimal w;
  let '(degrees, minutes, seconds) := dms in
  Ok (fmtf (Z.to_nat (out_digits p arcsecToDegrees)) (fmul (signval neg) (dec_float degrees minutes seconds)), p).
Proof. destruct neg; reflexivity. Qed.
Lemma dec_fwd_sec neg w r p pr h m N : checkSexagesimal w = Ok r -> sec_fields r p pr h m N ->
  let T := (3600 * h + 60 * m) * 10 ^ Z.of_nat p + N in
  exists V, sexDeclToDecDecl (sgn neg ++ w) = Ok (decimal_text neg (p + 4) V, pr) /\ 0 <= V /\
    (Qabs (inject_Z V - (25 # 9) * inject_Z T) <= 52 # 100)%Q /\ 0 <= T < 362440 * 10 ^ Z.of_nat p.
Proof.
  intros HR [Hp Hpr Hh Hm HN (se & -> & Ise)] T. destruct (sec_prec_facts p pr Hp Hpr) as (_ & _ & _ & _ & _ & Hd).
  rewrite sexDecl_eq, HR. cbn [rbind]. rewrite Hd.
  pose proof (p10_pos p) as PP. set (P := 10 ^ Z.of_nat p) in *.
  assert (HT : 0 <= T < 362440 * P) by (unfold T; nia).
  pose proof (i10_range p Hp) as [U1 U2]. pose proof (i10_pos p) as U0. pose proof (i10_mul p) as UM. fold P in UM.
  assert (PN : (0 <= inject_Z N)%Q) by (apply (injZ_le 0); lia).
  destruct (dec_value h (of_Z m) se _ _ (inject_Z m) (inject_Z N * i10 p) Hh (isp_Z m ltac:(lia)) Ise) as (y & Iy & Ny).
  - apply near_Z; lia.
  - apply near_rnd. apply mul_nonneg; lra.
  - apply (injZ_le 0); lia.
  - apply mul_nonneg; lra.
  - set (D := inject_Z (10 ^ Z.of_nat (p + 4))).
    assert (ED : (D == 10000 * inject_Z P)%Q).
    { unfold D. rewrite Nat2Z.inj_add, Z.pow_add_r by lia. fold P. change (10 ^ Z.of_nat 4) with 10000. rewrite inject_Z_mult. change (inject_Z 10000) with 10000%Q. ring. }
    assert (PD : (0 < D)%Q) by (apply (injZ_lt 0); apply p10_pos).
    pose proof (near_scale _ _ _ D Ny PD) as Nz.
    assert (EW : ((inject_Z (3600 * h) + 60 * inject_Z m + inject_Z N * i10 p) * (1 # 3600) * D == (25 # 9) * inject_Z T)%Q).
    { rewrite ED. unfold T. rewrite ?inject_Z_plus, ?inject_Z_mult, ?inject_Z_plus, ?inject_Z_mult.
      change (inject_Z 60) with 60%Q. change (inject_Z 3600) with 3600%Q.
      set (u := i10 p) in *. set (pq := inject_Z P) in *. clearbody u pq. set (hh := inject_Z h). set (mm := inject_Z m). set (n := inject_Z N).
      setoid_replace ((3600 * hh + 60 * mm + n * u) * (1 # 3600) * (10000 * pq))%Q with ((25 # 9) * ((3600 * hh + 60 * mm) * pq + n * (pq * u)))%Q by field.
      rewrite UM. ring. }
    apply (near_eq _ _ _ _ EW) in Nz.
    assert (B : (0 <= (25 # 9) * inject_Z T)%Q) by (assert (0 <= inject_Z T)%Q by (apply (injZ_le 0); lia); lra).
    assert (BP : P <= 1000000) by (unfold P; nat_upto p; vm_compute; congruence).
    assert (BT : (inject_Z T <= 362440000000)%Q) by (apply (injZ_le T 362440000000); nia).
    assert (Py : (0 <= y)%Q).
    { assert (0 <= inject_Z (3600 * h))%Q by (apply (injZ_le 0); lia). assert (0 <= inject_Z m)%Q by (apply (injZ_le 0); lia).
      assert (0 <= inject_Z N * i10 p)%Q by (apply mul_nonneg; lra). clear - Ny H H0 H1. nears. lra. }
    destruct (dec_print neg h (of_Z m) se (p + 4) y _ Iy ltac:(lia) Py Nz B ltac:(lra)) as (V & EV & PV & BV).
    exists V. rewrite EV. auto.
Qed.
Lemma dec_fwd_min neg w r q pr h N : checkSexagesimal w = Ok r -> min_fields r q pr h N ->
  let T := 60 * h * 10 ^ Z.of_nat q + N in
  exists V, sexDeclToDecDecl (sgn neg ++ w) = Ok (decimal_text neg (q + 2) V, pr) /\ 0 <= V /\
    (Qabs (inject_Z V - (5 # 3) * inject_Z T) <= 52 # 100)%Q /\ 0 <= T < 6050 * 10 ^ Z.of_nat q.
Proof.
  intros HR [Hpr Hh HN (mi & -> & Imi)] T. destruct (min_prec_facts q pr Hpr) as (_ & Hd).
  rewrite sexDecl_eq, HR. cbn [rbind]. rewrite Hd.
  assert (Hq : (q <= 2)%nat) by (destruct Hpr as [[-> _]|[[-> _]|[-> _]]]; lia).
  pose proof (p10_pos q) as PP. set (P := 10 ^ Z.of_nat q) in *.
  assert (HT : 0 <= T < 6050 * P) by (unfold T; nia).
  pose proof (i10_range q ltac:(lia)) as [U1 U2]. pose proof (i10_pos q) as U0. pose proof (i10_mul q) as UM. fold P in UM.
  assert (PN : (0 <= inject_Z N)%Q) by (apply (injZ_le 0); lia).
  destruct (dec_value h mi (of_Z 0) _ _ (inject_Z N * i10 q) 0 Hh Imi (isp_Z 0 ltac:(lia))) as (y & Iy & Ny).
  - apply near_rnd. apply mul_nonneg; lra.
  - apply near0.
  - apply mul_nonneg; lra.
  - lra.
  - set (D := inject_Z (10 ^ Z.of_nat (q + 2))).
    assert (ED : (D == 100 * inject_Z P)%Q).
    { unfold D. rewrite Nat2Z.inj_add, Z.pow_add_r by lia. fold P. change (10 ^ Z.of_nat 2) with 100. rewrite inject_Z_mult. change (inject_Z 100) with 100%Q. ring. }
    assert (PD : (0 < D)%Q) by (apply (injZ_lt 0); apply p10_pos).
    pose proof (near_scale _ _ _ D Ny PD) as Nz.
    assert (EW : ((inject_Z (3600 * h) + 60 * (inject_Z N * i10 q) + 0) * (1 # 3600) * D == (5 # 3) * inject_Z T)%Q).
    { rewrite ED. unfold T. rewrite inject_Z_plus, !inject_Z_mult. change (inject_Z 60) with 60%Q. change (inject_Z 3600) with 3600%Q.
      set (u := i10 q) in *. set (pq := inject_Z P) in *. clearbody u pq. set (hh := inject_Z h). set (n := inject_Z N).
      setoid_replace ((3600 * hh + 60 * (n * u) + 0) * (1 # 3600) * (100 * pq))%Q with ((5 # 3) * (60 * hh * pq + n * (pq * u)))%Q by field.
      rewrite UM. ring. }
    apply (near_eq _ _ _ _ EW) in Nz.
    assert (B : (0 <= (5 # 3) * inject_Z T)%Q) by (assert (0 <= inject_Z T)%Q by (apply (injZ_le 0); lia); lra).
    assert (BP : P <= 100) by (unfold P; assert (Hc : (q = 0 \/ q = 1 \/ q = 2)%nat) by lia; destruct Hc as [-> | [-> | ->]]; vm_compute; congruence).
    assert (BT : (inject_Z T <= 605000)%Q) by (apply (injZ_le T 605000); nia).
    assert (Py : (0 <= y)%Q).
    { assert (0 <= inject_Z (3600 * h))%Q by (apply (injZ_le 0); lia).
      assert (0 <= inject_Z N * i10 q)%Q by (apply mul_nonneg; lra). clear - Ny H H0. nears. lra. }
    destruct (dec_print neg h mi (of_Z 0) (q + 2) y _ Iy ltac:(lia) Py Nz B ltac:(lra)) as (V & EV & PV & BV).
    exists V. rewrite EV. auto.
Qed.
