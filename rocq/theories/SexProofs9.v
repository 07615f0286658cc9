(** Declination: the sign, and the way back for every decimal text that came from a sexagesimal one. *)
From Verif Require Import PyStrProofs PyFloat PyFloatProofs SexVals SexSpec SexProofs1 SexProofs2 SexProofs3 SexProofs4 SexProofs5 SexProofs7 SexProofs8.
From Coq Require Import Lqa.
Open Scope Z_scope.

Definition dec_body (revSign : str) (rev p : fl) : res str :=
  let revDeg := fint (fdiv rev (of_Z 3600)) in
  let rev := fsub rev (fmul (of_Z revDeg) (of_Z 3600)) in
  let minutes := fdiv rev (of_Z 60) in
  do revstr <-
    (if feqb p f06 then Ok (revSign ++ two revDeg ++ $" " ++ twof 2 minutes)
     else if feqb p (of_Z 6) then Ok (revSign ++ two revDeg ++ $" " ++ twof 1 minutes)
     else if feqb p (of_Z 60) then Ok (revSign ++ two revDeg ++ $" " ++ twof 0 minutes)
     else
       let revMin := fint (fdiv (fadd rev (fmul (of_Q (1 # 2)) p)) (of_Z 60)) in
       let rev := fsub rev (fmul (of_Z revMin) (of_Z 60)) in
       do st <- seconds_text rev p;
       Ok (revSign ++ two revDeg ++ $" " ++ two revMin ++ $" " ++ st));
  Ok (padr 12 revstr).
Lemma decl_eq decl p : degDeclToSexDecl decl p =
  do f <- pyfloat decl;
  let rev := fdiv f arcsecToDegrees in
  let '(revSign, rev) :=
    if fltb rev (of_Z 0) then ($"-", fopp rev)
    else (match decl with c :: _ => if ceqb c "-" then $"-" else $"+" | [] => $"+" end, rev) in
  dec_body revSign rev p.
Proof. unfold degDeclToSexDecl, dec_body. destruct (pyfloat decl); [|reflexivity]. cbn [rbind]. destruct (fltb _ _); reflexivity. Qed.

Lemma isp_a2d : isp arcsecToDegrees (fmag arcsecToDegrees).
Proof. split; reflexivity. Qed.
(** the sign is kept, unless the value is a negative zero *)
Lemma decl_sign neg d V p : (1 <= d)%nat -> 0 <= V -> (neg = true -> 0 < V) -> exists q rev,
  (q == inject_Z V / inject_Z (10 ^ Z.of_nat d))%Q /\ isp rev (rnd (rnd q / fmag arcsecToDegrees)) /\
  degDeclToSexDecl (decimal_text neg d V) p = dec_body (sgn neg) rev p.
Proof.
  intros Hd HV Hn. destruct (pyfloat_dec neg d V Hd HV) as (q & Ep & Eq). exists q.
  pose proof (injZ_lt _ _ (p10_pos d)) as PD. change (inject_Z 0) with 0%Q in PD. set (D := inject_Z (10 ^ Z.of_nat d)) in *.
  assert (QV : (0 <= inject_Z V)%Q) by (apply (injZ_le 0); auto).
  pose proof (Qinv_lt_0_compat _ PD) as PI.
  assert (Qq : (0 <= q)%Q) by (rewrite Eq; unfold Qdiv; set (i := (/ D)%Q) in *; clearbody i; nra).
  set (t := rnd (rnd q / fmag arcsecToDegrees)). pose proof (dec_rev_near q Qq) as NT. fold t in NT.
  assert (Pt : (0 <= t)%Q) by apply rnd_nonneg.
  rewrite decl_eq, Ep. cbn [rbind].
  assert (Z0 : (fval (of_Z 0) == 0)%Q) by (vm_compute; reflexivity).
  destruct neg.
  - assert (QV' : (0 < inject_Z V)%Q) by (apply (injZ_lt 0); auto).
    assert (Qq' : (0 < q)%Q) by (rewrite Eq; unfold Qdiv; set (i := (/ D)%Q) in *; clearbody i; nra).
    assert (Pt' : (0 < t)%Q) by (clear - NT Qq'; nears; lra).
    exists (F false t). split; [exact Eq|]. split; [split; reflexivity|].
    unfold fdiv. cbn [fneg fmag]. change (xorb true (fneg arcsecToDegrees)) with true. fold t.
    assert (L : fltb (F true t) (of_Z 0) = true).
    { unfold fltb. apply negb_true_iff. destruct (Qle_bool (fval (of_Z 0)) (fval (F true t))) eqn:E; auto. apply Qle_bool_iff in E.
      rewrite Z0 in E. unfold fval in E. cbn [fneg fmag] in E. lra. }
    rewrite L. unfold fopp. cbn [fneg fmag negb]. reflexivity.
  - exists (F false t). split; [exact Eq|]. split; [split; reflexivity|].
    unfold fdiv. cbn [fneg fmag]. change (xorb false (fneg arcsecToDegrees)) with false. fold t.
    assert (L : fltb (F false t) (of_Z 0) = false).
    { unfold fltb. apply negb_false_iff. apply Qle_bool_iff. rewrite Z0. unfold fval. cbn [fneg fmag]. exact Pt. }
    rewrite L. unfold decimal_text. cbn [app].
    assert (A : 0 <= V / 10 ^ Z.of_nat d) by (apply Z.div_pos; [lia|apply p10_pos]).
    pose proof (dec_alldig _ A) as Da. pose proof (dec_ne _ A) as Na. destruct (dec (V / 10 ^ Z.of_nat d)) as [|c w] eqn:E; [congruence|].
    apply alldig_cons in Da as [Dc _]. cbn [app]. destruct (isdig_nosign c Dc) as [_ ->]. reflexivity.
Qed.

Lemma dec_back_sec neg p pr T V : (p <= 6)%nat -> sec_prec p pr -> let P := 10 ^ Z.of_nat p in let k := T / (60 * P) in
  0 <= T < 362440 * P -> 0 <= V -> (Qabs (inject_Z V - (25 # 9) * inject_Z T) <= 52 # 100)%Q ->
  degDeclToSexDecl (decimal_text neg (p + 4) V) (prec_fl pr) =
    Ok (padr 12 (sgn neg ++ sec_text p (k / 60 mod 100) (k mod 60) (T mod (60 * P)))).
Proof.
  intros Hp Hpr P k HT HV HB. pose proof (p10_pos p) as PP. fold P in PP.
  destruct (sec_prec_facts p pr Hp Hpr) as (F1 & F2 & F3 & F4 & _ & _).
  assert (TZ : V = 0 -> T = 0).
  { intros ->. apply Qabs_Qle_condition in HB. change (inject_Z 0) with 0%Q in HB. assert (L : (inject_Z T < inject_Z 1)%Q) by (change (inject_Z 1) with 1%Q; lra). rewrite <- Zlt_Qlt in L. lia. }
  destruct (Z.eq_dec V 0) as [V0|Vn].
  { destruct neg.
    - rewrite V0. specialize (TZ V0). unfold k. rewrite TZ. rewrite Zdiv_0_l, Zmod_0_l. change (0 / 60 mod 100) with 0. change (0 mod 60) with 0.
      clear - Hp Hpr. destruct Hpr as [-> | [-> ->]]; [nat_upto p|]; vm_compute; reflexivity.
    - rewrite V0. specialize (TZ V0). unfold k. rewrite TZ. rewrite Zdiv_0_l, Zmod_0_l. change (0 / 60 mod 100) with 0. change (0 mod 60) with 0.
      clear - Hp Hpr. destruct Hpr as [-> | [-> ->]]; [nat_upto p|]; vm_compute; reflexivity. }
  destruct (decl_sign neg (p + 4) V (prec_fl pr) ltac:(lia) HV ltac:(lia)) as (q & rev & Eq & It & ->).
  set (t := rnd (rnd q / fmag arcsecToDegrees)) in *.
  pose proof (i10_range p Hp) as [U1 U2]. pose proof (i10_pos p) as U0. pose proof (i10_mul p) as UM. fold P in UM.
  set (u := i10 p) in *.
  assert (Eq' : (q == inject_Z V * u * (1 # 10000))%Q).
  { rewrite Eq. replace (10 ^ Z.of_nat (p + 4)) with (P * 10000) by (unfold P; rewrite Nat2Z.inj_add, Z.pow_add_r by lia; reflexivity).
    rewrite inject_Z_mult. unfold u, i10. fold P. change (inject_Z 10000) with 10000%Q. field. change 0%Q with (inject_Z 0). rewrite inject_Z_injective. lia. }
  assert (QV : (0 <= inject_Z V)%Q) by (apply (injZ_le 0); auto).
  assert (Qq : (0 <= q)%Q) by (rewrite Eq'; clearbody u; nra).
  pose proof (dec_rev_near q Qq) as NT. fold t in NT.
  set (N := T mod (60 * P)). assert (HN : 0 <= N < 60 * P) by (apply Z.mod_pos_bound; lia).
  assert (ET : T = 60 * P * k + N) by (apply Z.div_mod; lia).
  assert (Hk : 0 <= k <= 6040) by (split; [apply Z.div_pos; lia|]; enough (k < 6041) by lia; apply Z.div_lt_upper_bound; lia).
  set (h := k / 60). set (m := k mod 60).
  assert (Hm : 0 <= m < 60) by (apply Z.mod_pos_bound; lia).
  assert (Ek : k = 60 * h + m) by (apply Z.div_mod; lia).
  assert (Hh : 0 <= h <= 100) by lia.
  set (x := (inject_Z N * u)%Q).
  assert (X0 : (0 <= x)%Q) by (unfold x; assert (0 <= inject_Z N)%Q by (apply (injZ_le 0); lia); clearbody u; nra).
  assert (X1 : (x <= 60)%Q).
  { assert (B : (inject_Z N <= inject_Z (60 * P))%Q) by (apply injZ_le; lia). rewrite inject_Z_mult in B. change (inject_Z 60) with 60%Q in B.
    unfold x. set (n := inject_Z N) in *. set (pq := inject_Z P) in *. clearbody n pq u. nra. }
  assert (ETq : (inject_Z T * u == inject_Z (3600 * h + 60 * m) + x)%Q).
  { rewrite ET, Ek. replace (60 * P * (60 * h + m) + N) with ((3600 * h + 60 * m) * P + N) by ring.
    rewrite inject_Z_plus, inject_Z_mult. unfold x.
    set (a := inject_Z (3600 * h + 60 * m)) in *. set (n := inject_Z N) in *. set (pq := inject_Z P) in *. clearbody a n pq u.
    setoid_replace ((a * pq + n) * u)%Q with (a * (pq * u) + n * u)%Q by ring. rewrite UM. ring. }
  assert (Bx : (inject_Z (3600 * h + 60 * m) <= 363600)%Q) by (apply (injZ_le _ 363600); lia).
  assert (Bx0 : (0 <= inject_Z (3600 * h + 60 * m))%Q) by (apply (injZ_le 0); lia).
  assert (HBu : (Qabs (inject_Z V * u - (25 # 9) * (inject_Z T * u)) <= (52 # 100) * u)%Q).
  { apply Qabs_Qle_condition in HB. apply Qabs_Qle_condition. set (v := inject_Z V) in *. set (tt := inject_Z T) in *. clearbody v tt u. split; nra. }
  apply Qabs_Qle_condition in HBu. rewrite ETq in HBu.
  assert (HTc : (Qabs (t - (inject_Z (3600 * h + 60 * m) + x)) <= (21 # 100) * u)%Q).
  { apply Qabs_Qle_condition. rewrite Eq' in NT. set (w := (inject_Z V * u)%Q) in *. clearbody w t x u. set (b := inject_Z (3600 * h + 60 * m)) in *. clearbody b.
    clear - NT HBu Bx Bx0 X0 X1 U1 U2. nears. split; lra. }
  assert (HL : (t == inject_Z (3600 * h) \/ inject_Z (3600 * h) + (1 # 2) * u <= t)%Q).
  { destruct (Z.eq_dec (60 * P * m + N) 0) as [N0|N0].
    - left. assert (m = 0 /\ N = 0) as [M0 N00] by nia.
      assert (EV : V = 10000 * P * h).
      { assert (Ex : (25 # 9) * inject_Z T == inject_Z (10000 * P * h)).
        { replace (10000 * P * h) with (10000 * (P * h)) by ring. replace T with (3600 * (P * h)) by nia. rewrite !inject_Z_mult. change (inject_Z 3600) with 3600%Q. change (inject_Z 10000) with 10000%Q. ring. }
        rewrite Ex in HB. apply Qabs_Qle_condition in HB.
        assert (Hlt : (inject_Z (V - 1) < inject_Z (10000 * P * h))%Q /\ (inject_Z (10000 * P * h) < inject_Z (V + 1))%Q).
        { rewrite <- Z.add_opp_r, !(inject_Z_plus V). change (inject_Z (- (1))) with (-1)%Q. change (inject_Z 1) with 1%Q. split; lra. }
        rewrite <- !Zlt_Qlt in Hlt. lia. }
      assert (Eq4 : (q == inject_Z h)%Q).
      { rewrite Eq', EV. rewrite !inject_Z_mult. change (inject_Z 10000) with 10000%Q.
        set (pq := inject_Z P) in *. set (kk := inject_Z h). clearbody pq u kk.
        setoid_replace (10000 * pq * kk * u * (1 # 10000))%Q with ((pq * u) * kk)%Q by ring. rewrite UM. ring. }
      unfold t. assert (E2 : (rnd q / fmag arcsecToDegrees == rnd (inject_Z h) / fmag arcsecToDegrees)%Q) by (rewrite (rnd_comp _ _ Eq4); reflexivity).
      rewrite (rnd_comp _ _ E2), dec_deg by lia. reflexivity.
    - right. assert (N1 : (u <= inject_Z (60 * m) + x)%Q).
      { assert (A : (1 <= inject_Z (60 * P * m + N))%Q) by (apply (injZ_le 1); nia).
        rewrite inject_Z_plus in A. replace (60 * P * m) with (60 * m * P) in A by ring. rewrite inject_Z_mult in A. unfold x.
        set (mm := inject_Z (60 * m)) in *. set (n := inject_Z N) in *. set (pq := inject_Z P) in *. clearbody mm n pq u.
        assert (Hmul : (1 * u <= (mm * pq + n) * u)%Q) by (apply Qmult_le_compat_r; lra).
        setoid_replace ((mm * pq + n) * u)%Q with (mm * (pq * u) + n * u)%Q in Hmul by ring. rewrite UM in Hmul. lra. }
      apply Qabs_Qle_condition in HTc. rewrite inject_Z_plus in HTc. clear - HTc N1 U0. lra. }
  destruct (dec_split_sec p pr h m N rev t Hp Hpr ltac:(lia) Hm HN It (rnd_nonneg _) HTc HL) as (FH & FM & FS). cbv zeta in FM, FS.
  unfold dec_body. rewrite FH. rewrite FM. rewrite F1, F2, F3, F4. cbn [rbind]. rewrite FS.
  rewrite (two_ok h) by lia. rewrite (two_ok m) by lia. rewrite (Z.mod_small m 100) by lia. reflexivity.
Qed.
