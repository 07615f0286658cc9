(** Any declination: what degDeclToSexDecl prints. *)
From Verif Require Import PyStrProofs PyFloat PyFloatProofs SexVals SexSpec SexProofs1 SexProofs2 SexProofs3 SexProofs4 SexProofs5 SexProofs8 SexProofs9 SexProofs19 SexProofs20 SexProofs21.
From Coq Require Import Lqa Qpower.
Open Scope Z_scope.

Lemma decl_start t f p : pyfloat t = Ok f -> (fmag f <= 99)%Q ->
  exists rev t0 sg, good rev /\ (fval rev == rnd t0)%Q /\ (rnd t0 <= 359990)%Q /\ (Qabs (rnd t0 - 3600 * fmag f) <= 2 # 1000000000)%Q /\
    degDeclToSexDecl t p = dec_body (sgn sg) rev p /\ ((0 < fmag f)%Q -> sg = fneg f) /\
    ((fmag f == 0)%Q -> sg = match t with c :: _ => ceqb c "-" | [] => false end).
Proof.
  intros Hf U. pose proof (pyfloat_good t f Hf) as G. rewrite decl_eq, Hf. cbn [rbind]. unfold good in G.
  set (t0 := (fmag f / fmag arcsecToDegrees)%Q).
  pose proof (near_inv (fmag f) inv_a2d 3600 G ltac:(lra) ltac:(lra)) as NI.
  assert (HI : (3600 * (1 - e15) <= inv_a2d <= 3600 * (1 + e15))%Q) by (unfold e15; pose proof inv_a2d_val; lra). specialize (NI HI).
  assert (Et : (rnd t0 == rnd (fmag f * inv_a2d))%Q) by (apply rnd_comp; reflexivity).
  rewrite <- Et in NI. apply Qabs_Qle_condition in NI.
  assert (Z0 : (fval (of_Z 0) == 0)%Q) by (vm_compute; reflexivity). pose proof (rnd_nonneg t0) as PT.
  assert (B1 : (rnd t0 <= 359990)%Q) by (set (r := rnd t0) in *; clearbody r; set (q := fmag f) in *; clearbody q; lra).
  assert (B2 : (Qabs (rnd t0 - 3600 * fmag f) <= 2 # 1000000000)%Q) by (apply Qabs_Qle_condition; set (r := rnd t0) in *; clearbody r; set (q := fmag f) in *; clearbody q; split; lra).
  unfold fdiv. rewrite xorb_false_r. fold t0.
  destruct (fltb (F (fneg f) (rnd t0)) (of_Z 0)) eqn:L.
  - (* negative *)
    unfold fltb in L. apply negb_true_iff in L. assert (L' : (fval (F (fneg f) (rnd t0)) < 0)%Q).
    { destruct (Qlt_le_dec (fval (F (fneg f) (rnd t0))) 0) as [A|A]; [exact A|]. rewrite <- Z0 in A. apply Qle_bool_iff in A. congruence. }
    unfold fval in L'. cbn [fneg fmag] in L'. destruct (fneg f) eqn:N; [|lra].
    exists (F false (rnd t0)), t0, true. split; [exact PT|]. split; [reflexivity|]. split; [exact B1|]. split; [exact B2|]. split; [reflexivity|]. split; [auto|].
    intros E. exfalso. assert (E0 : (t0 == 0)%Q) by (unfold t0; rewrite E; reflexivity). rewrite (rnd_0 t0 E0) in L'. lra.
  - unfold fltb in L. apply negb_false_iff in L. apply Qle_bool_iff in L. rewrite Z0 in L.
    set (sg := match t with c :: _ => ceqb c "-" | [] => false end).
    exists (F (fneg f) (rnd t0)), t0, sg. split; [exact PT|].
    split. { unfold fval in *. cbn [fneg fmag] in *. destruct (fneg f); lra. }
    split; [exact B1|]. split; [exact B2|]. split. { f_equal. unfold sg. destruct t as [|c t]; [reflexivity|]. destruct (ceqb c "-"); reflexivity. }
    split; [|auto]. intros PF. destruct (fneg f) eqn:N.
    + exfalso. unfold fval in L. cbn [fneg fmag] in L. set (r := rnd t0) in *. clearbody r. set (q := fmag f) in *. clearbody q. lra.
    + (* the text does not begin with a minus sign *)
      unfold sg. destruct t as [|c t']; [reflexivity|]. destruct (ceqb c "-") eqn:C; [exfalso|reflexivity]. apply ceqb_eq in C. subst c.
      unfold pyfloat in Hf. assert (ES : exists w, strip ("-"%char :: t') = "-"%char :: w).
      { unfold strip. rewrite lstrip_nospace by reflexivity. destruct (rstrip_prefix ("-"%char :: t')) as (b & Eb & Bb).
        destruct (rstrip ("-"%char :: t')) as [|c w]; [|exists w; cbn [app] in Eb; now injection Eb as <- _].
        cbn [app] in Eb. rewrite <- Eb in Bb. discriminate Bb. }
      destruct ES as (w & EW). rewrite EW in Hf. cbn [ceqb] in Hf. change (ceqb "-" "-") with true in Hf. cbv iota in Hf.
      destruct (float_mag w); [|discriminate]. injection Hf as <-. discriminate N.
Qed.

Lemma half_prec p d : decimals p d -> (d <= 6)%nat -> (fmag p <= 1)%Q ->
  let hp := fmul (of_Q (1 # 2)) p in (fval hp == rnd ((1 # 2) * fmag p))%Q /\
  (1 # 20000001 <= (1 # 2) * fmag p)%Q /\ ((1 # 2) * fmag p <= (1 # 2) * (i10 d * (1 + e15)))%Q.
Proof.
  intros Hd D6 P1 hp. destruct (decimals_pos p d Hd) as [PP _]. destruct Hd as (N & H).
  assert (EH : (fval hp == rnd ((1 # 2) * fmag p))%Q).
  { apply isp_val. split; [unfold hp, fmul; cbn [fneg]; rewrite N; reflexivity|]. unfold hp, fmul. cbn [fmag]. apply rnd_comp.
    assert (E : (fmag (of_Q (1 # 2)) == 1 # 2)%Q) by (vm_compute; reflexivity). now rewrite E. }
  split; [exact EH|].
  assert (I7 : forall k, (k <= 7)%nat -> (1 # 10000000 <= i10 k)%Q) by (intros k Hk; unfold i10; assert (C : (k = 7 \/ k <= 6)%nat) by lia; destruct C as [->|C]; [unfold Qle; vm_compute; congruence|pose proof (i10_range k C) as [A _]; unfold i10 in A; lra]).
  destruct H as [H|[(H1 & H2 & _)|(-> & H1 & H2)]].
  - rewrite pten_val, <- (rnd_comp _ _ (i10_t10 d)) in H. pose proof (i10_range d D6) as [A B]. pose proof (near_rnd (i10 d) ltac:(lra)) as R. rewrite <- H in R || (assert (R' : near e15 (fmag p) (i10 d)) by (eapply near_eq2; [symmetry; exact H|exact R]); clear R; rename R' into R).
    set (u := i10 d) in *. clearbody u. set (q := fmag p) in *. clearbody q. unfold near in R. split; [unfold e15 in *; lra|lra].
  - pose proof (I7 (S d) ltac:(lia)) as A. unfold i10 in A. pose proof (i10_range d D6) as [B1 B2]. unfold i10 in *. unfold e15. split; lra.
  - lra.
Qed.
Lemma dec_any_sec t f p d : pyfloat t = Ok f -> (fmag f <= 99)%Q -> decimals p d -> (d <= 6)%nat -> (fmag p <= 1)%Q -> ~ minutes_only p ->
  (forall K, 1 # 100000000 <= Qabs (3600 * fmag f + (1 # 2) * fmag p - inject_Z (60 * K)))%Q ->
  exists sg h m N, degDeclToSexDecl t p = Ok (padr 12 (sgn sg ++ sec_text d h m N)) /\ 0 <= h < 100 /\ 0 <= m <= 60 /\ 0 <= N <= 60 * 10 ^ Z.of_nat d /\
    (Qabs (inject_Z (3600 * h + 60 * m) + inject_Z N / inject_Z (10 ^ Z.of_nat d) - 3600 * fmag f) <= (51 # 100) / inject_Z (10 ^ Z.of_nat d))%Q /\
    ((0 < fmag f)%Q -> sg = fneg f) /\ ((fmag f == 0)%Q -> sg = match t with c :: _ => ceqb c "-" | [] => false end) /\
    ((fmag p == fmag (prec_fl (PTen d)))%Q -> N < 60 * 10 ^ Z.of_nat d).
Proof.
  intros Hf U Hp Hd P1 Hm Tie. destruct (decl_start t f p Hf U) as (rev & t0 & sg & G1 & E1 & U1 & A1 & -> & Sg1 & Sg2).
  unfold dec_body. destruct (not_minutes p Hm) as (-> & -> & ->).
  destruct (hours rev t0 G1 E1 U1) as (h & -> & Hh & S1 & L1 & B1).
  set (r := fsub rev (fmul (of_Z h) (of_Z 3600))) in *.
  destruct (half_prec p d Hp Hd P1) as (EH & HL & HU). set (hp := fmul (of_Q (1 # 2)) p) in *.
  pose proof (i10_range d Hd) as [I1 I2]. set (x := ((1 # 2) * fmag p)%Q) in *.
  pose proof (near_rnd x ltac:(lra)) as RX. set (y := rnd x) in *. clearbody y.
  set (v1 := (rnd t0 - inject_Z (3600 * h))%Q) in *. change (p2 (-41)) with (1 # 2199023255552)%Q in B1.
  pose proof (fadd_val _ _ _ _ S1 EH) as SA. assert (SE : (Qabs (srnd (v1 + y) - (v1 + y)) <= 3602 * e15)%Q).
  { eapply Qle_trans; [apply srnd_err|]. assert (Qabs (v1 + y) <= 3602)%Q by (apply Qabs_Qle_condition; unfold near, e15 in *; lra). unfold e15. set (q := Qabs _) in *. clearbody q. lra. }
  apply Qabs_Qle_condition in SE. set (z1 := srnd (v1 + y)) in *. clearbody z1.
  pose proof (fdiv_val _ 60 _ ltac:(lia) (good_add _ _) SA) as SD. change (inject_Z 60) with 60%Q in SD. set (z2 := srnd (z1 / 60)) in *.
  assert (QD : (z1 / 60 == z1 * (1 # 60))%Q) by field.
  assert (SE2 : (Qabs (z2 - z1 / 60) <= 61 * e15)%Q).
  { eapply Qle_trans; [apply srnd_err|]. assert (Qabs (z1 / 60) <= 61)%Q by (apply Qabs_Qle_condition; rewrite QD; unfold near, e15 in *; lra). unfold e15. set (q := Qabs _) in *. clearbody q. lra. }
  apply Qabs_Qle_condition in SE2. rewrite QD in SE2. clearbody z2.
  assert (Z2 : (-1 < z2)%Q) by (unfold near, e15 in *; lra).
  rewrite (fint_val _ _ (good_div _ _) SD Z2).
  pose proof (Qfloor_le z2) as F1. pose proof (Qlt_floor z2) as F2. rewrite inject_Z_plus in F2. change (inject_Z 1) with 1%Q in F2.
  assert (MB : 0 <= Qfloor z2 <= 60).
  { split.
    - enough (-1 < Qfloor z2) by lia. rewrite Zlt_Qlt. change (inject_Z (-1)) with (-1)%Q. clear - F2 SE SE2 RX HL L1. unfold near, e15 in *. lra.
    - enough (Qfloor z2 < 61) by lia. rewrite Zlt_Qlt. change (inject_Z 61) with 61%Q. clear - F1 SE SE2 RX HU I2 B1. unfold near, e15 in *. lra. }
  rewrite Z.max_r by lia. set (m := Qfloor z2) in *. clearbody m.
  assert (E3 : (inject_Z (3600 * h) == 60 * inject_Z (60 * h))%Q) by (rewrite !inject_Z_mult; change (inject_Z 3600) with 3600%Q; change (inject_Z 60) with 60%Q; ring).
  assert (E4 : (inject_Z (60 * m) == 60 * inject_Z m)%Q) by (rewrite inject_Z_mult; reflexivity).
  apply Qabs_Qle_condition in A1.
  (* away from whole minutes *)
  assert (T1 : (inject_Z (60 * m) + (7 # 1000000000) <= v1 + x)%Q).
  { pose proof (Tie (60 * h + m)) as T. rewrite Z.mul_add_distr_l, inject_Z_plus in T. replace (60 * (60 * h)) with (3600 * h) in T by ring.
    set (g := (3600 * fmag f + x - (inject_Z (3600 * h) + inject_Z (60 * m)))%Q) in *.
    destruct (Qlt_le_dec g 0) as [N|N]; [rewrite Qabs_neg in T by lra|rewrite Qabs_pos in T by lra].
    - exfalso. unfold g in T. clear - T A1 F1 F2 SE SE2 RX E4 HU I2 v1 L1 B1. unfold near, e15, v1 in *. lra.
    - unfold g in T. unfold v1. clear - T A1. lra. }
  assert (T2 : (v1 + x <= inject_Z (60 * m) + 60 - (7 # 1000000000))%Q).
  { pose proof (Tie (60 * h + m + 1)) as T. replace (60 * (60 * h + m + 1)) with (3600 * h + 60 * m + 60) in T by ring. rewrite !inject_Z_plus in T. change (inject_Z 60) with 60%Q in T.
    set (g := (3600 * fmag f + x - (inject_Z (3600 * h) + inject_Z (60 * m) + 60))%Q) in *.
    destruct (Qlt_le_dec g 0) as [N|N]; [rewrite Qabs_neg in T by lra|rewrite Qabs_pos in T by lra].
    - unfold g in T. unfold v1. clear - T A1. lra.
    - exfalso. unfold g in T. clear - T A1 F1 F2 SE SE2 RX E4 HU I2 v1 L1 B1. unfold near, e15, v1 in *. lra. }
  pose proof (fsub_val _ _ _ _ S1 (fmul_ZZ m 60 ltac:(lia) ltac:(lia))) as S2.
  assert (SE3 : (Qabs (srnd (v1 - inject_Z (60 * m)) - (v1 - inject_Z (60 * m))) <= 61 * e15)%Q).
  { eapply Qle_trans; [apply srnd_err|]. assert (Qabs (v1 - inject_Z (60 * m)) <= 61)%Q by (apply Qabs_Qle_condition; unfold near, e15 in *; lra). unfold e15. set (q := Qabs _) in *. clearbody q. lra. }
  apply Qabs_Qle_condition in SE3. set (v2 := srnd (v1 - inject_Z (60 * m))) in *. clearbody v2.
  assert (V1 : (- (1 # 2) * i10 d + (6 # 1000000000) <= v2)%Q) by (unfold e15 in *; lra).
  assert (V2 : (v2 <= 60 - x - (6 # 1000000000))%Q) by (unfold e15 in *; lra).
  rewrite (decimals_text p d _ Hp). cbn [rbind].
  pose proof (near_rnd (100 + v2) ltac:(lra)) as R100.
  destruct (twof_any d (fsub r (fmul (of_Z m) (of_Z 60))) v2 Hd S2) as (K & -> & HK & AK & LK).
  { set (rr := rnd _) in *. clearbody rr. unfold near, e15 in R100. lra. } { lra. } { lra. }
  rewrite (two_ok h), (two_ok m) by lia. rewrite (Z.mod_small h 100), (Z.mod_small m 100) by lia.
  exists sg, h, m, K. split; [reflexivity|]. split; [lia|]. split; [lia|].
  split; [split; [lia|exact (N_le d K v2 ltac:(lia) ltac:(lra) Hd AK)]|].
  split; [|split; [exact Sg1|split; [exact Sg2|]]].
  - unfold Qdiv. fold (i10 d). rewrite inject_Z_plus. apply Qabs_Qle_condition in AK. apply Qabs_Qle_condition. unfold v1 in *.
    set (a := inject_Z (3600 * h)) in *. set (b := inject_Z (60 * m)) in *. set (k := (inject_Z K * i10 d)%Q) in *. set (u := i10 d) in *. set (r0 := rnd t0) in *. set (w := fmag f) in *.
    clearbody a b k u r0 w. clear - A1 SE3 AK I1 I2. unfold e15 in *. split; lra.
  - intros EP. apply LK. assert (NX : near e15 (fmag p) (i10 d)).
    { eapply near_eq2; [symmetry; exact EP|]. eapply near_eq2; [symmetry; apply pten_val|]. eapply near_eq2; [apply rnd_comp, i10_t10|]. apply near_rnd. lra. }
    unfold x in *. set (rr := rnd (100 + v2)) in *. clearbody rr. set (u := i10 d) in *. clearbody u. set (w := fmag p) in *. clearbody w. clear - R100 V2 NX I1 I2. unfold near, e15 in *. lra.
Qed.
Lemma dec_any_min t f q pr : pyfloat t = Ok f -> (fmag f <= 99)%Q -> min_prec q pr ->
  exists sg h N, degDeclToSexDecl t (prec_fl pr) = Ok (padr 12 (sgn sg ++ min_text q h N)) /\ 0 <= h < 100 /\ 0 <= N <= 60 * 10 ^ Z.of_nat q /\
    (Qabs (inject_Z (60 * h) + inject_Z N / inject_Z (10 ^ Z.of_nat q) - 60 * fmag f) <= (51 # 100) / inject_Z (10 ^ Z.of_nat q))%Q /\
    ((0 < fmag f)%Q -> sg = fneg f) /\ ((fmag f == 0)%Q -> sg = match t with c :: _ => ceqb c "-" | [] => false end).
Proof.
  intros Hf U Hp. assert (Hq : (q <= 6)%nat) by (destruct Hp as [[-> _]|[[-> _]|[-> _]]]; lia).
  destruct (decl_start t f (prec_fl pr) Hf U) as (rev & t0 & sg & G1 & E1 & U1 & A1 & -> & Sg1 & Sg2). unfold dec_body.
  destruct (hours rev t0 G1 E1 U1) as (h & -> & Hh & S1 & L1 & B1).
  set (r := fsub rev (fmul (of_Z h) (of_Z 3600))) in *.
  pose proof (fdiv_val r 60 _ ltac:(lia) (good_sub _ _) S1) as SM. change (inject_Z 60) with 60%Q in SM. set (mi := fdiv r (of_Z 60)) in *.
  rewrite (two_ok h) by lia. rewrite (Z.mod_small h 100) by lia.
  rewrite (min_text_of q pr (fun n => Ok (sgn sg ++ num 2 h ++ $" " ++ twof n mi)) Hp) by exact (Ok []).
  cbn [rbind]. set (v1 := (rnd t0 - inject_Z (3600 * h))%Q) in *. change (p2 (-41)) with (1 # 2199023255552)%Q in B1.
  assert (QD : (v1 / 60 == v1 * (1 # 60))%Q) by field.
  assert (SE : (Qabs (srnd (v1 / 60) - v1 / 60) <= 60 * e15)%Q).
  { eapply Qle_trans; [apply srnd_err|]. assert (Qabs (v1 / 60) <= 60)%Q by (apply Qabs_Qle_condition; rewrite QD; lra). unfold e15. set (z := Qabs _) in *. clearbody z. lra. }
  apply Qabs_Qle_condition in SE. rewrite QD in SE at 2 4. set (v2 := srnd (v1 / 60)) in *. clearbody v2. unfold e15 in SE.
  destruct (twof_any q mi v2 Hq SM) as (K & -> & HK & AK & _); [apply rnd100'; [auto|lra]|lra|lra|].
  exists sg, h, K. split; [reflexivity|]. split; [lia|]. split; [split; [lia|apply (N_le q K v2 ltac:(lia)); auto; lra]|].
  split; [|split; [exact Sg1|exact Sg2]].
  unfold Qdiv. fold (i10 q). pose proof (i10_range q Hq) as [I1 I2]. apply Qabs_Qle_condition in A1, AK. apply Qabs_Qle_condition.
  unfold v1 in SE. rewrite !inject_Z_mult in *. change (inject_Z 3600) with 3600%Q in *. change (inject_Z 60) with 60%Q in *.
  set (k := (inject_Z K * i10 q)%Q) in *. set (u := i10 q) in *. set (r0 := rnd t0) in *. set (x := fmag f) in *. set (hh := inject_Z h) in *.
  clearbody k u r0 x hh. clear - A1 AK SE I1 I2. split; lra.
Qed.
