(** Right ascension: from the parsed fields to the decimal text. *)
From Verif Require Import PyStrProofs PyFloat PyFloatProofs SexVals SexSpec SexProofs1 SexProofs2 SexProofs3 SexProofs4.
From Coq Require Import Lqa.
Open Scope Z_scope.

(** what the patterns deliver *)
Record sec_fields (r : sexag) (p : nat) (pr : prec) (h m N : Z) : Prop := {
  sf_p : (p <= 6)%nat; sf_pr : sec_prec p pr; sf_h : 0 <= h < 100; sf_m : 0 <= m < 100;
  sf_N : 0 <= N < 100 * 10 ^ Z.of_nat p;
  sf_r : exists se, r = (h, of_Z m, se, pr) /\ isp se (rnd (inject_Z N * i10 p)) }.
Record min_fields (r : sexag) (q : nat) (pr : prec) (h N : Z) : Prop := {
  mf_pr : min_prec q pr; mf_h : 0 <= h < 100; mf_N : 0 <= N < 100 * 10 ^ Z.of_nat q;
  mf_r : exists mi, r = (h, mi, of_Z 0, pr) /\ isp mi (rnd (inject_Z N * i10 q)) }.

Lemma near0 : near e15 (inject_Z 0) 0.
Proof. split; unfold Qle; vm_compute; congruence. Qed.
Lemma near_Z z : 0 <= z -> near e15 (inject_Z z) (inject_Z z).
Proof. intros H. apply (injZ_le 0) in H. change (inject_Z 0) with 0%Q in H. nears. split; lra. Qed.
Lemma rheQ_nonneg x : (0 <= x)%Q -> 0 <= rheQ x.
Proof. intros H. unfold rheQ. apply rhe_nonneg; [lia|]. destruct x. unfold Qle in H. cbn in *. lia. Qed.
Lemma mul_nonneg a b : (0 <= a -> 0 <= b -> 0 <= a * b)%Q.
Proof. apply Qmult_le_0_compat. Qed.

Lemma ra_fwd_sec w r p pr h m N : checkSexagesimal w = Ok r -> sec_fields r p pr h m N ->
  let T := (3600 * h + 60 * m) * 10 ^ Z.of_nat p + N in
  exists V, sexRaToDecRa w = Ok (decimal_text false (p + 3) V, pr) /\ 0 <= V /\
    (Qabs (inject_Z V - (25 # 6) * inject_Z T) <= 52 # 100)%Q /\ 0 <= T < 362440 * 10 ^ Z.of_nat p.
Proof.
  intros HR [Hp Hpr Hh Hm HN (se & -> & Ise)] T. destruct (sec_prec_facts p pr Hp Hpr) as (_ & _ & _ & _ & Hd & _).
  unfold sexRaToDecRa. rewrite HR. cbn [rbind]. rewrite Hd. fold (ra_float h (of_Z m) se).
  pose proof (p10_pos p) as PP. set (P := 10 ^ Z.of_nat p) in *.
  assert (HT : 0 <= T < 362440 * P) by (unfold T; nia).
  pose proof (i10_range p Hp) as [U1 U2]. pose proof (i10_pos p) as U0. pose proof (i10_mul p) as UM. fold P in UM.
  assert (PN : (0 <= inject_Z N)%Q) by (apply (injZ_le 0); lia).
  destruct (ra_value h (of_Z m) se _ _ (inject_Z m) (inject_Z N * i10 p) Hh (isp_Z m ltac:(lia)) Ise) as (y & Iy & Ny).
  - apply near_Z; lia.
  - apply near_rnd. apply mul_nonneg; lra.
  - apply (injZ_le 0); lia.
  - apply mul_nonneg; lra.
  - set (D := inject_Z (10 ^ Z.of_nat (p + 3))).
    assert (ED : (D == 1000 * inject_Z P)%Q).
    { unfold D. rewrite Nat2Z.inj_add, Z.pow_add_r by lia. fold P. change (10 ^ Z.of_nat 3) with 1000. rewrite inject_Z_mult. change (inject_Z 1000) with 1000%Q. ring. }
    assert (PD : (0 < D)%Q) by (apply (injZ_lt 0); apply p10_pos).
    pose proof (near_scale _ _ _ D Ny PD) as Nz.
    assert (EW : ((inject_Z (3600 * h) + 60 * inject_Z m + inject_Z N * i10 p) * (1 # 240) * D == (25 # 6) * inject_Z T)%Q).
    { rewrite ED. unfold T. rewrite ?inject_Z_plus, ?inject_Z_mult, ?inject_Z_plus, ?inject_Z_mult.
      change (inject_Z 60) with 60%Q. change (inject_Z 3600) with 3600%Q.
      set (u := i10 p) in *. set (pq := inject_Z P) in *. clearbody u pq. set (hh := inject_Z h). set (mm := inject_Z m). set (n := inject_Z N).
      setoid_replace ((3600 * hh + 60 * mm + n * u) * (1 # 240) * (1000 * pq))%Q with ((25 # 6) * ((3600 * hh + 60 * mm) * pq + n * (pq * u)))%Q by field.
      rewrite UM. ring. }
    apply (near_eq _ _ _ _ EW) in Nz.
    assert (B : (0 <= (25 # 6) * inject_Z T)%Q) by (assert (0 <= inject_Z T)%Q by (apply (injZ_le 0); lia); lra).
    assert (BP : P <= 1000000) by (unfold P; nat_upto p; vm_compute; congruence).
    assert (BT : (inject_Z T <= 362440000000)%Q) by (apply (injZ_le T 362440000000); nia).
    pose proof (print_near y _ D (ra_float h (of_Z m) se) Iy PD Nz B ltac:(lra)) as HV.
    exists (rheQ (fmag (ra_float h (of_Z m) se) * D)). split; [|split; [|split]]; auto.
    + rewrite (fmtf_dec (p + 3) _ _ ltac:(lia) eq_refl). destruct Iy as [-> _]. reflexivity.
    + apply rheQ_nonneg. apply mul_nonneg; [|lra]. unfold ra_float, fmul. cbn [fmag]. apply rnd_nonneg.
Qed.
Lemma ra_fwd_min w r q pr h N : checkSexagesimal w = Ok r -> min_fields r q pr h N ->
  let T := 60 * h * 10 ^ Z.of_nat q + N in
  exists V, sexRaToDecRa w = Ok (decimal_text false (q + 1) V, pr) /\ 0 <= V /\
    (Qabs (inject_Z V - (5 # 2) * inject_Z T) <= 52 # 100)%Q /\ 0 <= T < 6050 * 10 ^ Z.of_nat q.
Proof.
  intros HR [Hpr Hh HN (mi & -> & Imi)] T. destruct (min_prec_facts q pr Hpr) as (Hd & _).
  unfold sexRaToDecRa. rewrite HR. cbn [rbind]. rewrite Hd. fold (ra_float h mi (of_Z 0)).
  assert (Hq : (q <= 2)%nat) by (destruct Hpr as [[-> _]|[[-> _]|[-> _]]]; lia).
  pose proof (p10_pos q) as PP. set (P := 10 ^ Z.of_nat q) in *.
  assert (HT : 0 <= T < 6050 * P) by (unfold T; nia).
  pose proof (i10_range q ltac:(lia)) as [U1 U2]. pose proof (i10_pos q) as U0. pose proof (i10_mul q) as UM. fold P in UM.
  assert (PN : (0 <= inject_Z N)%Q) by (apply (injZ_le 0); lia).
  destruct (ra_value h mi (of_Z 0) _ _ (inject_Z N * i10 q) 0 Hh Imi (isp_Z 0 ltac:(lia))) as (y & Iy & Ny).
  - apply near_rnd. apply mul_nonneg; lra.
  - apply near0.
  - apply mul_nonneg; lra.
  - lra.
  - set (D := inject_Z (10 ^ Z.of_nat (q + 1))).
    assert (ED : (D == 10 * inject_Z P)%Q).
    { unfold D. rewrite Nat2Z.inj_add, Z.pow_add_r by lia. fold P. change (10 ^ Z.of_nat 1) with 10. rewrite inject_Z_mult. change (inject_Z 10) with 10%Q. ring. }
    assert (PD : (0 < D)%Q) by (apply (injZ_lt 0); apply p10_pos).
    pose proof (near_scale _ _ _ D Ny PD) as Nz.
    assert (EW : ((inject_Z (3600 * h) + 60 * (inject_Z N * i10 q) + 0) * (1 # 240) * D == (5 # 2) * inject_Z T)%Q).
    { rewrite ED. unfold T. rewrite inject_Z_plus, !inject_Z_mult. change (inject_Z 60) with 60%Q. change (inject_Z 3600) with 3600%Q.
      set (u := i10 q) in *. set (pq := inject_Z P) in *. clearbody u pq. set (hh := inject_Z h). set (n := inject_Z N).
      setoid_replace ((3600 * hh + 60 * (n * u) + 0) * (1 # 240) * (10 * pq))%Q with ((5 # 2) * (60 * hh * pq + n * (pq * u)))%Q by field.
      rewrite UM. ring. }
    apply (near_eq _ _ _ _ EW) in Nz.
    assert (B : (0 <= (5 # 2) * inject_Z T)%Q) by (assert (0 <= inject_Z T)%Q by (apply (injZ_le 0); lia); lra).
    assert (BP : P <= 100) by (unfold P; assert (Hc : (q = 0 \/ q = 1 \/ q = 2)%nat) by lia; destruct Hc as [-> | [-> | ->]]; vm_compute; congruence).
    assert (BT : (inject_Z T <= 605000)%Q) by (apply (injZ_le T 605000); nia).
    pose proof (print_near y _ D (ra_float h mi (of_Z 0)) Iy PD Nz B ltac:(lra)) as HV.
    exists (rheQ (fmag (ra_float h mi (of_Z 0)) * D)). split; [|split; [|split]]; auto.
    + rewrite (fmtf_dec (q + 1) _ _ ltac:(lia) eq_refl). destruct Iy as [-> _]. reflexivity.
    + apply rheQ_nonneg. apply mul_nonneg; [|lra]. unfold ra_float, fmul. cbn [fmag]. apply rnd_nonneg.
Qed.
