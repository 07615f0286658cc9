(** Right ascension: the text of a decimal value and back. *)
From Verif Require Import PyStrProofs PyFloat PyFloatProofs SexVals SexSpec SexProofs1 SexProofs2 SexProofs3.
From Coq Require Import Lqa.
Open Scope Z_scope.

Definition sec_prec (p : nat) (pr : prec) : Prop := pr = PTen p \/ (p = O /\ pr = PInt 1).
Ltac nat_upto p := let H := fresh in assert (H : (p = 0 \/ p = 1 \/ p = 2 \/ p = 3 \/ p = 4 \/ p = 5 \/ p = 6)%nat) by lia;
  destruct H as [-> | [-> | [-> | [-> | [-> | [-> | ->]]]]]].
Lemma sec_prec_facts p pr : (p <= 6)%nat -> sec_prec p pr ->
  feqb (prec_fl pr) f06 = false /\ feqb (prec_fl pr) (of_Z 6) = false /\ feqb (prec_fl pr) (of_Z 60) = false /\
  (forall x, seconds_text x (prec_fl pr) = Ok (twof p x)) /\
  Z.to_nat (out_digits pr secToDegrees) = (p + 3)%nat /\ Z.to_nat (out_digits pr arcsecToDegrees) = (p + 4)%nat.
Proof.
  intros H [-> | [-> ->]].
  - nat_upto p; repeat split; vm_compute; reflexivity.
  - repeat split; vm_compute; reflexivity.
Qed.
Definition min_prec (q : nat) (pr : prec) : Prop := q = 2%nat /\ pr = PHund \/ q = 1%nat /\ pr = PInt 6 \/ q = 0%nat /\ pr = PInt 60.
Lemma min_prec_facts q pr : min_prec q pr ->
  Z.to_nat (out_digits pr secToDegrees) = (q + 1)%nat /\ Z.to_nat (out_digits pr arcsecToDegrees) = (q + 2)%nat.
Proof. intros [[-> ->]|[[-> ->]|[-> ->]]]; split; vm_compute; reflexivity. Qed.

(** the digits that come out of a value within u/4 *)
Lemma twof_close n x y N a : isp x y -> (0 <= y)%Q -> 0 <= N < 100 * 10 ^ Z.of_nat n ->
  (Qabs (rnd (100 + y) - (100 + a)) <= (3 # 10) * / inject_Z (10 ^ Z.of_nat n))%Q ->
  (a == inject_Z N * / inject_Z (10 ^ Z.of_nat n))%Q -> twof n x = fixed n N.
Proof.
  intros X Y HN H A. apply (twof_ok n x y N X Y HN).
  pose proof (p10_pos n) as P. set (D := 10 ^ Z.of_nat n) in *. apply (injZ_lt 0) in P. change (inject_Z 0) with 0%Q in P.
  assert (E : (inject_Z (100 * D + N) == (100 + a) * inject_Z D)%Q).
  { rewrite inject_Z_plus, inject_Z_mult, A. change (inject_Z 100) with 100%Q. field. lra. }
  rewrite E. set (d := inject_Z D) in *. clearbody d. apply Qabs_Qle_condition in H. apply Qabs_Qlt_condition.
  assert (I : (/ d * d == 1)%Q) by (field; lra). set (i := (/ d)%Q) in *. clearbody i.
  set (z := rnd (100 + y)) in *. clearbody z. split; nra.
Qed.

Definition i10 (p : nat) : Q := / inject_Z (10 ^ Z.of_nat p).
Lemma i10_pos p : (0 < i10 p)%Q.
Proof. unfold i10. apply Qinv_lt_0_compat. apply (injZ_lt 0), p10_pos. Qed.
Lemma i10_mul p : (inject_Z (10 ^ Z.of_nat p) * i10 p == 1)%Q.
Proof. unfold i10. pose proof (injZ_lt _ _ (p10_pos p)). change (inject_Z 0) with 0%Q in *. field. lra. Qed.
Lemma i10_range p : (p <= 6)%nat -> (1 # 1000000 <= i10 p <= 1)%Q.
Proof. intros H. nat_upto p; split; unfold i10, Qle; vm_compute; congruence. Qed.

Lemma ra_back_sec p pr T V : (p <= 6)%nat -> sec_prec p pr -> let P := 10 ^ Z.of_nat p in let k := T / (60 * P) in
  0 <= T < 362440 * P -> 0 <= V -> (Qabs (inject_Z V - (25 # 6) * inject_Z T) <= 52 # 100)%Q ->
  decRaToSexRa (decimal_text false (p + 3) V) (prec_fl pr) =
    Ok (padr 12 (sec_text p (k / 60 mod 100) (k mod 60) (T mod (60 * P)))).
Proof.
  intros Hp Hpr P k HT HV HB. pose proof (p10_pos p) as PP. fold P in PP.
  destruct (sec_prec_facts p pr Hp Hpr) as (F1 & F2 & F3 & F4 & _ & _).
  unfold decRaToSexRa. destruct (pyfloat_dec false (p + 3) V ltac:(lia) HV) as (q & -> & Eq). cbn [rbind].
  rewrite F1, F2, F3.
  (* rev *)
  set (t := rnd (rnd q / fmag secToDegrees)).
  assert (It : isp (fdiv (F false (rnd q)) secToDegrees) t) by (split; reflexivity).
  pose proof (i10_range p Hp) as [U1 U2]. pose proof (i10_pos p) as U0. pose proof (i10_mul p) as UM. fold P in UM.
  set (u := i10 p) in *.
  assert (Eq' : (q == inject_Z V * u * (1 # 1000))%Q).
  { rewrite Eq. replace (10 ^ Z.of_nat (p + 3)) with (P * 1000) by (unfold P; rewrite Nat2Z.inj_add, Z.pow_add_r by lia; reflexivity).
    rewrite inject_Z_mult. unfold u, i10. fold P. change (inject_Z 1000) with 1000%Q. field. change 0%Q with (inject_Z 0). rewrite inject_Z_injective. lia. }
  assert (QV : (0 <= inject_Z V)%Q) by (apply (injZ_le 0); auto).
  assert (Qq : (0 <= q)%Q) by (rewrite Eq'; clearbody u; nra).
  pose proof (ra_rev_near q Qq) as NT. fold t in NT.
  (* k and N *)
  set (N := T mod (60 * P)). assert (HN : 0 <= N < 60 * P) by (apply Z.mod_pos_bound; lia).
  assert (ET : T = 60 * P * k + N) by (apply Z.div_mod; lia).
  assert (Hk : 0 <= k <= 6040) by (split; [apply Z.div_pos; lia|]; enough (k < 6041) by lia; apply Z.div_lt_upper_bound; lia).
  set (h := k / 60). set (m := k mod 60).
  assert (Hm : 0 <= m < 60) by (apply Z.mod_pos_bound; lia).
  assert (Ek : k = 60 * h + m) by (apply Z.div_mod; lia).
  assert (Hh : 0 <= h <= 100) by lia.
  set (x := (inject_Z N * u)%Q).
  assert (X : (0 <= x <= 60 - u)%Q).
  { assert (A : (0 <= inject_Z N)%Q) by (apply (injZ_le 0); lia).
    assert (B : (inject_Z N <= inject_Z (60 * P - 1))%Q) by (apply injZ_le; lia).
    clear B.
    assert (B' : (inject_Z N <= 60 * inject_Z P - 1)%Q).
    { eapply Qle_trans; [apply injZ_le with (b := 60 * P + -1); lia|]. rewrite inject_Z_plus, inject_Z_mult. change (inject_Z 60) with 60%Q. change (inject_Z (-1)) with (-1)%Q. lra. }
    unfold x. set (n := inject_Z N) in *. set (pq := inject_Z P) in *. clearbody n pq u. split; nra. }
  assert (ETq : (inject_Z T * u == inject_Z (3600 * h + 60 * m) + x)%Q).
  { rewrite ET, Ek. replace (60 * P * (60 * h + m) + N) with ((3600 * h + 60 * m) * P + N) by ring.
    rewrite inject_Z_plus, inject_Z_mult. unfold x.
    set (a := inject_Z (3600 * h + 60 * m)) in *. set (n := inject_Z N) in *. set (pq := inject_Z P) in *. clearbody a n pq u.
    setoid_replace ((a * pq + n) * u)%Q with (a * (pq * u) + n * u)%Q by ring. rewrite UM. ring. }
  assert (Bx : (inject_Z (3600 * h + 60 * m) <= 363600)%Q) by (apply (injZ_le _ 363600); lia).
  assert (Bx0 : (0 <= inject_Z (3600 * h + 60 * m))%Q) by (apply (injZ_le 0); lia).
  assert (HBu : (Qabs (inject_Z V * u - (25 # 6) * (inject_Z T * u)) <= (52 # 100) * u)%Q).
  { apply Qabs_Qle_condition in HB. apply Qabs_Qle_condition. set (v := inject_Z V) in *. set (tt := inject_Z T) in *. clearbody v tt u. split; nra. }
  assert (C : at_or_inside t (inject_Z (3600 * h + 60 * m)) x u).
  { destruct (Z.eq_dec N 0) as [N0|N0].
    - left. assert (EV : V = 250 * P * k).
      { assert (Ex : (25 # 6) * inject_Z T == inject_Z (250 * P * k)).
        { replace (250 * P * k) with (250 * (P * k)) by ring. replace T with (60 * (P * k)) by lia. rewrite !inject_Z_mult. change (inject_Z 60) with 60%Q. change (inject_Z 250) with 250%Q. ring. }
        rewrite Ex in HB. apply Qabs_Qle_condition in HB.
        assert (Hlt : (inject_Z (V - 1) < inject_Z (250 * P * k))%Q /\ (inject_Z (250 * P * k) < inject_Z (V + 1))%Q).
        { rewrite <- Z.add_opp_r, !(inject_Z_plus V). change (inject_Z (- (1))) with (-1)%Q. change (inject_Z 1) with 1%Q. split; lra. }
        rewrite <- !Zlt_Qlt in Hlt. lia. }
      split; [unfold x; rewrite N0; change (inject_Z 0) with 0%Q; ring|].
      assert (Eq4 : (q == k # 4)%Q).
      { rewrite Eq', EV. rewrite !inject_Z_mult. change (inject_Z 250) with 250%Q. rewrite (Qmake_div k 4). change (inject_Z 4) with 4%Q.
        set (pq := inject_Z P) in *. set (kk := inject_Z k). clearbody pq u kk.
        setoid_replace (250 * pq * kk * u * (1 # 1000))%Q with ((pq * u) * (kk * (250 # 1000)))%Q by ring. rewrite UM. field. }
      unfold t. assert (E2 : (rnd q / fmag secToDegrees == rnd (k # 4) / fmag secToDegrees)%Q) by (rewrite (rnd_comp _ _ Eq4); reflexivity).
      rewrite (rnd_comp _ _ E2), ra_min by lia. rewrite Ek. replace (60 * (60 * h + m)) with (3600 * h + 60 * m) by ring. reflexivity.
    - right. assert (N1 : (1 <= inject_Z N)%Q) by (apply (injZ_le 1); lia). split.
      + unfold x. set (n := inject_Z N) in *. clearbody n u. nra.
      + apply Qabs_Qle_condition. apply Qabs_Qle_condition in HBu. rewrite ETq in HBu. rewrite Eq' in NT.
        set (w := (inject_Z V * u)%Q) in *. clearbody w t x u. set (b := inject_Z (3600 * h + 60 * m)) in *. clearbody b.
        clear - NT HBu Bx Bx0 X U1 U2. split; lra. }
  destruct (split_sec h m x u t ltac:(lia) Hm (conj U1 U2) X C) as (s & (Es & S1 & S2 & S3) & FH & FM & FS).
  (* hours *)
  assert (Ih : isp (fdiv (fdiv (F false (rnd q)) secToDegrees) (of_Z 3600)) (rnd (t / 3600))).
  { apply (isp_div _ _ _ _ It (isp_Z 3600 ltac:(lia))). }
  rewrite (isp_int _ _ Ih), FH.
  assert (Imul : forall a b, 0 <= a <= 10000 -> 0 <= b <= 10000 -> isp (fmul (of_Z a) (of_Z b)) (inject_Z (b * a))).
  { intros a b Ha Hb. eapply isp_rnd_Z; [apply isp_mul; apply isp_Z; lia| |nia]. rewrite <- inject_Z_mult. now rewrite Z.mul_comm. }
  pose proof (isp_sub _ _ _ _ It (Imul h 3600 ltac:(lia) ltac:(lia)) S1) as Is.
  set (rev := fsub (fdiv (F false (rnd q)) secToDegrees) (fmul (of_Z h) (of_Z 3600))) in *.
  assert (Is' : isp rev s) by (eapply isp_comp; [exact Is|now symmetry]).
  assert (Im : isp (fdiv rev (of_Z 60)) (rnd (s / 60))) by apply (isp_div _ _ _ _ Is' (isp_Z 60 ltac:(lia))).
  rewrite (isp_int _ _ Im), FM.
  pose proof (isp_sub _ _ _ _ Is' (Imul m 60 ltac:(lia) ltac:(lia)) S2) as Ir.
  rewrite F4. cbn [rbind]. rewrite (two_ok h) by lia. rewrite (two_ok m) by lia. rewrite (Z.mod_small m 100) by lia.
  rewrite (twof_close p _ _ N x Ir).
  - reflexivity.
  - apply rnd_nonneg.
  - fold P. lia.
  - eapply Qle_trans; [exact FS|]. unfold u, i10. fold P. pose proof U0 as U. unfold u, i10 in U. fold P in U. set (i := (/ inject_Z P)%Q) in *. clearbody i. lra.
  - reflexivity.
Qed.

(** hours and minutes: T in units of 10^-q minutes, q = 2, 1, 0 *)
Lemma min_text_of q pr f : min_prec q pr ->
  forall (A B C : res str), (if feqb (prec_fl pr) f06 then f 2%nat else if feqb (prec_fl pr) (of_Z 6) then f 1%nat else if feqb (prec_fl pr) (of_Z 60) then f 0%nat else A) = (f q : res str).
Proof. intros [[-> ->]|[[-> ->]|[-> ->]]]; intros; vm_compute; reflexivity. Qed.
Lemma ra_back_min q pr T V : min_prec q pr -> let P := 10 ^ Z.of_nat q in let h := T / (60 * P) in
  0 <= T < 6050 * P -> 0 <= V -> (Qabs (inject_Z V - (5 # 2) * inject_Z T) <= 52 # 100)%Q ->
  decRaToSexRa (decimal_text false (q + 1) V) (prec_fl pr) =
    Ok (padr 12 (min_text q (h mod 100) (T mod (60 * P)))).
Proof.
  intros Hpr P h HT HV HB. pose proof (p10_pos q) as PP. fold P in PP.
  assert (Hq : (q <= 2)%nat) by (destruct Hpr as [[-> _]|[[-> _]|[-> _]]]; lia).
  unfold decRaToSexRa. destruct (pyfloat_dec false (q + 1) V ltac:(lia) HV) as (v & -> & Eq). cbn [rbind].
  set (t := rnd (rnd v / fmag secToDegrees)).
  assert (It : isp (fdiv (F false (rnd v)) secToDegrees) t) by (split; reflexivity).
  assert (U1 : (1 # 100 <= i10 q <= 1)%Q) by (assert (Hc : (q = 0 \/ q = 1 \/ q = 2)%nat) by lia; destruct Hc as [-> | [-> | ->]]; split; unfold i10, Qle; vm_compute; congruence).
  pose proof (i10_pos q) as U0. pose proof (i10_mul q) as UM. fold P in UM.
  set (u := i10 q) in *.
  assert (Eq' : (v == inject_Z V * u * (1 # 10))%Q).
  { rewrite Eq. replace (10 ^ Z.of_nat (q + 1)) with (P * 10) by (unfold P; rewrite Nat2Z.inj_add, Z.pow_add_r by lia; reflexivity).
    rewrite inject_Z_mult. unfold u, i10. fold P. change (inject_Z 10) with 10%Q. field. change 0%Q with (inject_Z 0). rewrite inject_Z_injective. lia. }
  assert (QV : (0 <= inject_Z V)%Q) by (apply (injZ_le 0); auto).
  assert (Qq : (0 <= v)%Q) by (rewrite Eq'; clearbody u; nra).
  pose proof (ra_rev_near v Qq) as NT. fold t in NT.
  set (N := T mod (60 * P)). assert (HN : 0 <= N < 60 * P) by (apply Z.mod_pos_bound; lia).
  assert (ET : T = 60 * P * h + N) by (apply Z.div_mod; lia).
  assert (Hh : 0 <= h <= 100) by (split; [apply Z.div_pos; lia|]; enough (h < 101) by lia; apply Z.div_lt_upper_bound; lia).
  set (x := (60 * (inject_Z N * u))%Q).
  assert (X : (0 <= x <= 3600 - 60 * u)%Q).
  { assert (A : (0 <= inject_Z N)%Q) by (apply (injZ_le 0); lia).
    assert (B' : (inject_Z N <= 60 * inject_Z P - 1)%Q).
    { eapply Qle_trans; [apply injZ_le with (b := 60 * P + -1); lia|]. rewrite inject_Z_plus, inject_Z_mult. change (inject_Z 60) with 60%Q. change (inject_Z (-1)) with (-1)%Q. lra. }
    unfold x. set (n := inject_Z N) in *. set (pq := inject_Z P) in *. clearbody n pq u. split; nra. }
  assert (ETq : (60 * (inject_Z T * u) == inject_Z (3600 * h) + x)%Q).
  { rewrite ET. replace (60 * P * h + N) with (P * (60 * h) + N) by ring. replace (3600 * h) with (60 * (60 * h)) by ring.
    rewrite inject_Z_plus, (inject_Z_mult P), (inject_Z_mult 60 (60 * h)). unfold x. change (inject_Z 60) with 60%Q.
    set (a := inject_Z (60 * h)) in *. set (n := inject_Z N) in *. set (pq := inject_Z P) in *. clearbody a n pq u.
    setoid_replace (60 * ((pq * a + n) * u))%Q with (60 * a * (pq * u) + 60 * (n * u))%Q by ring. rewrite UM. ring. }
  assert (Bx : (inject_Z (3600 * h) <= 360000)%Q) by (apply (injZ_le _ 360000); lia).
  assert (Bx0 : (0 <= inject_Z (3600 * h))%Q) by (apply (injZ_le 0); lia).
  assert (HBu : (Qabs (inject_Z V * u - (5 # 2) * (inject_Z T * u)) <= (52 # 100) * u)%Q).
  { apply Qabs_Qle_condition in HB. apply Qabs_Qle_condition. set (vv := inject_Z V) in *. set (tt := inject_Z T) in *. clearbody vv tt u. split; nra. }
  assert (C : ((x == 0 /\ t == inject_Z (3600 * h)) \/ (60 * u <= x /\ Qabs (t - (inject_Z (3600 * h) + x)) <= (24 # 100) * (60 * u)))%Q).
  { destruct (Z.eq_dec N 0) as [N0|N0].
    - left. assert (EV : V = 150 * P * h).
      { assert (Ex : (5 # 2) * inject_Z T == inject_Z (150 * P * h)).
        { replace (150 * P * h) with (150 * (P * h)) by ring. replace T with (60 * (P * h)) by lia. rewrite !inject_Z_mult. change (inject_Z 60) with 60%Q. change (inject_Z 150) with 150%Q. ring. }
        rewrite Ex in HB. apply Qabs_Qle_condition in HB.
        assert (Hlt : (inject_Z (V - 1) < inject_Z (150 * P * h))%Q /\ (inject_Z (150 * P * h) < inject_Z (V + 1))%Q).
        { rewrite <- Z.add_opp_r, !(inject_Z_plus V). change (inject_Z (- (1))) with (-1)%Q. change (inject_Z 1) with 1%Q. split; lra. }
        rewrite <- !Zlt_Qlt in Hlt. lia. }
      split; [unfold x; rewrite N0; change (inject_Z 0) with 0%Q; ring|].
      assert (Eq4 : (v == (60 * h) # 4)%Q).
      { rewrite Eq', EV. rewrite !inject_Z_mult. change (inject_Z 150) with 150%Q. rewrite (Qmake_div (60 * h) 4). change (inject_Z 4) with 4%Q. rewrite inject_Z_mult. change (inject_Z 60) with 60%Q.
        set (pq := inject_Z P) in *. set (kk := inject_Z h). clearbody pq u kk.
        setoid_replace (150 * pq * kk * u * (1 # 10))%Q with ((pq * u) * (kk * 15))%Q by ring. rewrite UM. field. }
      unfold t. assert (E2 : (rnd v / fmag secToDegrees == rnd (60 * h # 4) / fmag secToDegrees)%Q) by (rewrite (rnd_comp _ _ Eq4); reflexivity).
      rewrite (rnd_comp _ _ E2), ra_min by lia. replace (60 * (60 * h)) with (3600 * h) by ring. reflexivity.
    - right. assert (N1 : (1 <= inject_Z N)%Q) by (apply (injZ_le 1); lia). split.
      + unfold x. set (n := inject_Z N) in *. clearbody n u. nra.
      + apply Qabs_Qle_condition. apply Qabs_Qle_condition in HBu. rewrite Eq' in NT.
        set (w := (inject_Z V * u)%Q) in *. set (Tu := (inject_Z T * u)%Q) in *. clearbody w t x u Tu. set (b := inject_Z (3600 * h)) in *. clearbody b.
        clear - NT HBu Bx Bx0 X U1 ETq. split; lra. }
  destruct (split_min h x (60 * u) t ltac:(lia) ltac:(lra) X C) as (s & (Es & S1 & S2 & S3) & FH & FS).
  assert (Ih : isp (fdiv (fdiv (F false (rnd v)) secToDegrees) (of_Z 3600)) (rnd (t / 3600))).
  { apply (isp_div _ _ _ _ It (isp_Z 3600 ltac:(lia))). }
  rewrite (isp_int _ _ Ih), FH.
  assert (Imul : isp (fmul (of_Z h) (of_Z 3600)) (inject_Z (3600 * h))).
  { eapply isp_rnd_Z; [apply isp_mul; apply isp_Z; lia| |nia]. rewrite <- inject_Z_mult. now rewrite Z.mul_comm. }
  pose proof (isp_sub _ _ _ _ It Imul S1) as Is.
  set (rev := fsub (fdiv (F false (rnd v)) secToDegrees) (fmul (of_Z h) (of_Z 3600))) in *.
  assert (Is' : isp rev s) by (eapply isp_comp; [exact Is|now symmetry]).
  assert (Im : isp (fdiv rev (of_Z 60)) (rnd (s / 60))) by apply (isp_div _ _ _ _ Is' (isp_Z 60 ltac:(lia))).
  set (mi := fdiv rev (of_Z 60)) in *. rewrite (two_ok h) by lia.
  rewrite (min_text_of q pr (fun n => Ok (num 2 (h mod 100) ++ $" " ++ twof n mi)) Hpr) by exact (Ok []).
  cbn [rbind]. rewrite (twof_close q _ _ N (inject_Z N * u) Im).
  - reflexivity.
  - apply rnd_nonneg.
  - fold P. lia.
  - apply Qabs_Qle_condition in FS. apply Qabs_Qle_condition. unfold x in FS. fold P. change (/ inject_Z P)%Q with u. set (z := rnd (100 + rnd (s / 60))) in *. set (n := (inject_Z N * u)%Q) in *. clearbody z n u. split; lra.
  - reflexivity.
Qed.
