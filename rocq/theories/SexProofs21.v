(** Any right ascension: what decRaToSexRa prints. *)
From Verif Require Import PyStrProofs PyFloat PyFloatProofs SexVals SexSpec SexProofs1 SexProofs2 SexProofs3 SexProofs4 SexProofs5 SexProofs8 SexProofs19 SexProofs20.
From Coq Require Import Lqa Qpower.
Open Scope Z_scope.

Lemma pten_val d : (fmag (prec_fl (PTen d)) == rnd (t10 (- Z.of_nat d)))%Q.
Proof.
  unfold prec_fl, of_Q. cbn [fmag]. apply rnd_comp. pose proof (t10_pos (- Z.of_nat d)) as P.
  rewrite decimal_t10. apply Qabs_pos. lra.
Qed.
Lemma i10_t10 d : (i10 d == t10 (- Z.of_nat d))%Q.
Proof. unfold i10. rewrite t10_neg, t10_Z by lia. reflexivity. Qed.
Lemma decimals_pos p d : decimals p d -> (0 < fmag p)%Q /\ (fval p == fmag p)%Q.
Proof.
  intros (N & H). split; [|unfold fval; now rewrite N]. destruct H as [H|[(H & _)|(_ & H & _)]].
  - rewrite H, pten_val. pose proof (rnd_t10 (- Z.of_nat d)) as R. pose proof (t10_pos (- Z.of_nat d)). set (a := t10 _) in *. set (b := rnd a) in *. clearbody a b. nears. lra.
  - pose proof (i10_pos (S d)). unfold i10 in *. lra.
  - lra.
Qed.
Lemma decimals_log p d : decimals p d -> int_log10 (fmag p) = - Z.of_nat d.
Proof.
  intros (N & H). destruct H as [H|[(H1 & H2 & H3)|(-> & H1 & H2)]].
  - apply log_power. now rewrite H, pten_val.
  - assert (E1 : (/ inject_Z (10 ^ Z.of_nat (S d)) == t10 (- Z.of_nat (S d)))%Q) by (symmetry; rewrite <- i10_t10; reflexivity).
    assert (E2 : (/ inject_Z (10 ^ Z.of_nat d) == t10 (- Z.of_nat (S d) + 1))%Q) by (replace (- Z.of_nat (S d) + 1) with (- Z.of_nat d) by lia; symmetry; rewrite <- i10_t10; reflexivity).
    rewrite E1 in H1. rewrite E2 in H2. rewrite pten_val in H3.
    destruct (Qeq_dec (fmag p) (rnd (t10 (- Z.of_nat (S d) + 1)))) as [E|E].
    + destruct (log_power _ _ E) as [-> _]. lia.
    + rewrite (log_between _ (- Z.of_nat (S d))); auto. destruct (Z.ltb_spec (- Z.of_nat (S d)) 0); lia.
  - rewrite (log_between _ 0); auto.
    + change (t10 0) with 1%Q. intros E. rewrite E in H1. revert H1. vm_compute. discriminate.
    + change (t10 (0 + 1)) with 10%Q. intros E. rewrite E in H2. revert H2. vm_compute. discriminate.
Qed.
Lemma decimals_text p d x : decimals p d -> seconds_text x p = Ok (twof d x).
Proof.
  intros H. destruct (decimals_pos p d H) as [P E]. unfold seconds_text.
  destruct (Qle_bool (fval p) 0) eqn:L. { apply Qle_bool_iff in L. lra. }
  rewrite (decimals_log p d H), Z.opp_involutive. destruct (Z.ltb_spec (Z.of_nat d) 0); [lia|]. now rewrite Nat2Z.id.
Qed.
Lemma not_minutes p : ~ minutes_only p -> feqb p f06 = false /\ feqb p (of_Z 6) = false /\ feqb p (of_Z 60) = false.
Proof.
  intros H. repeat split; apply feqb_false; intros E; apply H; unfold minutes_only; [now left|right; left|right; right]; rewrite E; vm_compute; reflexivity.
Qed.
Lemma pyfloat_good t f : pyfloat t = Ok f -> good f.
Proof.
  unfold pyfloat. destruct (match strip t with [] => _ | _ => _ end) as [neg u]. destruct (float_mag u); [|discriminate].
  intros [= <-]. apply rnd_nonneg.
Qed.
Lemma neg_good f : good f -> (0 <= fval f)%Q -> (fmag f == fval f)%Q.
Proof. unfold good, fval. destruct (fneg f); intros; lra. Qed.

(** minutes and seconds *)
Lemma fixed_le d N : (Qabs (inject_Z N * i10 d - 0) <= 61)%Q -> N <= 61 * 10 ^ Z.of_nat d.
Proof.
  intros H. apply Qabs_Qle_condition in H as [_ H]. pose proof (i10_mul d) as UM. pose proof (i10_pos d) as U0. pose proof (injZ_lt _ _ (p10_pos d)) as PD. change (inject_Z 0) with 0%Q in PD.
  rewrite Zle_Qle, inject_Z_mult. change (inject_Z 61) with 61%Q.
  set (D := inject_Z (10 ^ Z.of_nat d)) in *. set (u := i10 d) in *. set (n := inject_Z N) in *. clearbody D u n.
  assert (0 <= (61 - n * u) * D)%Q by (apply mul_nonneg; lra). assert (E : (n * u * D == n)%Q) by (setoid_replace (n * u * D)%Q with (n * (D * u))%Q by ring; rewrite UM; ring). lra.
Qed.
Lemma N_le d N v : 0 <= N -> (v <= 60 + (1 # 1000000000))%Q -> (d <= 6)%nat -> (Qabs (inject_Z N * i10 d - v) <= (50001 # 100000) * i10 d)%Q -> N <= 60 * 10 ^ Z.of_nat d.
Proof.
  intros N0 V Hd H. apply Qabs_Qle_condition in H as [_ H]. pose proof (i10_mul d) as UM. pose proof (i10_range d Hd) as [U1 U2]. pose proof (injZ_lt _ _ (p10_pos d)) as PD. change (inject_Z 0) with 0%Q in PD.
  enough (N < 60 * 10 ^ Z.of_nat d + 1) by lia. rewrite Zlt_Qlt, inject_Z_plus, inject_Z_mult. change (inject_Z 60) with 60%Q. change (inject_Z 1) with 1%Q.
  set (D := inject_Z (10 ^ Z.of_nat d)) in *. set (u := i10 d) in *. set (n := inject_Z N) in *. clearbody D u n.
  assert (A : (0 <= (60 + (6 # 10) * u - n * u) * D)%Q) by (apply mul_nonneg; lra).
  assert (E : (n * u * D == n)%Q) by (setoid_replace (n * u * D)%Q with (n * (D * u))%Q by ring; rewrite UM; ring). lra.
Qed.

(** seconds left after the hours *)
Lemma minutes_ra r v1 : good r -> (fval r == v1)%Q -> (- (1 # 1000000000) <= v1)%Q -> (v1 <= 3600 - p2 (-41))%Q -> exists m,
  fint (fdiv r (of_Z 60)) = m /\ 0 <= m < 60 /\
  exists v2, (fval (fsub r (fmul (of_Z m) (of_Z 60))) == v2)%Q /\ (- (11 # 10000000000) <= v2)%Q /\ (v2 <= 60 + (1 # 1000000000))%Q /\
    (Qabs (inject_Z (60 * m) + v2 - v1) <= 1 # 10000000000)%Q.
Proof.
  intros G E L U. pose proof (fdiv_val r 60 v1 ltac:(lia) G E) as D. change (inject_Z 60) with 60%Q in D.
  change (p2 (-41)) with (1 # 2199023255552)%Q in U.
  assert (QD : (v1 / 60 == v1 * (1 # 60))%Q) by (field).
  assert (SB : (Qabs (v1 / 60) <= 60)%Q) by (apply Qabs_Qle_condition; rewrite QD; split; lra).
  pose proof (srnd_err (v1 / 60)) as SE. assert (SE' : (Qabs (srnd (v1 / 60) - v1 / 60) <= 60 * e15)%Q) by (eapply Qle_trans; [exact SE|]; unfold e15; set (q := Qabs (v1 / 60)) in *; clearbody q; lra).
  apply Qabs_Qle_condition in SE'. rewrite QD in SE' at 2 4.
  set (s := srnd (v1 / 60)) in *.
  assert (S0 : (-1 < s)%Q) by (clearbody s; unfold e15 in *; lra).
  pose proof (fint_val _ _ (good_div _ _) D S0) as FI. exists (Z.max 0 (Qfloor s)). split; [exact FI|].
  assert (SU : (s < 60)%Q).
  { destruct (Qlt_le_dec v1 0) as [N|P]; [clearbody s; unfold e15 in *; lra|].
    unfold s. rewrite srnd_pos by (rewrite QD; lra).
    assert (M : (rnd (v1 / 60) <= rnd (60 - (1 # 140000000000000)))%Q) by (apply rnd_mono; rewrite QD; lra).
    assert (C : (rnd (60 - (1 # 140000000000000)) < 60)%Q) by (unfold Qlt; vm_compute; reflexivity). lra. }
  pose proof (Qfloor_le s) as F1. pose proof (Qlt_floor s) as F2. rewrite inject_Z_plus in F2. change (inject_Z 1) with 1%Q in F2.
  assert (MB : 0 <= Z.max 0 (Qfloor s) < 60).
  { split; [lia|]. assert (Qfloor s < 60); [|lia]. rewrite Zlt_Qlt. change (inject_Z 60) with 60%Q. lra. }
  set (m := Z.max 0 (Qfloor s)) in *. split; [exact MB|].
  assert (Em : (m = 0 \/ (inject_Z m <= s)%Q) /\ (s < inject_Z m + 1)%Q).
  { unfold m. destruct (Z.max_spec 0 (Qfloor s)) as [[A ->]|[A ->]].
    - split; [right|]; lra.
    - split; [now left|]. apply injZ_le in A. change (inject_Z 0) with 0%Q in *. lra. }
  clearbody m. destruct Em as [Em1 Em2].
  pose proof (fsub_val _ _ _ _ E (fmul_ZZ m 60 ltac:(lia) ltac:(lia))) as S. exists (srnd (v1 - inject_Z (60 * m))). split; [exact S|].
  assert (E4 : (inject_Z (60 * m) == 60 * inject_Z m)%Q) by (rewrite inject_Z_mult; reflexivity).
  pose proof (srnd_err (v1 - inject_Z (60 * m))) as SR.
  assert (VB : (- (101 # 100000000000) <= v1 - inject_Z (60 * m) <= 60 + (1 # 10000000000))%Q).
  { clearbody s. unfold e15 in SE'. split; [|lra].
    destruct Em1 as [->|Em1]; [change (inject_Z (60 * 0)) with 0%Q|]; lra. }
  set (w := (v1 - inject_Z (60 * m))%Q) in *.
  assert (SW : (Qabs (srnd w - w) <= 61 * e15)%Q).
  { eapply Qle_trans; [exact SR|]. assert (Qabs w <= 61)%Q by (apply Qabs_Qle_condition; lra). unfold e15. set (q := Qabs w) in *. clearbody q. lra. }
  apply Qabs_Qle_condition in SW. set (v2 := srnd w) in *. clearbody v2.
  split; [|split]; [unfold e15 in *; lra|unfold e15 in *; lra|].
  apply Qabs_Qle_condition. unfold w, e15 in SW. split; lra.
Qed.

Lemma near_inv (q k c : Q) : (0 <= q)%Q -> (1 # 1000 <= c)%Q -> (c <= 4000)%Q ->
  (c * (1 - e15) <= k <= c * (1 + e15))%Q -> (Qabs (rnd (q * k) - c * q) <= (3 # 1000000000000000) * (c * q))%Q.
Proof.
  intros Q0 C1 C2 [K1 K2]. assert (P : (0 <= q * k)%Q) by (apply mul_nonneg; unfold e15 in *; lra).
  pose proof (near_rnd _ P) as [R1 R2]. set (r := rnd (q * k)) in *. clearbody r.
  assert (A1 : (c * q * (1 - e15) <= q * k)%Q) by (assert (0 <= q * (k - c * (1 - e15)))%Q by (apply mul_nonneg; lra); lra).
  assert (A2 : (q * k <= c * q * (1 + e15))%Q) by (assert (0 <= q * (c * (1 + e15) - k))%Q by (apply mul_nonneg; lra); lra).
  assert (PC : (0 <= c * q)%Q) by (apply mul_nonneg; lra). set (x := (c * q)%Q) in *. set (y := (q * k)%Q) in *. clearbody x y.
  apply Qabs_Qle_condition. unfold e15 in *. split; lra.
Qed.

Definition ra_reads (t : str) (v : Q) : Prop := exists f, pyfloat t = Ok f /\ fneg f = false /\ (fval f == v)%Q.
Lemma ra_start f : good f -> fneg f = false -> (fval f <= 1499)%Q ->
  let t0 := (fmag f / fmag secToDegrees)%Q in
  good (fdiv f secToDegrees) /\ (fval (fdiv f secToDegrees) == rnd t0)%Q /\ (rnd t0 <= 359990)%Q /\ (Qabs (rnd t0 - 240 * fval f) <= 2 # 1000000000)%Q.
Proof.
  intros G N U t0. assert (EV : (fval f == fmag f)%Q) by (unfold fval; now rewrite N). unfold good in G.
  split; [apply good_div|]. split. { unfold fdiv, fval. cbn [fneg fmag]. rewrite N. reflexivity. }
  pose proof (near_inv (fmag f) inv_s2d 240 G ltac:(lra) ltac:(lra)) as NI.
  assert (HI : (240 * (1 - e15) <= inv_s2d <= 240 * (1 + e15))%Q) by (unfold e15; pose proof inv_s2d_val; lra). specialize (NI HI).
  assert (Et : (rnd t0 == rnd (fmag f * inv_s2d))%Q) by (apply rnd_comp; reflexivity).
  rewrite <- Et in NI. apply Qabs_Qle_condition in NI. rewrite EV in *. set (r := rnd t0) in *. clearbody r. set (q := fmag f) in *. clearbody q.
  split; [lra|]. apply Qabs_Qle_condition. split; lra.
Qed.

Lemma rnd100' n v : (n <= 6)%nat -> (- (1 # 100000000) <= v)%Q -> (100 < rnd (100 + v) + (1 # 2) * i10 n)%Q.
Proof. intros Hn H. pose proof (i10_range n Hn) as [U1 _]. pose proof (near_rnd (100 + v) ltac:(lra)) as R. set (r := rnd _) in *. clearbody r. nears. lra. Qed.

Lemma ra_any_sec t f p d : pyfloat t = Ok f -> fneg f = false -> (fval f <= 1499)%Q -> decimals p d -> (d <= 6)%nat -> ~ minutes_only p ->
  exists h m N, decRaToSexRa t p = Ok (padr 12 (sec_text d h m N)) /\ 0 <= h < 100 /\ 0 <= m < 60 /\ 0 <= N <= 60 * 10 ^ Z.of_nat d /\
    (Qabs (inject_Z (3600 * h + 60 * m) + inject_Z N / inject_Z (10 ^ Z.of_nat d) - 240 * fval f) <= (51 # 100) / inject_Z (10 ^ Z.of_nat d))%Q.
Proof.
  intros Hf N U Hp Hd Hm. pose proof (pyfloat_good t f Hf) as G.
  destruct (ra_start f G N U) as (G1 & E1 & U1 & A1). unfold decRaToSexRa. rewrite Hf. cbn [rbind]. destruct (not_minutes p Hm) as (-> & -> & ->).
  set (rev := fdiv f secToDegrees) in *. set (t0 := (fmag f / fmag secToDegrees)%Q) in *.
  destruct (hours rev t0 G1 E1 U1) as (h & -> & Hh & S1 & L1 & B1).
  set (r := fsub rev (fmul (of_Z h) (of_Z 3600))) in *.
  destruct (minutes_ra r _ (good_sub _ _) S1 L1 B1) as (m & -> & Hm' & v2 & S2 & L2 & B2 & A2).
  rewrite (decimals_text p d _ Hp). cbn [rbind].
  destruct (twof_any d (fsub r (fmul (of_Z m) (of_Z 60))) v2 Hd S2) as (K & -> & HK & AK & _); [apply rnd100'; [auto|lra]|lra|lra|].
  rewrite (two_ok h), (two_ok m) by lia. rewrite (Z.mod_small h 100), (Z.mod_small m 100) by lia.
  exists h, m, K. split; [reflexivity|]. split; [lia|]. split; [lia|]. split; [split; [lia|exact (N_le d K v2 ltac:(lia) B2 Hd AK)]|].
  fold (i10 d). unfold Qdiv. fold (i10 d). pose proof (i10_range d Hd) as [I1 I2].
  rewrite inject_Z_plus. apply Qabs_Qle_condition in A1, A2, AK. apply Qabs_Qle_condition.
  set (a := inject_Z (3600 * h)) in *. set (b := inject_Z (60 * m)) in *. set (k := (inject_Z K * i10 d)%Q) in *. set (u := i10 d) in *. set (r0 := rnd t0) in *. set (x := fval f) in *.
  clearbody a b k u r0 x. clear - A1 A2 AK I1 I2. split; lra.
Qed.
Lemma ra_any_min t f q pr : pyfloat t = Ok f -> fneg f = false -> (fval f <= 1499)%Q -> min_prec q pr ->
  exists h N, decRaToSexRa t (prec_fl pr) = Ok (padr 12 (min_text q h N)) /\ 0 <= h < 100 /\ 0 <= N <= 60 * 10 ^ Z.of_nat q /\
    (Qabs (inject_Z (60 * h) + inject_Z N / inject_Z (10 ^ Z.of_nat q) - 4 * fval f) <= (51 # 100) / inject_Z (10 ^ Z.of_nat q))%Q.
Proof.
  intros Hf N U Hp. pose proof (pyfloat_good t f Hf) as G. assert (Hq : (q <= 6)%nat) by (destruct Hp as [[-> _]|[[-> _]|[-> _]]]; lia).
  destruct (ra_start f G N U) as (G1 & E1 & U1 & A1). unfold decRaToSexRa. rewrite Hf. cbn [rbind].
  set (rev := fdiv f secToDegrees) in *. set (t0 := (fmag f / fmag secToDegrees)%Q) in *.
  destruct (hours rev t0 G1 E1 U1) as (h & -> & Hh & S1 & L1 & B1).
  set (r := fsub rev (fmul (of_Z h) (of_Z 3600))) in *.
  pose proof (fdiv_val r 60 _ ltac:(lia) (good_sub _ _) S1) as SM. change (inject_Z 60) with 60%Q in SM. set (mi := fdiv r (of_Z 60)) in *.
  rewrite (two_ok h) by lia. rewrite (Z.mod_small h 100) by lia.
  rewrite (min_text_of q pr (fun n => Ok (num 2 h ++ $" " ++ twof n mi)) Hp) by exact (Ok []).
  cbn [rbind]. set (v1 := (rnd t0 - inject_Z (3600 * h))%Q) in *. change (p2 (-41)) with (1 # 2199023255552)%Q in B1.
  assert (QD : (v1 / 60 == v1 * (1 # 60))%Q) by field.
  assert (SE : (Qabs (srnd (v1 / 60) - v1 / 60) <= 60 * e15)%Q).
  { eapply Qle_trans; [apply srnd_err|]. assert (Qabs (v1 / 60) <= 60)%Q by (apply Qabs_Qle_condition; rewrite QD; lra). unfold e15. set (z := Qabs _) in *. clearbody z. lra. }
  apply Qabs_Qle_condition in SE. rewrite QD in SE at 2 4. set (v2 := srnd (v1 / 60)) in *. clearbody v2. unfold e15 in SE.
  destruct (twof_any q mi v2 Hq SM) as (K & -> & HK & AK & _); [apply rnd100'; [auto|lra]|lra|lra|].
  exists h, K. split; [reflexivity|]. split; [lia|]. split; [split; [lia|apply (N_le q K v2 ltac:(lia)); auto; lra]|].
  unfold Qdiv. fold (i10 q). pose proof (i10_range q Hq) as [I1 I2]. apply Qabs_Qle_condition in A1, AK. apply Qabs_Qle_condition.
  unfold v1 in SE. rewrite !inject_Z_mult in *. change (inject_Z 3600) with 3600%Q in *. change (inject_Z 60) with 60%Q in *.
  set (k := (inject_Z K * i10 q)%Q) in *. set (u := i10 q) in *. set (r0 := rnd t0) in *. set (x := fval f) in *. set (hh := inject_Z h) in *.
  clearbody k u r0 x hh. clear - A1 AK SE I1 I2. split; lra.
Qed.
