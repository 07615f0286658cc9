(** Splitting a number of seconds into hours, minutes and seconds, as decRaToSexRa
    and degDeclToSexDecl do: for any float. *)
From Verif Require Import PyStrProofs PyFloat PyFloatProofs SexVals SexSpec SexProofs1 SexProofs2 SexProofs3 SexProofs4 SexProofs5 SexProofs8 SexProofs19.
From Coq Require Import Lqa Qpower.
Open Scope Z_scope.

Definition srnd (v : Q) : Q := if Qneg v then (- rnd (Qabs v))%Q else rnd (Qabs v).
Lemma Qneg_spec v : if Qneg v then (v < 0)%Q else (0 <= v)%Q.
Proof. unfold Qneg. destruct (Z.ltb_spec (Qnum v) 0); destruct v; unfold Qlt, Qle; cbn in *; lia. Qed.
Lemma srnd_comp v w : (v == w)%Q -> (srnd v == srnd w)%Q.
Proof.
  intros E. unfold srnd. pose proof (Qneg_spec v). pose proof (Qneg_spec w).
  assert (EA : (Qabs v == Qabs w)%Q) by now rewrite E. pose proof (rnd_comp _ _ EA) as ER.
  destruct (Qneg v), (Qneg w); try lra.
Qed.
Lemma srnd_pos v : (0 <= v)%Q -> (srnd v == rnd v)%Q.
Proof. intros H. unfold srnd. pose proof (Qneg_spec v). destruct (Qneg v); [lra|]. apply rnd_comp. now apply Qabs_pos. Qed.
Lemma srnd_err v : (Qabs (srnd v - v) <= e15 * Qabs v)%Q.
Proof.
  unfold srnd. pose proof (Qneg_spec v) as N. pose proof (near_rnd (Qabs v) (Qabs_nonneg v)) as [A B]. set (r := rnd (Qabs v)) in *. clearbody r.
  apply Qabs_Qle_condition. destruct (Qneg v).
  - pose proof (Qabs_neg v ltac:(lra)) as E. set (a := Qabs v) in *. clearbody a. unfold e15 in *. lra.
  - pose proof (Qabs_pos v ltac:(lra)) as E. set (a := Qabs v) in *. clearbody a. unfold e15 in *. lra.
Qed.
Lemma srnd_exact v m e : (v == inject_Z m * p2 e)%Q -> Z.abs m <= 2 ^ 53 -> (srnd v == v)%Q.
Proof.
  intros E M. pose proof (p2_pos e) as P. assert (EA : (Qabs v == inject_Z (Z.abs m) * p2 e)%Q).
  { rewrite E, Qabs_Qmult, (Qabs_pos (p2 e)) by lra. reflexivity. }
  assert (R : (rnd (Qabs v) == Qabs v)%Q) by (apply (rnd_exact _ (Z.abs m) e EA); lia).
  unfold srnd. pose proof (Qneg_spec v) as N. destruct (Qneg v); rewrite R.
  - rewrite Qabs_neg by lra. ring.
  - apply Qabs_pos. lra.
Qed.
Lemma fadd_val a b v w : (fval a == v)%Q -> (fval b == w)%Q -> (fval (fadd a b) == srnd (v + w))%Q.
Proof.
  intros A B. rewrite (srnd_comp (v + w) (fval a + fval b)) by (rewrite A, B; reflexivity).
  unfold fadd. destruct (Qnum (fval a + fval b) =? 0) eqn:E.
  - apply Qnum_zero in E. rewrite (srnd_comp _ _ E). destruct (fneg a && fneg b); reflexivity.
  - unfold of_Q, fval at 1, srnd. cbn [fneg fmag]. destruct (Qneg _); reflexivity.
Qed.
Lemma fopp_val a v : (fval a == v)%Q -> (fval (fopp a) == - v)%Q.
Proof. intros A. rewrite <- A. unfold fopp, fval. cbn [fneg fmag]. destruct (fneg a); cbn [negb]; ring. Qed.
Lemma fsub_val a b v w : (fval a == v)%Q -> (fval b == w)%Q -> (fval (fsub a b) == srnd (v - w))%Q.
Proof. intros A B. unfold fsub. rewrite (fadd_val _ _ _ _ A (fopp_val _ _ B)). reflexivity. Qed.
Lemma isp_val f x : isp f x -> (fval f == x)%Q.
Proof. intros [A B]. unfold fval. now rewrite A. Qed.
Definition good (f : fl) : Prop := (0 <= fmag f)%Q.
Lemma good_add a b : good (fadd a b).
Proof. unfold good, fadd. destruct (_ =? 0); cbn [fmag of_Q]; [lra|apply rnd_nonneg]. Qed.
Lemma good_sub a b : good (fsub a b).
Proof. apply good_add. Qed.
Lemma good_div a b : good (fdiv a b).
Proof. apply rnd_nonneg. Qed.
Lemma srnd_opp v : (0 <= v)%Q -> (srnd (- v) == - rnd v)%Q.
Proof.
  intros H. unfold srnd. pose proof (Qneg_spec (- v)) as N. assert (R : (rnd (Qabs (- v)) == rnd v)%Q) by (apply rnd_comp; rewrite Qabs_opp; now apply Qabs_pos).
  destruct (Qneg (- v)); rewrite R; [reflexivity|]. rewrite (rnd_0 v) by lra. reflexivity.
Qed.
Lemma fdiv_val f k v : 0 < k <= 2 ^ 53 -> good f -> (fval f == v)%Q -> (fval (fdiv f (of_Z k)) == srnd (v / inject_Z k))%Q.
Proof.
  intros K G E. destruct (isp_Z k ltac:(lia)) as [A B]. assert (PK : (0 < inject_Z k)%Q) by (apply (injZ_lt 0); lia).
  rewrite (srnd_comp _ (fval f / inject_Z k)) by now rewrite E.
  unfold fdiv, fval. cbn [fneg fmag]. rewrite A, xorb_false_r.
  assert (R : (rnd (fmag f / fmag (of_Z k)) == rnd (fmag f / inject_Z k))%Q) by (apply rnd_comp; now rewrite B).
  assert (P : (0 <= fmag f / inject_Z k)%Q) by (unfold Qdiv; apply mul_nonneg; [exact G|]; pose proof (Qinv_lt_0_compat _ PK); lra).
  destruct (fneg f); rewrite R.
  - rewrite (srnd_comp _ (- (fmag f / inject_Z k))) by (field; lra). now rewrite srnd_opp.
  - now rewrite srnd_pos.
Qed.
Lemma fint_val f v : good f -> (fval f == v)%Q -> (-1 < v)%Q -> fint f = Z.max 0 (Qfloor v).
Proof.
  intros G E H. unfold fint, signed. unfold fval in E. unfold good in G. destruct (fneg f).
  - assert (F : Qfloor (fmag f) = 0) by (apply floor_is; change (inject_Z 0) with 0%Q; change (inject_Z (0 + 1)) with 1%Q; lra).
    rewrite F. assert (L : (Qfloor v <= 0)).
    { pose proof (Qfloor_le v) as FL. assert (Hv : (inject_Z (Qfloor v) <= inject_Z 0)%Q) by (change (inject_Z 0) with 0%Q; lra). rewrite <- Zle_Qle in Hv. exact Hv. }
    lia.
  - rewrite (Qfloor_comp _ _ E). assert (0 <= Qfloor v); [|lia].
    pose proof (Qlt_floor v) as FL. rewrite inject_Z_plus in FL. change (inject_Z 1) with 1%Q in FL. assert (Hv : (inject_Z (-1) < inject_Z (Qfloor v))%Q) by (change (inject_Z (-1)) with (-1)%Q; lra). rewrite <- Zlt_Qlt in Hv. lia.
Qed.
Lemma fmul_ZZ a b : 0 <= a <= 10000 -> 0 <= b <= 10000 -> (fval (fmul (of_Z a) (of_Z b)) == inject_Z (b * a))%Q.
Proof.
  intros Ha Hb. apply isp_val. eapply isp_rnd_Z; [apply isp_mul; apply isp_Z; lia| |nia]. rewrite <- inject_Z_mult. now rewrite Z.mul_comm.
Qed.

(** hours (degrees): the rest is exact *)
Lemma hours rev t0 : good rev -> let t := rnd t0 in (fval rev == t)%Q -> (t <= 359990)%Q -> exists h,
  fint (fdiv rev (of_Z 3600)) = h /\ 0 <= h <= 99 /\
  let r := fsub rev (fmul (of_Z h) (of_Z 3600)) in
  (fval r == t - inject_Z (3600 * h))%Q /\ (- (1 # 1000000000) <= t - inject_Z (3600 * h))%Q /\ (t - inject_Z (3600 * h) <= 3600 - p2 (-41))%Q.
Proof.
  intros G t E U. assert (T0 : (0 <= t)%Q) by apply rnd_nonneg.
  pose proof (fdiv_val rev 3600 t ltac:(lia) G E) as D. change (inject_Z 3600) with 3600%Q in D.
  assert (P36 : (0 <= t / 3600)%Q) by (unfold Qdiv; change (/ 3600)%Q with (1 # 3600)%Q; lra).
  rewrite (srnd_pos _ P36) in D.
  assert (Hr : near e15 (rnd (t / 3600)) (t * (1 # 3600))) by (apply near_rnd2; [lra|field]).
  pose proof (rnd_nonneg (t / 3600)) as PR.
  exists (Qfloor (rnd (t / 3600))). set (h := Qfloor (rnd (t / 3600))) in *.
  assert (F : fint (fdiv rev (of_Z 3600)) = h).
  { rewrite (fint_val _ _ (good_div _ _) D) by lra. fold h. assert (0 <= h); [|lia].
    assert (A : (inject_Z 0 <= rnd (t / 3600))%Q) by exact PR. apply Qfloor_resp_le in A. rewrite Qfloor_Z in A. exact A. }
  assert (H0 : 0 <= h). { assert (A : (inject_Z 0 <= rnd (t / 3600))%Q) by exact PR. apply Qfloor_resp_le in A. rewrite Qfloor_Z in A. exact A. }
  pose proof (Qfloor_le (rnd (t / 3600))) as L1. pose proof (Qlt_floor (rnd (t / 3600))) as L2. fold h in L1, L2.
  assert (E1h : (inject_Z (h + 1) == inject_Z h + 1)%Q) by (rewrite inject_Z_plus; reflexivity).
  assert (E3 : (inject_Z (3600 * h) == 3600 * inject_Z h)%Q) by (rewrite inject_Z_mult; reflexivity).
  assert (H99 : h <= 99).
  { enough (h < 100) by lia. rewrite Zlt_Qlt. change (inject_Z 100) with 100%Q. clear - Hr L1 U. nears. lra. }
  assert (BH : (0 <= inject_Z h <= 99)%Q) by (split; [apply (injZ_le 0)|apply (injZ_le h 99)]; lia).
  assert (LO : (- (1 # 1000000000) <= t - inject_Z (3600 * h))%Q) by (clear - Hr L1 E3 BH T0; nears; lra).
  assert (HI : (t < 3600 * inject_Z (h + 1))%Q).
  { destruct (Qlt_le_dec t (3600 * inject_Z (h + 1))) as [A|A]; [exact A|exfalso].
    assert (M : (rnd (inject_Z (h + 1)) <= rnd (t / 3600))%Q).
    { apply rnd_mono; [lra|]. unfold Qdiv. change (/ 3600)%Q with (1 # 3600)%Q. lra. }
    rewrite rnd_Z in M by lia. lra. }
  split; [exact F|]. split; [lia|]. cbv zeta.
  pose proof (fsub_val _ _ _ _ E (fmul_ZZ h 3600 ltac:(lia) ltac:(lia))) as S.
  change (p2 (-41)) with (1 # 2199023255552)%Q in *.
  destruct (Qlt_le_dec t 2048) as [A|A].
  - assert (h = 0). { assert (h < 1); [|lia]. rewrite Zlt_Qlt. change (inject_Z 1) with 1%Q. clear - Hr L1 A. nears. lra. }
    assert (EZ : (inject_Z (3600 * h) == 0)%Q) by (rewrite H; reflexivity). split; [|split; lra].
    rewrite S. rewrite (srnd_comp _ t) by lra. rewrite (srnd_pos t T0). unfold t. rewrite rnd_idem. fold t. lra.
  - destruct (rnd_grid t0 A) as (k & Ek). fold t in Ek. change (p2 (-41)) with (1 # 2199023255552)%Q in Ek.
    assert (Ed : (t - inject_Z (3600 * h) == inject_Z (k - 3600 * h * 2199023255552) * p2 (-41))%Q).
    { change (p2 (-41)) with (1 # 2199023255552)%Q. rewrite Ek. unfold Z.sub. rewrite inject_Z_plus, inject_Z_opp, !inject_Z_mult. change (inject_Z 2199023255552) with (2199023255552 # 1)%Q. ring. }
    assert (KB : k <= 3600 * (h + 1) * 2199023255552 - 1).
    { enough (k < 3600 * (h + 1) * 2199023255552) by lia. rewrite Zlt_Qlt. rewrite !inject_Z_mult. change (inject_Z 2199023255552) with (2199023255552 # 1)%Q. change (inject_Z 3600) with 3600%Q.
      set (hh := inject_Z (h + 1)) in *. clearbody hh. lra. }
    assert (KL : 3600 * h * 2199023255552 - 2200 <= k).
    { rewrite Zle_Qle. unfold Z.sub. rewrite inject_Z_plus, !inject_Z_mult. change (inject_Z 2199023255552) with (2199023255552 # 1)%Q. change (inject_Z (-(2200))) with (- (2200))%Q. change (inject_Z 3600) with 3600%Q. clear - LO Ek E3. lra. }
    split; [|split; [exact LO|]].
    + rewrite S. apply (srnd_exact _ _ _ Ed). change (2 ^ 53) with 9007199254740992. lia.
    + apply injZ_le in KB. unfold Z.sub in KB. rewrite inject_Z_plus, !inject_Z_mult in KB. change (inject_Z 2199023255552) with (2199023255552 # 1)%Q in KB. change (inject_Z (-(1))) with (- (1))%Q in KB. change (inject_Z 3600) with 3600%Q in KB.
      clear - KB Ek E1h E3. lra.
Qed.

(** the digits printed for a number of seconds (minutes) a little off [0, 60] *)
Lemma twof_any n x v : (n <= 6)%nat -> (fval x == v)%Q -> (100 < rnd (100 + v) + (1 # 2) * i10 n)%Q -> (-1 <= v)%Q -> (v <= 61)%Q -> exists N,
  twof n x = fixed n N /\ 0 <= N < 100 * 10 ^ Z.of_nat n /\ (Qabs (inject_Z N * i10 n - v) <= (50001 # 100000) * i10 n)%Q /\
  ((rnd (100 + v) + (1 # 2) * i10 n < 160)%Q -> N < 60 * 10 ^ Z.of_nat n).
Proof.
  intros Hn E L V0 V1. destruct (isp_add100 x v E V0) as [I1 I2]. pose proof (i10_range n Hn) as [U1 U2]. pose proof (i10_pos n) as U0. pose proof (i10_mul n) as UM.
  pose proof (p10_pos n) as PP. pose proof (near_rnd (100 + v) ltac:(lra)) as NR.
  set (D := 10 ^ Z.of_nat n) in *. assert (PD : (0 < inject_Z D)%Q) by (apply (injZ_lt 0); auto).
  set (W := rheQ (fmag (fadd (of_Z 100) x) * inject_Z D)). assert (EW : W = rheQ (rnd (100 + v) * inject_Z D)) by (apply rheQ_comp; now rewrite I2).
  pose proof (rheQ_near (rnd (100 + v) * inject_Z D)) as [N1 N2]. rewrite <- EW in N1, N2.
  set (r := rnd (100 + v)) in *. clearbody r. set (u := i10 n) in *. clearbody u. set (d := inject_Z D) in *. 
  assert (LW : 100 * D <= W).
  { enough (100 * D < W + 1) by lia. rewrite Zlt_Qlt, inject_Z_plus, inject_Z_mult. change (inject_Z 100) with 100%Q. change (inject_Z 1) with 1%Q. fold d. set (w := inject_Z W) in *. clearbody w d.
    clear - L UM PD N1. assert (A : (0 < (r + (1 # 2) * u - 100) * d)%Q) by (apply Qmult_lt_0_compat; lra). lra. }
  assert (D1 : (d <= 1000000)%Q) by (clearbody d; clear - U1 UM PD; assert (0 <= (u - (1 # 1000000)) * d)%Q by (apply mul_nonneg; lra); lra).
  assert (D0 : (1 <= d)%Q) by (clearbody d; clear - U2 UM PD; assert (0 <= (1 - u) * d)%Q by (apply mul_nonneg; lra); lra).
  assert (UW : W < 200 * D).
  { rewrite Zlt_Qlt, inject_Z_mult. change (inject_Z 200) with 200%Q. fold d. set (w := inject_Z W) in *. clearbody w d. clear - NR PD N2 V0 V1 D0. nears.
    assert (A : (0 <= (162 - r) * d)%Q) by (apply mul_nonneg; lra). lra. }
  exists (W - 100 * D). split; [|split; [lia|split]].
  - unfold twof. apply tl_fixed; [exact I1|fold D; lia|change (W = 100 * D + (W - 100 * D)); lia].
  - unfold Z.sub. rewrite inject_Z_plus, inject_Z_opp, inject_Z_mult. change (inject_Z 100) with 100%Q. fold d.
    set (w := inject_Z W) in *. clearbody w d. apply Qabs_Qle_condition.
    assert (Eq : ((w + - (100 * d)) * u - v == (w - r * d) * u + (r - 100 - v))%Q).
    { setoid_replace ((w - r * d) * u)%Q with (w * u - r * (d * u))%Q by ring. rewrite UM. setoid_replace ((w + - (100 * d)) * u)%Q with (w * u - 100 * (d * u))%Q by ring. rewrite UM. ring. }
    rewrite Eq. assert (A1 : (- (1 # 2) * u <= (w - r * d) * u)%Q) by nra. assert (A2 : ((w - r * d) * u <= (1 # 2) * u)%Q) by nra.
    set (z := ((w - r * d) * u)%Q) in *. clearbody z. clear - A1 A2 NR U1 V0 V1. nears. split; lra.
  - intros L6. enough (W < 160 * D) by lia. rewrite Zlt_Qlt, inject_Z_mult. change (inject_Z 160) with 160%Q. fold d. set (w := inject_Z W) in *. clearbody w d.
    clear - L6 UM PD N2. assert (A : (0 < (160 - (r + (1 # 2) * u)) * d)%Q) by (apply Qmult_lt_0_compat; lra). lra.
Qed.
