(** Monotony of rounding, logarithms, signed floats: tools for the angles and
    times that did not come from an 80-column line. *)
From Verif Require Import PyStrProofs PyFloat PyFloatProofs SexVals SexSpec SexProofs1 SexProofs2 SexProofs3 SexProofs4 SexProofs5 SexProofs8.
From Coq Require Import Lqa Qpower.
Open Scope Z_scope.

Lemma rheQ_mono x y : (x <= y)%Q -> rheQ x <= rheQ y.
Proof.
  intros H. destruct (Z_le_gt_dec (rheQ x) (rheQ y)) as [L|G]; [exact L|exfalso].
  pose proof (rheQ_near x) as [X1 X2]. pose proof (rheQ_near y) as [Y1 Y2].
  assert (G' : (inject_Z (rheQ y) + 1 <= inject_Z (rheQ x))%Q) by (change 1%Q with (inject_Z 1); rewrite <- inject_Z_plus; apply injZ_le; lia).
  assert (E : (x == y)%Q) by lra. rewrite (rheQ_comp _ _ E) in G. lia.
Qed.
Lemma rnd_mono x y : (0 <= x)%Q -> (x <= y)%Q -> (rnd x <= rnd y)%Q.
Proof.
  intros Hx H. destruct (Qlt_le_dec 0 x) as [P|P].
  2:{ rewrite rnd_0 by lra. apply rnd_nonneg. }
  destruct (rnd_shape x P) as (a & e & Ex & L & U & Er). destruct (rnd_shape y ltac:(lra)) as (b & f & Ey & L' & U' & Er').
  pose proof (p2_pos e) as Pe. pose proof (p2_pos f) as Pf. rewrite Er, Er'.
  destruct (Z.lt_trichotomy e f) as [G|[G|G]].
  - assert (B1 : (inject_Z (rheQ a) <= inject_Z (2 ^ 53))%Q).
    { apply injZ_le. apply (Z.le_trans _ (rheQ (inject_Z (2 ^ 53)))); [apply rheQ_mono; lra|rewrite rheQ_Z; lia]. }
    assert (B2 : (inject_Z (2 ^ 52) <= inject_Z (rheQ b))%Q).
    { apply injZ_le. apply (Z.le_trans _ (rheQ (inject_Z (2 ^ 52)))); [rewrite rheQ_Z; lia|apply rheQ_mono; lra]. }
    assert (E : (p2 f == p2 e * p2 (f - e))%Q) by (rewrite <- p2_add; replace (e + (f - e)) with f by lia; reflexivity).
    assert (G2 : (2 <= p2 (f - e))%Q).
    { rewrite p2_Z by lia. assert (2 ^ 1 <= 2 ^ (f - e)) by (apply Z.pow_le_mono_r; lia). change 2%Q with (inject_Z 2). apply injZ_le. lia. }
    rewrite E. change (inject_Z (2 ^ 52)) with (4503599627370496 # 1)%Q in *. change (inject_Z (2 ^ 53)) with (9007199254740992 # 1)%Q in *.
    set (k := inject_Z (rheQ a)) in *. set (l := inject_Z (rheQ b)) in *. set (g := p2 (f - e)) in *. set (w := p2 e) in *. clearbody k l g w. clear - B1 B2 G2 Pe.
    assert (K : (k * w <= (9007199254740992 # 1) * w)%Q) by nra. assert (K2 : ((9007199254740992 # 1) <= l * g)%Q) by nra. nra.
  - subst f. assert (Hab : (a <= b)%Q) by (rewrite Ex, Ey in H; apply (Qmult_le_r a b (p2 e)); auto).
    pose proof (injZ_le _ _ (rheQ_mono _ _ Hab)) as M. set (k := inject_Z (rheQ a)) in *. set (l := inject_Z (rheQ b)) in *. set (w := p2 e) in *. clearbody k l w. nra.
  - exfalso. assert (E : (p2 e == p2 f * p2 (e - f))%Q) by (rewrite <- p2_add; replace (f + (e - f)) with e by lia; reflexivity).
    assert (G2 : (2 <= p2 (e - f))%Q).
    { rewrite p2_Z by lia. assert (2 ^ 1 <= 2 ^ (e - f)) by (apply Z.pow_le_mono_r; lia). change 2%Q with (inject_Z 2). apply injZ_le. lia. }
    rewrite Ex, Ey, E in H. change (inject_Z (2 ^ 52)) with (4503599627370496 # 1)%Q in *. change (inject_Z (2 ^ 53)) with (9007199254740992 # 1)%Q in *.
    set (g := p2 (e - f)) in *. set (w := p2 f) in *. clearbody g w. clear - H L U' G2 Pf.
    assert ((9007199254740992 # 1) <= a * g)%Q by nra. assert (a * (w * g) == a * g * w)%Q by ring. nra.
Qed.
(** a float of at least 2048 is a multiple of 2^-41 *)
Lemma rnd_grid x : (2048 <= rnd x)%Q -> exists k, (rnd x == inject_Z k * p2 (-41))%Q.
Proof.
  intros H. assert (P : (0 < x)%Q). { destruct (Qlt_le_dec 0 x) as [G|G]; auto. destruct (Qlt_le_dec x 0) as [G'|G']. - destruct x as [n d]. unfold rnd in H. cbn [Qnum Qden] in H. assert (n < 0) by (unfold Qlt in G'; cbn in G'; lia). destruct n; try lia; lra. - rewrite rnd_0 in H by lra. lra. }
  destruct (rnd_shape x P) as (a & e & Ex & L & U & Er). rewrite Er in H.
  assert (B1 : (inject_Z (rheQ a) <= inject_Z (2 ^ 53))%Q).
  { apply injZ_le. apply (Z.le_trans _ (rheQ (inject_Z (2 ^ 53)))); [apply rheQ_mono; lra|rewrite rheQ_Z; lia]. }
  assert (B0 : 0 <= rheQ a) by (apply rheQ_nonneg; change (inject_Z (2 ^ 52)) with (4503599627370496 # 1)%Q in L; lra).
  destruct (Z_le_gt_dec (-41) e) as [G|G].
  - exists (rheQ a * 2 ^ (e + 41)). rewrite Er, inject_Z_mult, <- p2_Z by lia. rewrite <- Qmult_assoc, <- p2_add. replace (e + 41 + -41) with e by lia. reflexivity.
  - assert (e = -42 \/ e <= -43) as [->|G2] by lia.
    + (* the mantissa is 2^53 *)
      change (p2 (-42)) with (/ (4398046511104 # 1))%Q in *. change (inject_Z (2 ^ 53)) with (9007199254740992 # 1)%Q in *.
      assert (E : (inject_Z (rheQ a) == 9007199254740992 # 1)%Q) by (unfold Qinv in H; cbn in H; lra).
      exists (2 ^ 52). rewrite Er, E. reflexivity.
    + exfalso. assert (E : (p2 e * p2 (-43 - e) == p2 (-43))%Q) by (rewrite <- p2_add; replace (e + (-43 - e)) with (-43) by lia; reflexivity).
      assert (G3 : (1 <= p2 (-43 - e))%Q).
      { rewrite p2_Z by lia. assert (2 ^ 0 <= 2 ^ (-43 - e)) by (apply Z.pow_le_mono_r; lia). change 1%Q with (inject_Z 1). apply injZ_le. lia. }
      pose proof (p2_pos e) as Pe. change (p2 (-43)) with (1 # 8796093022208)%Q in E. change (inject_Z (2 ^ 53)) with (9007199254740992 # 1)%Q in *.
      assert (B0' : (0 <= inject_Z (rheQ a))%Q) by (apply (injZ_le 0); lia).
      set (k := inject_Z (rheQ a)) in *. set (g := p2 (-43 - e)) in *. set (w := p2 e) in *. clearbody k g w. clear - H B1 B0' G3 Pe E.
      assert (w <= 1 # 8796093022208)%Q by nra. nra.
Qed.
Lemma rnd_idem x : (rnd (rnd x) == rnd x)%Q.
Proof.
  destruct (Qlt_le_dec 0 x) as [G|G].
  - destruct (rnd_shape x G) as (a & e & Ex & L & U & Er). apply (rnd_exact _ (rheQ a) e Er). split.
    + apply rheQ_nonneg. change (inject_Z (2 ^ 52)) with (4503599627370496 # 1)%Q in L. lra.
    + apply (Z.le_trans _ (rheQ (inject_Z (2 ^ 53)))); [apply rheQ_mono; lra|rewrite rheQ_Z; lia].
  - destruct (Qlt_le_dec x 0) as [G'|G'].
    + destruct x as [n d]. assert (n < 0) by (unfold Qlt in G'; cbn in G'; lia). destruct n; try lia. reflexivity.
    + rewrite (rnd_0 x) by lra. reflexivity.
Qed.

(** * logarithms *)
Lemma p10_le a b : a <= b -> 0 <= a -> 10 ^ a <= 10 ^ b.
Proof. intros. apply Z.pow_le_mono_r; lia. Qed.
Definition t10 (k : Z) : Q := (10 # 1) ^ k.
Lemma t10_pos k : (0 < t10 k)%Q.
Proof. apply Qpower_0_lt. reflexivity. Qed.
Lemma t10_add a b : (t10 (a + b) == t10 a * t10 b)%Q.
Proof. apply Qpower_plus. discriminate. Qed.
Lemma t10_Z k : 0 <= k -> (t10 k == inject_Z (10 ^ k))%Q.
Proof. intros H. unfold t10. now rewrite <- (Zpower_Qpower 10 k H). Qed.
Lemma t10_neg k : (t10 (- k) == / t10 k)%Q.
Proof. apply Qpower_opp. Qed.
Lemma decimal_t10 k : (decimal 1 k == t10 k)%Q.
Proof.
  unfold decimal. destruct (Z.leb_spec 0 k).
  - rewrite t10_Z by auto. now rewrite Z.mul_1_l.
  - replace k with (- - k) at 2 by lia. rewrite t10_neg, t10_Z by lia. rewrite Qmake_Qdiv.
    rewrite Z2Pos.id by (apply Z.pow_pos_nonneg; lia). unfold Qdiv. change (inject_Z 1) with 1%Q. ring.
Qed.
Lemma t10_mono a b : a <= b -> (t10 a <= t10 b)%Q.
Proof.
  intros H. replace b with (a + (b - a)) by lia. rewrite t10_add. pose proof (t10_pos a).
  assert (1 <= t10 (b - a))%Q. { rewrite t10_Z by lia. change 1%Q with (inject_Z 1). apply injZ_le. pose proof (p10_le 0 (b - a)). lia. }
  set (u := t10 a) in *. set (v := t10 (b - a)) in *. clearbody u v. nra.
Qed.
Lemma down_spec x k : (t10 k <= x)%Q -> (x < t10 (k + 1))%Q -> forall f j, k <= j -> j - k < Z.of_nat f -> log10_down f x j = k.
Proof.
  intros A B. induction f as [|f IH]; intros j J F; [lia|]. cbn [log10_down].
  destruct (Qle_bool (decimal 1 j) x) eqn:E.
  - apply Qle_bool_iff in E. rewrite decimal_t10 in E. destruct (Z.eq_dec j k); [auto|].
    assert (t10 (k + 1) <= t10 j)%Q by (apply t10_mono; lia). lra.
  - assert (j <> k). { intros ->. assert (T : Qle_bool (decimal 1 k) x = true) by (apply Qle_bool_iff; now rewrite decimal_t10). congruence. }
    apply IH; lia.
Qed.
Lemma up_spec x k : (t10 k <= x)%Q -> (x < t10 (k + 1))%Q -> forall f j, j <= k -> k - j <= Z.of_nat f -> log10_up f x j = k.
Proof.
  intros A B. induction f as [|f IH]; intros j J F; [cbn; lia|]. cbn [log10_up].
  destruct (Qle_bool (decimal 1 (j + 1)) x) eqn:E.
  - apply Qle_bool_iff in E. rewrite decimal_t10 in E. apply IH; [|lia].
    destruct (Z.eq_dec j k) as [->|]; [lra|lia].
  - destruct (Z.eq_dec j k); [auto|]. assert (T : Qle_bool (decimal 1 (j + 1)) x = true); [|congruence].
    apply Qle_bool_iff. rewrite decimal_t10. eapply Qle_trans; [apply t10_mono|exact A]. lia.
Qed.
Lemma log10_floor_ok x k : (t10 k <= x)%Q -> (x < t10 (k + 1))%Q -> log10_floor x = k.
Proof.
  intros A B. pose proof (t10_pos k) as P. unfold log10_floor. destruct (Qle_bool 1 x) eqn:E.
  - apply Qle_bool_iff in E. assert (K : 0 <= k).
    { destruct (Z_le_gt_dec 0 k); [auto|]. assert (t10 (k + 1) <= t10 0)%Q by (apply t10_mono; lia). change (t10 0) with 1%Q in *. lra. }
    apply up_spec; auto. rewrite t10_Z in A by auto. rewrite Nat2Z.inj_add, Z2Nat.id by apply Z.log2_nonneg.
    destruct x as [n d]. unfold Qle in A. cbn [Qnum Qden inject_Z] in A. cbn [Qnum].
    assert (N : 10 ^ k <= n) by nia. assert (L : 2 ^ k <= n) by (pose proof (Z.pow_le_mono_l 2 10 k); lia).
    apply Z.log2_le_mono in L. rewrite Z.log2_pow2 in L by auto. lia.
  - assert (X1 : (x < 1)%Q) by (destruct (Qlt_le_dec x 1) as [L|L]; [auto|apply Qle_bool_iff in L; congruence]).
    assert (K : k <= -1).
    { destruct (Z_le_gt_dec k (-1)); [auto|]. assert (t10 0 <= t10 k)%Q by (apply t10_mono; lia). change (t10 0) with 1%Q in *. lra. }
    apply down_spec; auto. rewrite Nat2Z.inj_add, Z2Nat.id by apply Z.log2_nonneg.
    replace (k + 1) with (- (- (k + 1))) in B by lia. rewrite t10_neg, t10_Z in B by lia.
    assert (PT : 0 < 10 ^ (- (k + 1))) by (apply Z.pow_pos_nonneg; lia).
    assert (B' : (x * inject_Z (10 ^ (- (k + 1))) < 1)%Q).
    { apply (injZ_lt 0) in PT. change (inject_Z 0) with 0%Q in PT. set (w := inject_Z (10 ^ (- (k + 1)))) in *. clearbody w.
      assert (I : (/ w * w == 1)%Q) by (field; lra). set (i := (/ w)%Q) in *. clearbody i. nra. }
    destruct x as [n d]. unfold Qlt in B'. cbn [Qnum Qden inject_Z Qmult] in B'. cbn [Qden]. 
    assert (N : 0 < n) by (assert (Hx : (0 < n # d)%Q) by lra; unfold Qlt in Hx; cbn in Hx; lia).
    assert (L : 10 ^ (- (k + 1)) <= Zpos d) by nia.
    assert (L2 : 2 ^ (- (k + 1)) <= Zpos d) by (pose proof (Z.pow_le_mono_l 2 10 (- (k + 1))); lia).
    apply Z.log2_le_mono in L2. rewrite Z.log2_pow2 in L2 by lia. lia.
Qed.
Lemma rnd_t10 k : near e15 (rnd (t10 k)) (t10 k).
Proof. apply near_rnd. pose proof (t10_pos k). lra. Qed.
(** the power of ten itself *)
Lemma log_power x k : (x == rnd (t10 k))%Q -> int_log10 x = k /\ floor_log10 x = k.
Proof.
  intros E. pose proof (t10_pos k) as P. assert (N : near e15 x (t10 k)) by (eapply near_eq2; [symmetry; exact E|apply rnd_t10]).
  assert (T1 : (t10 (k + 1) == t10 k * 10)%Q) by (rewrite t10_add; reflexivity).
  assert (T0 : (t10 k == t10 (k - 1) * 10)%Q) by (replace k with (k - 1 + 1) at 1 by lia; rewrite t10_add; reflexivity).
  assert (X : log10_exact x = Some k).
  { unfold log10_exact. destruct (Qlt_le_dec x (t10 k)) as [L|L].
    - rewrite (log10_floor_ok x (k - 1)).
      + pose proof (rnd_t10 (k - 1)) as N'.
        destruct (Qeq_bool x (rnd (decimal 1 (k - 1)))) eqn:Q1.
        { exfalso. apply Qeq_bool_iff in Q1. rewrite (rnd_comp _ _ (decimal_t10 (k - 1))) in Q1. set (a := rnd (t10 (k - 1))) in *. clearbody a.
          set (b := t10 (k - 1)) in *. set (c := t10 k) in *. clearbody b c. nears. lra. }
        replace (k - 1 + 1) with k by lia. destruct (Qeq_bool x (rnd (decimal 1 k))) eqn:Q2; [reflexivity|].
        assert (T : Qeq_bool x (rnd (decimal 1 k)) = true); [|congruence]. apply Qeq_bool_iff. now rewrite (rnd_comp _ _ (decimal_t10 k)).
      + set (b := t10 (k - 1)) in *. set (c := t10 k) in *. clearbody b c. nears. lra.
      + replace (k - 1 + 1) with k by lia. exact L.
    - rewrite (log10_floor_ok x k); auto.
      + assert (T : Qeq_bool x (rnd (decimal 1 k)) = true); [|now rewrite T]. apply Qeq_bool_iff. now rewrite (rnd_comp _ _ (decimal_t10 k)).
      + set (b := t10 (k + 1)) in *. set (c := t10 k) in *. clearbody b c. nears. lra. }
  unfold int_log10, floor_log10. rewrite X. auto.
Qed.
(** strictly between *)
Lemma log_between x k : (t10 k < x)%Q -> (x < t10 (k + 1))%Q -> ~ (x == rnd (t10 k))%Q -> ~ (x == rnd (t10 (k + 1)))%Q ->
  int_log10 x = if k <? 0 then k + 1 else k.
Proof.
  intros A B N1 N2. assert (F : log10_floor x = k) by (apply log10_floor_ok; lra).
  unfold int_log10, log10_exact. rewrite F.
  destruct (Qeq_bool x (rnd (decimal 1 k))) eqn:Q1. { apply Qeq_bool_iff in Q1. rewrite (rnd_comp _ _ (decimal_t10 k)) in Q1. tauto. }
  destruct (Qeq_bool x (rnd (decimal 1 (k + 1)))) eqn:Q2. { apply Qeq_bool_iff in Q2. rewrite (rnd_comp _ _ (decimal_t10 (k + 1))) in Q2. tauto. }
  reflexivity.
Qed.
