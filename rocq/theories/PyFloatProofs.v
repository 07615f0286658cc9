(** Rounding: error bound, exactness, uniqueness. *)
From Verif Require Import PyStrProofs PyFloat.
From Coq Require Import Lqa Qpower Qfield.
Open Scope Z_scope.

(** * rounding to an integer *)
Lemma rhe_near a b : 0 < b -> 2 * Z.abs (b * rhe a b - a) <= b.
Proof.
  intros B. unfold rhe. pose proof (Z.div_mod a b ltac:(lia)) as E. pose proof (Z.mod_pos_bound a b B) as R.
  destruct (Z.compare_spec (2 * (a mod b)) b) as [H|H|H]; [destruct (Z.even (a / b))| |]; nia.
Qed.
Lemma rhe_uniq a b k : 0 < b -> 2 * Z.abs (a - b * k) < b -> rhe a b = k.
Proof. intros B H. pose proof (rhe_near a b B). nia. Qed.
Lemma rhe_nonneg a b : 0 < b -> 0 <= a -> 0 <= rhe a b.
Proof. intros B A. pose proof (rhe_near a b B). nia. Qed.
Lemma rhe_scale a b c : 0 < b -> 0 < c -> rhe (a * c) (b * c) = rhe a b.
Proof.
  intros B C. unfold rhe. rewrite Z.div_mul_cancel_r by lia. rewrite Z.mul_mod_distr_r by lia.
  replace (2 * (a mod b * c)) with (2 * (a mod b) * c) by ring. rewrite <- (Zmult_compare_compat_r (2 * (a mod b)) b c) by lia. reflexivity.
Qed.
Lemma rhe_ties a b : 0 < b -> 2 * Z.abs (b * rhe a b - a) = b -> Z.even (rhe a b) = true.
Proof.
  intros B. unfold rhe. pose proof (Z.div_mod a b ltac:(lia)) as E. pose proof (Z.mod_pos_bound a b B) as R.
  destruct (Z.compare_spec (2 * (a mod b)) b) as [H|H|H]; [destruct (Z.even (a / b)) eqn:Ev| |]; try nia; auto.
  intros _. rewrite Z.even_add, Ev. reflexivity.
Qed.

Open Scope Q_scope.
Lemma Qmake_div n d : n # d == inject_Z n / inject_Z (Zpos d).
Proof. apply Qmake_Qdiv. Qed.
Lemma rheQ_near x : - (1 # 2) <= inject_Z (rheQ x) - x <= 1 # 2.
Proof.
  destruct x as [n d]. unfold rheQ. cbn [Qnum Qden]. pose proof (rhe_near n (Zpos d) ltac:(lia)) as H.
  set (k := rhe n (Z.pos d)) in *. split; unfold Qle, Qminus, Qplus, Qopp, inject_Z; cbn [Qnum Qden]; nia.
Qed.
Lemma rheQ_uniq x k : - (1 # 2) < inject_Z k - x < 1 # 2 -> rheQ x = k.
Proof.
  destruct x as [n d]. unfold rheQ. cbn [Qnum Qden]. intros [H1 H2]. apply rhe_uniq; [lia|].
  unfold Qlt, Qminus, Qplus, Qopp, inject_Z in H1, H2; cbn [Qnum Qden] in H1, H2. nia.
Qed.
Lemma rheQ_comp x y : x == y -> rheQ x = rheQ y.
Proof.
  destruct x as [n d], y as [n' d']. unfold Qeq, rheQ. cbn [Qnum Qden]. intros E.
  rewrite <- (rhe_scale n (Zpos d) (Zpos d')) by lia. rewrite E. rewrite (Z.mul_comm (Zpos d)). now rewrite rhe_scale by lia.
Qed.
Lemma rheQ_Z z : rheQ (inject_Z z) = z.
Proof. apply rheQ_uniq. split; lra. Qed.

(** * powers of two *)
Definition p2 (e : Z) : Q := (2 # 1) ^ e.
Lemma p2_pos e : 0 < p2 e.
Proof. unfold p2. apply Qpower_0_lt. reflexivity. Qed.
Lemma p2_add a b : p2 (a + b) == p2 a * p2 b.
Proof. unfold p2. apply Qpower_plus. discriminate. Qed.
Lemma p2_Z e : (0 <= e)%Z -> p2 e == inject_Z (2 ^ e).
Proof. intros H. unfold p2. rewrite <- (Zpower_Qpower 2 e H). reflexivity. Qed.
Lemma p2_neg e : (0 <= e)%Z -> p2 (- e) == / inject_Z (2 ^ e).
Proof. intros H. unfold p2. rewrite Qpower_opp. now rewrite <- (Zpower_Qpower 2 e H). Qed.
Lemma dyadic_val m e : dyadic m e == inject_Z m * p2 e.
Proof.
  unfold dyadic. destruct (Z.leb_spec 0 e) as [H|H].
  - rewrite p2_Z, <- inject_Z_mult by auto. reflexivity.
  - replace e with (- - e)%Z at 2 by lia. rewrite p2_neg by lia.
    rewrite Qmake_Qdiv. rewrite Z2Pos.id by (apply Z.pow_pos_nonneg; lia). reflexivity.
Qed.

(** * rounding to 53 bits *)
Lemma expo_spec n d : (0 < n)%Z -> (0 < d)%Z -> let e := expo n d in
  (2 ^ 52 * (d * 2 ^ Z.max 0 e) <= n * 2 ^ Z.max 0 (- e) < 2 ^ 53 * (d * 2 ^ Z.max 0 e))%Z.
Proof.
  intros N D. cbv zeta. unfold expo. set (e := (Z.log2 n - Z.log2 d - 52)%Z).
  assert (Ln : (2 ^ Z.log2 n <= n < 2 ^ (Z.log2 n + 1))%Z) by (rewrite Z.add_1_r; apply Z.log2_spec; auto).
  assert (Ld : (2 ^ Z.log2 d <= d < 2 ^ (Z.log2 d + 1))%Z) by (rewrite Z.add_1_r; apply Z.log2_spec; auto).
  pose proof (Z.log2_nonneg n) as Pn. pose proof (Z.log2_nonneg d) as Pd.
  set (a := Z.log2 n) in *. set (b := Z.log2 d) in *. clearbody a b.
  assert (P : forall k, (0 <= k)%Z -> (0 < 2 ^ k)%Z) by (intros; apply Z.pow_pos_nonneg; lia).
  (* upper bound at e: n 2^.. < 2^53 d 2^.. *)
  assert (U : (n * 2 ^ Z.max 0 (- e) < 2 ^ 53 * (d * 2 ^ Z.max 0 e))%Z).
  { assert (H1 : (n * 2 ^ Z.max 0 (- e) < 2 ^ (a + 1 + Z.max 0 (- e)))%Z).
    { rewrite (Z.pow_add_r 2 (a+1)) by lia. apply Z.mul_lt_mono_pos_r; [apply P|]; lia. }
    assert (H2 : (2 ^ (53 + b + Z.max 0 e) <= 2 ^ 53 * (d * 2 ^ Z.max 0 e))%Z).
    { rewrite !Z.pow_add_r by lia. rewrite <- Z.mul_assoc. apply Z.mul_le_mono_nonneg_l; [lia|]. apply Z.mul_le_mono_nonneg_r; [|lia].
      apply Z.lt_le_incl, P. lia. }
    replace (a + 1 + Z.max 0 (- e))%Z with (53 + b + Z.max 0 e)%Z in H1 by lia. lia. }
  (* lower bound at e - 1 *)
  assert (L : (2 ^ 51 * (d * 2 ^ Z.max 0 e) < n * 2 ^ Z.max 0 (- e))%Z).
  { assert (H1 : (2 ^ (a + Z.max 0 (- e)) <= n * 2 ^ Z.max 0 (- e))%Z).
    { rewrite Z.pow_add_r by lia. apply Z.mul_le_mono_nonneg_r; [apply Z.lt_le_incl, P|]; lia. }
    assert (H2 : (2 ^ 51 * (d * 2 ^ Z.max 0 e) < 2 ^ (51 + (b + 1) + Z.max 0 e))%Z).
    { rewrite (Z.pow_add_r 2 (51 + (b+1))), (Z.pow_add_r 2 51) by lia. rewrite <- Z.mul_assoc. apply Z.mul_lt_mono_pos_l; [lia|].
      apply Z.mul_lt_mono_pos_r; [apply P|]; lia. }
    replace (51 + (b + 1) + Z.max 0 e)%Z with (a + Z.max 0 (- e))%Z in H2 by lia. lia. }
  destruct (Z.leb_spec (2 ^ 52 * d * 2 ^ Z.max 0 e) (n * 2 ^ Z.max 0 (- e))) as [H|H].
  - split; [rewrite Z.mul_assoc|]; auto.
  - destruct (Z_le_gt_dec e 0) as [G|G].
    + rewrite (Z.max_l 0 e) in * by lia. rewrite (Z.max_r 0 (- e)) in * by lia.
      rewrite (Z.max_l 0 (e - 1)) by lia. rewrite (Z.max_r 0 (- (e - 1))) by lia.
      replace (- (e - 1))%Z with (- e + 1)%Z by lia. rewrite Z.pow_add_r by lia.
      change (2 ^ 0)%Z with 1%Z in *. change (2 ^ 1)%Z with 2%Z in *. lia.
    + rewrite (Z.max_r 0 e) in * by lia. rewrite (Z.max_l 0 (- e)) in * by lia.
      rewrite (Z.max_r 0 (e - 1)) by lia. rewrite (Z.max_l 0 (- (e - 1))) by lia.
      replace e with (e - 1 + 1)%Z in L, U, H by lia. rewrite (Z.pow_add_r 2 (e - 1) 1) in L, U, H by lia.
      change (2 ^ 1)%Z with 2%Z in *. change (2 ^ 0)%Z with 1%Z in *. lia.
Qed.

(** the shape of a rounded positive number *)
Lemma rnd_shape x : 0 < x -> exists y e, x == y * p2 e /\ inject_Z (2 ^ 52) <= y /\ y < inject_Z (2 ^ 53) /\
  rnd x == inject_Z (rheQ y) * p2 e.
Proof.
  destruct x as [n d]. intros H. assert (N : (0 < n)%Z) by (unfold Qlt in H; cbn in H; lia).
  pose proof (expo_spec n (Zpos d) N ltac:(lia)) as [S1 S2].
  unfold rnd. cbn [Qnum Qden]. destruct n as [|n|n]; try lia. set (e := expo (Zpos n) (Zpos d)) in *.
  set (A := (Z.pos n * 2 ^ Z.max 0 (- e))%Z) in *. set (B := (Z.pos d * 2 ^ Z.max 0 e)%Z) in *.
  assert (PB : (0 < B)%Z) by (unfold B; apply Z.mul_pos_pos; [lia|apply Z.pow_pos_nonneg; lia]).
  exists (A # Z.to_pos B), e. 
  assert (EB : Zpos (Z.to_pos B) = B) by now apply Z2Pos.id.
  repeat split.
  - rewrite (Qmake_Qdiv A), EB. rewrite (Qmake_Qdiv (Zpos n) d). unfold A, B. rewrite !inject_Z_mult.
    assert (NZ : forall k, (0 <= k)%Z -> ~ inject_Z (2 ^ k) == 0).
    { intros k K E. assert (0 < 2 ^ k)%Z by (apply Z.pow_pos_nonneg; lia). unfold Qeq, inject_Z in E. cbn in E. lia. }
    assert (ND : ~ inject_Z (Zpos d) == 0) by (intros E; unfold Qeq, inject_Z in E; cbn in E; lia).
    destruct (Z_le_gt_dec 0 e) as [G|G].
    + rewrite (Z.max_r 0 e), (Z.max_l 0 (- e)) by lia. rewrite p2_Z by lia. change (inject_Z (2 ^ 0)) with 1. field. split; auto.
    + rewrite (Z.max_l 0 e), (Z.max_r 0 (- e)) by lia. replace e with (- - e)%Z at 2 by lia. rewrite p2_neg by lia.
      change (inject_Z (2 ^ 0)) with 1. field. split; auto. apply NZ. lia.
  - unfold Qle, inject_Z. cbn [Qnum Qden]. rewrite EB. lia.
  - unfold Qlt, inject_Z. cbn [Qnum Qden]. rewrite EB. lia.
  - rewrite dyadic_val. unfold rheQ. cbn [Qnum Qden]. now rewrite EB.
Qed.

Definition ulp : Q := 1 # (2 ^ 53).
Lemma rnd_0 x : x == 0 -> rnd x = 0.
Proof. unfold Qeq, rnd. destruct x as [n d]. cbn [Qnum Qden]. intros H. replace n with 0%Z by lia. reflexivity. Qed.
(** relative error at most 2^-53 *)
Lemma rnd_err x : 0 <= x -> x * (1 - ulp) <= rnd x <= x * (1 + ulp).
Proof.
  intros H. destruct (Qlt_le_dec 0 x) as [P|P].
  - destruct (rnd_shape x P) as (y & e & Ex & L & U & Er). pose proof (rheQ_near y) as [N1 N2]. pose proof (p2_pos e) as P2.
    rewrite Er, Ex. unfold ulp. change (inject_Z (2 ^ 52)) with (4503599627370496 # 1) in L.
    change (2 ^ 53)%positive with 9007199254740992%positive.
    set (k := inject_Z (rheQ y)) in *. clearbody k.
    assert (M1 : y * (1 - (1 # 9007199254740992)) <= k) by lra.
    assert (M2 : k <= y * (1 + (1 # 9007199254740992))) by lra.
    split; nra.
  - assert (x == 0) by lra. rewrite rnd_0 by auto. unfold ulp. change (2 ^ 53)%positive with 9007199254740992%positive. split; lra.
Qed.
Lemma rnd_nonneg x : 0 <= rnd x.
Proof.
  destruct (Qlt_le_dec 0 x) as [P|P].
  - pose proof (rnd_err x ltac:(lra)) as [H _]. unfold ulp in H. change (2 ^ 53)%positive with 9007199254740992%positive in H. lra.
  - destruct (Qlt_le_dec x 0) as [N|N].
    + destruct x as [n d]. unfold rnd. cbn [Qnum Qden]. assert (n < 0)%Z by (unfold Qlt in N; cbn in N; lia). destruct n; try lia. lra.
    + rewrite rnd_0; lra.
Qed.

Lemma p2_cmp y e y' e' : y * p2 e == y' * p2 e' -> (e < e')%Z ->
  inject_Z (2 ^ 52) <= y -> y < inject_Z (2 ^ 53) -> inject_Z (2 ^ 52) <= y' -> False.
Proof.
  intros E L Y1 Y2 Y1'. replace e' with (e + (e' - e))%Z in E by lia. rewrite p2_add in E.
  pose proof (p2_pos e) as P. assert (G : 2 <= p2 (e' - e)).
  { rewrite p2_Z by lia. assert (2 ^ 1 <= 2 ^ (e' - e))%Z by (apply Z.pow_le_mono_r; lia).
    change 2 with (inject_Z 2). rewrite <- Zle_Qle. lia. }
  assert (E' : y == y' * p2 (e' - e)).
  { apply (Qmult_inj_r y (y' * p2 (e' - e)) (p2 e)); [intros Z; rewrite Z in P; discriminate P|]. rewrite E. ring. }
  change (inject_Z (2 ^ 52)) with (4503599627370496 # 1) in *. change (inject_Z (2 ^ 53)) with (9007199254740992 # 1) in *.
  set (g := p2 (e' - e)) in *. clearbody g. nra.
Qed.
Lemma rnd_comp x x' : x == x' -> rnd x == rnd x'.
Proof.
  intros E. destruct (Qlt_le_dec 0 x) as [P|P].
  - assert (P' : 0 < x') by lra. destruct (rnd_shape x P) as (y & e & Ex & L & U & Er). destruct (rnd_shape x' P') as (y' & e' & Ex' & L' & U' & Er').
    assert (Ey : y * p2 e == y' * p2 e') by (rewrite <- Ex, <- Ex'; auto).
    assert (e = e').
    { destruct (Z.lt_trichotomy e e') as [G|[G|G]]; auto; exfalso.
      - eapply p2_cmp; eauto.
      - eapply (p2_cmp y' e' y e); eauto. now rewrite Ey. }
    subst e'. rewrite Er, Er'. assert (y == y').
    { apply (Qmult_inj_r y y' (p2 e)); auto. pose proof (p2_pos e) as PP. intros Z; rewrite Z in PP; discriminate PP. }
    now rewrite (rheQ_comp y y').
  - destruct (Qlt_le_dec x 0) as [N|N].
    + assert (forall z, z < 0 -> rnd z = 0).
      { intros [n d] H. unfold rnd. cbn [Qnum Qden]. assert (n < 0)%Z by (unfold Qlt in H; cbn in H; lia). destruct n; try lia; auto. }
      rewrite !H; try lra.
    + rewrite !rnd_0; lra.
Qed.
(** integers up to 2^53, and these times a power of two, are kept *)
Lemma rnd_exact x m e : x == inject_Z m * p2 e -> (0 <= m <= 2 ^ 53)%Z -> rnd x == x.
Proof.
  intros E M. pose proof (p2_pos e) as Pe. destruct (Z.eq_dec m 0) as [->|Nz].
  - rewrite rnd_0; rewrite E; ring.
  - assert (PX : 0 < x). { rewrite E. assert (0 < inject_Z m) by (change 0 with (inject_Z 0); rewrite <- Zlt_Qlt; lia). nra. }
    destruct (rnd_shape x PX) as (y & e' & Ex & L & U & Er).
    (* y = m 2^(e - e'), an integer *)
    assert (Ey : y == inject_Z m * p2 (e - e')).
    { pose proof (p2_pos e') as Pe'. apply (Qmult_inj_r y _ (p2 e')); [intros Z; rewrite Z in Pe'; discriminate Pe'|].
      rewrite <- Ex, E, <- Qmult_assoc, <- p2_add. replace (e - e' + e')%Z with e by lia. reflexivity. }
    assert (exists k, y == inject_Z k) as (k & Ek).
    { destruct (Z_le_gt_dec 0 (e - e')) as [G|G].
      - exists (m * 2 ^ (e - e'))%Z. rewrite Ey, p2_Z, inject_Z_mult by lia. reflexivity.
      - (* m 2^-j >= 2^52 with m <= 2^53 : j = 1 and m = 2^53 *)
        assert (H : p2 (e - e') <= 1 # 2).
        { assert (G1 : p2 (e - e') * p2 (e' - e) == 1).
          { rewrite <- p2_add. replace (e - e' + (e' - e))%Z with 0%Z by lia. reflexivity. }
          assert (G2 : 2 <= p2 (e' - e)).
          { rewrite p2_Z by lia. assert (2 ^ 1 <= 2 ^ (e' - e))%Z by (apply Z.pow_le_mono_r; lia).
            change 2 with (inject_Z 2). rewrite <- Zle_Qle. lia. }
          pose proof (p2_pos (e - e')). set (a := p2 (e - e')) in *. set (b := p2 (e' - e)) in *. clearbody a b. nra. }
        assert (Hm : inject_Z m <= inject_Z (2 ^ 53)) by (rewrite <- Zle_Qle; lia).
        assert (Hp : 0 < p2 (e - e')) by apply p2_pos.
        exists (2 ^ 52)%Z. change (inject_Z (2 ^ 52)) with (4503599627370496 # 1) in *. change (inject_Z (2 ^ 53)) with (9007199254740992 # 1) in *.
        assert (0 <= inject_Z m) by (change 0 with (inject_Z 0); rewrite <- Zle_Qle; lia).
        set (a := inject_Z m) in *. set (b := p2 (e - e')) in *. clearbody a b. apply Qle_antisym; [|exact L]. rewrite Ey. nra. }
    rewrite Er, Ex. rewrite (rheQ_comp y (inject_Z k) Ek), rheQ_Z, <- Ek. reflexivity.
Qed.
Lemma rnd_Z z : (0 <= z <= 2 ^ 53)%Z -> rnd (inject_Z z) == inject_Z z.
Proof. intros H. apply (rnd_exact _ z 0); auto. unfold p2. cbn. ring. Qed.
(** rounding is monotone *)
