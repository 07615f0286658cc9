(** Positive floats by value; the way back from decimal degrees to a right
    ascension. *)
From Verif Require Import PyStrProofs PyFloat PyFloatProofs SexVals SexSpec SexProofs1.
From Coq Require Import Lqa.
Open Scope Z_scope.

(** * positive floats by value *)
Definition isp (f : fl) (x : Q) : Prop := fneg f = false /\ (fmag f == x)%Q.
Lemma rnd_e (x : Q) : (0 <= x -> x * (999999999999999 # 1000000000000000) <= rnd x <= x * (1000000000000001 # 1000000000000000))%Q.
Proof.
  intros H. pose proof (rnd_err x H) as [A B]. unfold ulp in *. change (2 ^ 53)%positive with 9007199254740992%positive in *. split; lra.
Qed.
Lemma isp_comp f x y : isp f x -> (x == y)%Q -> isp f y.
Proof. intros [A B] E. split; auto. now rewrite B. Qed.
Lemma isp_Z z : 0 <= z <= 2 ^ 53 -> isp (of_Z z) (inject_Z z).
Proof.
  intros H. unfold isp, of_Z, of_Q. cbn [fneg fmag]. split.
  - unfold Qneg, inject_Z. cbn [Qnum]. apply Z.ltb_ge. lia.
  - rewrite (rnd_comp _ (inject_Z z)); [apply rnd_Z; auto|]. rewrite Qabs_pos; [reflexivity|]. change 0%Q with (inject_Z 0). rewrite <- Zle_Qle. lia.
Qed.
Lemma isp_mul a b x y : isp a x -> isp b y -> isp (fmul a b) (rnd (x * y)).
Proof. intros [A1 A2] [B1 B2]. unfold isp, fmul. cbn [fneg fmag]. rewrite A1, B1. split; auto. apply rnd_comp. now rewrite A2, B2. Qed.
Lemma isp_div a b x y : isp a x -> isp b y -> isp (fdiv a b) (rnd (x / y)).
Proof. intros [A1 A2] [B1 B2]. unfold isp, fdiv. cbn [fneg fmag]. rewrite A1, B1. split; auto. apply rnd_comp. now rewrite A2, B2. Qed.
Lemma Qnum_zero v : (Qnum v =? 0) = true <-> (v == 0)%Q.
Proof. destruct v as [n d]. unfold Qeq. cbn [Qnum Qden]. rewrite Z.eqb_eq. lia. Qed.
Lemma of_Q_pos v : (0 <= v)%Q -> isp (of_Q v) (rnd v).
Proof.
  intros H. unfold isp, of_Q. cbn [fneg fmag]. split.
  - unfold Qneg. destruct v as [n d]. unfold Qle in H. cbn [Qnum Qden] in *. apply Z.ltb_ge. lia.
  - apply rnd_comp. now apply Qabs_pos.
Qed.
Lemma isp_add a b x y : isp a x -> isp b y -> (0 <= x)%Q -> (0 <= y)%Q -> isp (fadd a b) (rnd (x + y)).
Proof.
  intros [A1 A2] [B1 B2] X Y. unfold fadd, fval. rewrite A1, B1. destruct (Qnum (fmag a + fmag b) =? 0) eqn:E.
  - apply Qnum_zero in E. split; cbn [fneg fmag]; auto. rewrite rnd_0; [reflexivity|]. lra.
  - eapply isp_comp; [apply of_Q_pos; lra|]. apply rnd_comp. now rewrite A2, B2.
Qed.
Lemma isp_sub a b x y : isp a x -> isp b y -> (y <= x)%Q -> isp (fsub a b) (rnd (x - y)).
Proof.
  intros [A1 A2] [B1 B2] X. unfold fsub, fadd, fval, fopp. cbn [fneg fmag]. rewrite A1, B1. cbn [negb].
  destruct (Qnum (fmag a + - fmag b) =? 0) eqn:E.
  - apply Qnum_zero in E. split; cbn [fneg fmag]; auto. rewrite rnd_0; [reflexivity|]. lra.
  - eapply isp_comp; [apply of_Q_pos; lra|]. apply rnd_comp. rewrite A2, B2. ring.
Qed.
Lemma isp_int f x : isp f x -> fint f = Qfloor x.
Proof. intros [A B]. unfold fint, signed. rewrite A. now apply Qfloor_comp. Qed.
Lemma floor_is x k : (inject_Z k <= x)%Q -> (x < inject_Z (k + 1))%Q -> Qfloor x = k.
Proof.
  intros A B. pose proof (Qfloor_le x) as F1. pose proof (Qlt_floor x) as F2.
  assert (inject_Z k < inject_Z (Qfloor x + 1))%Q by lra. assert (inject_Z (Qfloor x) < inject_Z (k + 1))%Q by lra.
  rewrite <- Zlt_Qlt in *. lia.
Qed.
Lemma feqb_false (a b : fl) : ~ (fval a == fval b)%Q -> feqb a b = false.
Proof. unfold feqb. intros H. destruct (Qeq_bool (fval a) (fval b)) eqn:E; auto. apply Qeq_bool_eq in E. tauto. Qed.

(** * two digits *)
Lemma rheQ_mul1 x : rheQ (x * inject_Z (10 ^ Z.of_nat 0)) = rheQ x.
Proof. apply rheQ_comp. change (inject_Z (10 ^ Z.of_nat 0)) with 1%Q. ring. Qed.
Lemma two_ok n : 0 <= n < 200 -> two n = num 2 (n mod 100).
Proof.
  intros H. unfold two. destruct (isp_Z (100 + n) ltac:(lia)) as [A B].
  rewrite (fmtf_pos 0 _ (100 + n) A).
  - change (10 ^ Z.of_nat 0) with 1. rewrite Z.div_1_r, app_nil_r.
    destruct (Z_lt_ge_dec n 100) as [L|G].
    + rewrite Z.mod_small by lia. apply tl_hundred. lia.
    + replace (n mod 100) with (n - 100) by (apply (Zmod_unique _ _ 1); lia).
      assert (I : forall k, (k < 100)%nat -> streqb (tl (dec (200 + Z.of_nat k))) (num 2 (Z.of_nat k)) = true).
      { intros k K. assert (F : forallb (fun k => streqb (tl (dec (200 + Z.of_nat k))) (num 2 (Z.of_nat k))) (seq 0 100) = true) by (vm_compute; reflexivity).
        rewrite forallb_forall in F. apply F. apply in_seq. lia. }
      specialize (I (Z.to_nat (n - 100)) ltac:(lia)). apply streqb_eq in I. rewrite Z2Nat.id in I by lia.
      replace (200 + (n - 100)) with (100 + n) in I by lia. exact I.
  - rewrite rheQ_mul1, (rheQ_comp _ _ B). apply rheQ_Z.
Qed.
(** a value close to N/10^n *)
Lemma twof_ok n x y N : isp x y -> (0 <= y)%Q -> 0 <= N < 100 * 10 ^ Z.of_nat n ->
  (Qabs (rnd (100 + y) * inject_Z (10 ^ Z.of_nat n) - inject_Z (100 * 10 ^ Z.of_nat n + N)) < 1 # 2)%Q ->
  twof n x = fixed n N.
Proof.
  intros X Y HN H. unfold twof. assert (A := isp_add _ _ _ _ (isp_Z 100 ltac:(lia)) X ltac:(easy) Y). destruct A as [A1 A2].
  apply tl_fixed; auto. apply rheQ_uniq. apply Qabs_Qlt_condition in H. rewrite A2. change (inject_Z 100) with 100%Q. lra.
Qed.

(** * the minutes of right ascension are exact *)
Definition upto (n : nat) : list Z := map Z.of_nat (seq 0 n).
Lemma in_upto n k : 0 <= k < Z.of_nat n -> In k (upto n).
Proof. intros H. unfold upto. apply in_map_iff. exists (Z.to_nat k). split; [lia|]. apply in_seq. lia. Qed.
Definition ra_min_ok (k : Z) : bool := Qeq_bool (rnd (rnd (k # 4) / fmag secToDegrees)) (inject_Z (60 * k)).
Lemma ra_min_all : forallb ra_min_ok (upto (Z.to_nat 6101)) = true.
Proof. vm_compute. reflexivity. Qed.
Lemma ra_min k : 0 <= k <= 6100 -> (rnd (rnd (k # 4) / fmag secToDegrees) == inject_Z (60 * k))%Q.
Proof.
  intros H. pose proof ra_min_all as F. rewrite forallb_forall in F. apply Qeq_bool_eq, (F k). apply in_upto. lia.
Qed.
(** 1/secToDegrees, 240 up to the rounding of the constant *)
Definition inv_s2d : Q := Eval vm_compute in (/ fmag secToDegrees)%Q.
Lemma inv_s2d_val : (240 * (999999999999999 # 1000000000000000) <= inv_s2d <= 240 * (1000000000000001 # 1000000000000000))%Q.
Proof. split; unfold Qle; vm_compute; congruence. Qed.

(** rev: the seconds computed from the decimal text *)
Lemma ra_rev_near v : (0 <= v)%Q -> (240 * v * (1 - (1 # 100000000000000)) <= rnd (rnd v / fmag secToDegrees) <= 240 * v * (1 + (1 # 100000000000000)))%Q.
Proof.
  intros H. pose proof (rnd_e v H) as [A B]. pose proof (rnd_nonneg v) as P. pose proof inv_s2d_val as [C1 C2].
  assert (E : (rnd v / fmag secToDegrees == rnd v * inv_s2d)%Q) by reflexivity.
  rewrite (rnd_comp _ _ E).
  assert (N : (0 <= rnd v * inv_s2d)%Q) by (set (a := rnd v) in *; set (c := inv_s2d) in *; clearbody a c; nra).
  pose proof (rnd_e _ N) as [D1 D2]. change inv_s2d with (1152921504606846976 # 4803839602528529)%Q in *.
  split; lra.
Qed.
