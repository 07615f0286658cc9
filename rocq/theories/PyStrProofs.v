(** Lemmas about the Python string layer. *)
From Verif Require Export PyStr.
From Coq Require Export ZifyBool ZifyNat ZifyN.
Ltac Zify.zify_post_hook ::= Z.div_mod_to_equations.

(** * Enumeration of the 256 characters *)
Definition allascii : list ascii := map (fun n => ascii_of_nat n) (seq 0 256).
Lemma in_allascii : forall c, In c allascii.
Proof.
  intro c. unfold allascii. apply in_map_iff. exists (nat_of_ascii c). split.
  - apply ascii_nat_embedding.
  - apply in_seq. pose proof (nat_ascii_bounded c). lia.
Qed.
Lemma forall_ascii (p : ascii -> bool) : forallb p allascii = true -> forall c, p c = true.
Proof. intros H c. rewrite forallb_forall in H. apply H, in_allascii. Qed.

Ltac ascii_dec :=
  let c := fresh "c" in
  intro c; pattern c;
  match goal with |- ?P c => idtac end.

Lemma impl_ascii (p q : ascii -> bool) :
  forallb (fun c => implb (p c) (q c)) allascii = true -> forall c, p c = true -> q c = true.
Proof.
  intros H c Hp. pose proof (forall_ascii _ H c) as Hc. cbn in Hc. rewrite Hp in Hc. exact Hc.
Qed.
Lemma implf_ascii (p q : ascii -> bool) :
  forallb (fun c => implb (p c) (negb (q c))) allascii = true -> forall c, p c = true -> q c = false.
Proof.
  intros H c Hp. pose proof (forall_ascii _ H c) as Hc. cbn in Hc. rewrite Hp in Hc. cbn in Hc.
  now apply negb_true_iff.
Qed.

Lemma ceqb_refl c : ceqb c c = true.
Proof. apply Ascii.eqb_refl. Qed.
Lemma ceqb_eq a b : ceqb a b = true <-> a = b.
Proof. apply Ascii.eqb_eq. Qed.
Lemma ceqb_neq a b : ceqb a b = false <-> a <> b.
Proof. apply Ascii.eqb_neq. Qed.

Lemma streqb_eq a b : streqb a b = true <-> a = b.
Proof.
  revert b; induction a as [|x a IH]; intros [|y b]; cbn; split; try congruence; try reflexivity.
  - intro H. apply andb_prop in H as [H1 H2]. apply ceqb_eq in H1. apply IH in H2. congruence.
  - intro H. injection H as -> ->. rewrite ceqb_refl. cbn. now apply IH.
Qed.
Lemma streqb_refl a : streqb a a = true.
Proof. now apply streqb_eq. Qed.
Lemma streqb_neq a b : streqb a b = false <-> a <> b.
Proof.
  split; intro H.
  - intro E. apply streqb_eq in E. congruence.
  - destruct (streqb a b) eqn:E; [|reflexivity]. apply streqb_eq in E. contradiction.
Qed.
Lemma str_eq_dec (a b : str) : {a = b} + {a <> b}.
Proof. destruct (streqb a b) eqn:E; [left; now apply streqb_eq | right; now apply streqb_neq]. Qed.

(** * Digits *)
Lemma isdig_code c : isdig c = true <-> 48 <= Z.of_N (code c) <= 57.
Proof.
  unfold isdig, cle. change (code "0") with 48%N. change (code "9") with 57%N.
  rewrite andb_true_iff, !N.leb_le. lia.
Qed.
Lemma digval_range c : isdig c = true -> 0 <= digval c <= 9.
Proof. rewrite isdig_code. unfold digval. lia. Qed.
Lemma code_digc d : 0 <= d <= 9 -> code (digc d) = Z.to_N (d + 48).
Proof. intro H. unfold digc, code. apply N_ascii_embedding. lia. Qed.
Lemma isdig_digc d : 0 <= d <= 9 -> isdig (digc d) = true.
Proof. intro H. apply isdig_code. rewrite code_digc by assumption. lia. Qed.
Lemma digval_digc d : 0 <= d <= 9 -> digval (digc d) = d.
Proof. intro H. unfold digval. rewrite code_digc by assumption. lia. Qed.
Lemma digc_digval c : isdig c = true -> digc (digval c) = c.
Proof.
  intro H. unfold digc, digval. replace (Z.to_N (Z.of_N (code c) - 48 + 48)) with (code c) by lia.
  apply ascii_N_embedding.
Qed.
Lemma digval_inj a b : isdig a = true -> isdig b = true -> digval a = digval b -> a = b.
Proof. intros Ha Hb E. rewrite <- (digc_digval a Ha), <- (digc_digval b Hb). congruence. Qed.

(** * decval *)
Definition alldig (s : str) : bool := forallb isdig s.

Lemma decval_acc s : forall a, fold_left (fun a c => 10 * a + digval c) s a = a * 10 ^ Z.of_nat (length s) + decval s.
Proof.
  unfold decval. induction s as [|c s IH]; intro a; cbn [fold_left length].
  - cbn. lia.
  - rewrite IH. rewrite (IH (10 * 0 + digval c)). rewrite Nat2Z.inj_succ, Z.pow_succ_r by lia. lia.
Qed.
Lemma decval_cons c s : decval (c :: s) = digval c * 10 ^ Z.of_nat (length s) + decval s.
Proof. unfold decval at 1. cbn [fold_left]. rewrite decval_acc. lia. Qed.
Lemma decval_app a b : decval (a ++ b) = decval a * 10 ^ Z.of_nat (length b) + decval b.
Proof. unfold decval at 1. rewrite fold_left_app, decval_acc. reflexivity. Qed.
Lemma decval_nil : decval [] = 0.
Proof. reflexivity. Qed.
Lemma alldig_cons c s : alldig (c :: s) = true <-> isdig c = true /\ alldig s = true.
Proof. unfold alldig. cbn. apply andb_true_iff. Qed.
Lemma alldig_app a b : alldig (a ++ b) = true <-> alldig a = true /\ alldig b = true.
Proof. unfold alldig. rewrite forallb_app. apply andb_true_iff. Qed.

Lemma decval_bound s : alldig s = true -> 0 <= decval s < 10 ^ Z.of_nat (length s).
Proof.
  induction s as [|c s IH]; intro H.
  - rewrite decval_nil. cbn. lia.
  - apply alldig_cons in H as [Hc Hs]. specialize (IH Hs). rewrite decval_cons.
    pose proof (digval_range c Hc). cbn [length]. rewrite Nat2Z.inj_succ, Z.pow_succ_r by lia.
    nia.
Qed.
Lemma decval_inj a : forall b, alldig a = true -> alldig b = true -> length a = length b ->
  decval a = decval b -> a = b.
Proof.
  induction a as [|x a IH]; intros [|y b] Ha Hb Hl He; cbn in Hl; try discriminate; [reflexivity|].
  apply alldig_cons in Ha as [Hx Ha]. apply alldig_cons in Hb as [Hy Hb].
  injection Hl as Hl. rewrite !decval_cons, Hl in He.
  pose proof (decval_bound a Ha) as Ba. pose proof (decval_bound b Hb) as Bb. rewrite Hl in Ba.
  pose proof (digval_range x Hx). pose proof (digval_range y Hy).
  assert (digval x = digval y) as E by nia.
  f_equal; [now apply digval_inj|]. apply IH; auto. rewrite E in He. lia.
Qed.

(** * dec *)
Lemma dec_fuel_spec f : forall n acc, 0 <= n < 2 ^ Z.of_nat f -> (0 < f)%nat ->
  exists w, dec_fuel f n acc = w ++ acc /\ alldig w = true /\ decval w = n /\
            w <> [] /\ (n <> 0 -> exists c w', w = c :: w' /\ digval c <> 0) /\
            (n = 0 -> w = [digc 0]).
Proof.
  induction f as [|f IH]; intros n acc Hn Hf; [lia|].
  cbn [dec_fuel]. destruct (Z.ltb_spec n 10) as [Hlt|Hge].
  - exists [digc n]. split; [reflexivity|]. repeat split.
    + unfold alldig; cbn. rewrite isdig_digc by lia. reflexivity.
    + unfold decval; cbn [fold_left]. rewrite digval_digc by lia. lia.
    + discriminate.
    + intro Hnz. exists (digc n), []. split; [reflexivity|]. rewrite digval_digc by lia. exact Hnz.
    + intros ->. reflexivity.
  - assert (f <> O) as Hf0. { intros ->. cbn in Hn. lia. }
    rewrite Nat2Z.inj_succ, Z.pow_succ_r in Hn by lia.
    destruct (IH (n / 10) (digc (n mod 10) :: acc)) as (w & E & Hd & Hv & Hne & Hnz & Hz); [lia|lia|].
    exists (w ++ [digc (n mod 10)]). repeat split.
    + rewrite E, <- app_assoc. reflexivity.
    + apply alldig_app. split; [exact Hd|]. unfold alldig; cbn. rewrite isdig_digc by lia. reflexivity.
    + rewrite decval_app, Hv. unfold decval; cbn [length fold_left]. rewrite digval_digc by lia. lia.
    + destruct w; discriminate.
    + intros _. destruct Hnz as (c & w' & -> & Hc); [lia|]. exists c, (w' ++ [digc (n mod 10)]). auto.
    + lia.
Qed.

Lemma decn_spec n : 0 <= n ->
  alldig (decn n) = true /\ decval (decn n) = n /\ decn n <> [] /\
  (n <> 0 -> exists c w', decn n = c :: w' /\ digval c <> 0) /\ (n = 0 -> decn n = [digc 0]).
Proof.
  intro Hn. unfold decn.
  destruct (dec_fuel_spec (S (Z.to_nat (Z.log2 n))) n []) as (w & E & H).
  - rewrite Nat2Z.inj_succ, Z2Nat.id by apply Z.log2_nonneg.
    destruct (Z.eq_dec n 0) as [->|Hz]; [cbn; lia|].
    pose proof (Z.log2_spec n). lia.
  - lia.
  - rewrite app_nil_r in E. rewrite E. tauto.
Qed.
Lemma dec_nonneg n : 0 <= n -> dec n = decn n.
Proof. intro H. unfold dec. destruct (Z.ltb_spec n 0); [lia|reflexivity]. Qed.
Lemma dec_alldig n : 0 <= n -> alldig (dec n) = true.
Proof. intro H. rewrite dec_nonneg by assumption. apply decn_spec; assumption. Qed.
Lemma dec_val n : 0 <= n -> decval (dec n) = n.
Proof. intro H. rewrite dec_nonneg by assumption. apply decn_spec; assumption. Qed.
Lemma dec_ne n : 0 <= n -> dec n <> [].
Proof. intro H. rewrite dec_nonneg by assumption. apply decn_spec; assumption. Qed.

(** the canonical numerals are exactly the digit strings without a superfluous leading zero *)
Definition canon (s : str) : bool :=
  match s with
  | [] => false
  | [c] => isdig c
  | c :: _ => alldig s && negb (ceqb c "0")
  end.
Lemma digval_zero c : isdig c = true -> (digval c = 0 <-> c = "0"%char).
Proof.
  intro H. split.
  - intro E. apply digval_inj; auto.
  - intros ->. reflexivity.
Qed.
Lemma dec_head n : 0 < n -> exists c w, dec n = c :: w /\ isdig c = true /\ c <> "0"%char.
Proof.
  intro H. rewrite dec_nonneg by lia. destruct (decn_spec n) as (Hd & _ & _ & Hnz & _); [lia|].
  destruct Hnz as (c & w & E & Hc); [lia|]. exists c, w. rewrite E in Hd.
  apply alldig_cons in Hd as [Hd _]. repeat split; auto. intro Hc0. apply Hc.
  now apply digval_zero.
Qed.
Lemma decval_length_lo c w : isdig c = true -> alldig w = true -> c <> "0"%char ->
  10 ^ Z.of_nat (length w) <= decval (c :: w).
Proof.
  intros Hc Hw Hn. rewrite decval_cons. pose proof (digval_range c Hc).
  assert (digval c <> 0) by (intro E; apply Hn; now apply digval_zero).
  pose proof (decval_bound w Hw). nia.
Qed.
Lemma dec_length n k : 10 ^ Z.of_nat k <= n < 10 ^ Z.of_nat (S k) -> length (dec n) = S k.
Proof.
  intro H. assert (0 < 10 ^ Z.of_nat k) by lia.
  destruct (dec_head n) as (c & w & E & Hc & Hz); [lia|].
  pose proof (dec_alldig n) as Hd. pose proof (dec_val n) as Hv. rewrite E in *.
  specialize (Hd ltac:(lia)). specialize (Hv ltac:(lia)).
  apply alldig_cons in Hd as [_ Hw].
  pose proof (decval_length_lo c w Hc Hw Hz).
  assert (alldig (c :: w) = true) as Ha by (apply alldig_cons; auto).
  pose proof (decval_bound _ Ha) as B. cbn [length] in *. rewrite Hv in *.
  f_equal.
  assert (Z.of_nat (length w) < Z.of_nat (S k)).
  { destruct (Z.lt_ge_cases (Z.of_nat (length w)) (Z.of_nat (S k))) as [L|G]; auto.
    assert (10 ^ Z.of_nat (S k) <= 10 ^ Z.of_nat (length w)) by (apply Z.pow_le_mono_r; lia). lia. }
  assert (Z.of_nat k < Z.of_nat (S (length w))).
  { destruct (Z.lt_ge_cases (Z.of_nat k) (Z.of_nat (S (length w)))) as [L|G]; auto.
    assert (10 ^ Z.of_nat (S (length w)) <= 10 ^ Z.of_nat k) by (apply Z.pow_le_mono_r; lia). lia. }
  lia.
Qed.
Lemma canon_dec s : canon s = true -> s = dec (decval s).
Proof.
  intro H.
  assert (alldig s = true /\ s <> []) as [Hd Hne].
  { destruct s as [|c [|d s]]; cbn in H; [discriminate| |].
    - split; [unfold alldig; cbn; now rewrite H|discriminate].
    - split; [|discriminate]. unfold alldig. cbn. apply andb_prop in H as [H _]. exact H. }
  pose proof (decval_bound s Hd) as B.
  destruct (Z.eq_dec (decval s) 0) as [E|E].
  - destruct s as [|c [|d s]]; [contradiction| |].
    + cbn in H. rewrite E. assert (c = "0"%char) as ->; [|reflexivity].
      apply digval_zero; auto.
    + exfalso. apply alldig_cons in Hd as [Hc Hd]. cbn in H. apply andb_prop in H as [_ H].
      apply negb_true_iff, ceqb_neq in H.
      pose proof (decval_length_lo c (d :: s) Hc Hd H).
      assert (0 < 10 ^ Z.of_nat (length (d :: s))) by (apply Z.pow_pos_nonneg; lia). lia.
  - apply decval_inj; [assumption|apply dec_alldig; lia| |now rewrite dec_val by lia].
    destruct s as [|c w]; [contradiction|]. symmetry. cbn [length].
    assert (c <> "0"%char) as Hz.
    { destruct w as [|d w].
      - intros ->. apply E. reflexivity.
      - cbn in H. apply andb_prop in H as [_ H]. now apply negb_true_iff, ceqb_neq in H. }
    apply alldig_cons in Hd as [Hc Hw]. apply dec_length. split.
    + now apply decval_length_lo.
    + apply B.
Qed.
Lemma dec_inj a b : 0 <= a -> 0 <= b -> dec a = dec b -> a = b.
Proof. intros Ha Hb E. rewrite <- (dec_val a Ha), <- (dec_val b Hb). congruence. Qed.
Lemma dec_canon n : 0 <= n -> canon (dec n) = true.
Proof.
  intro H. pose proof (dec_alldig n H) as Hd. destruct (Z.eq_dec n 0) as [->|Hn].
  - reflexivity.
  - destruct (dec_head n) as (c & w & E & Hc & Hz); [lia|]. rewrite E in *.
    destruct w as [|d w]; cbn; [exact Hc|]. unfold alldig in Hd. cbn in Hd. rewrite Hd. cbn.
    apply negb_true_iff, ceqb_neq. exact Hz.
Qed.

(** dropping the leading 1 of n + 10^k leaves the k-digit, zero-padded numeral of n *)
Lemma pad_digits k n : 0 <= n < 10 ^ Z.of_nat k ->
  exists w, dec (n + 10 ^ Z.of_nat k) = "1"%char :: w /\ length w = k /\ alldig w = true /\ decval w = n.
Proof.
  intro H. set (b := 10 ^ Z.of_nat k) in *. assert (0 < b) by (unfold b; apply Z.pow_pos_nonneg; lia).
  assert (length (dec (n + b)) = S k) as Hl.
  { apply dec_length. fold b. rewrite Nat2Z.inj_succ, Z.pow_succ_r by lia. fold b. lia. }
  pose proof (dec_alldig (n + b) ltac:(lia)) as Hd. pose proof (dec_val (n + b) ltac:(lia)) as Hv.
  destruct (dec (n + b)) as [|c w] eqn:E; [discriminate|].
  apply alldig_cons in Hd as [Hc Hw]. cbn in Hl. injection Hl as Hl.
  rewrite decval_cons, Hl in Hv. fold b in Hv.
  pose proof (decval_bound w Hw) as B. rewrite Hl in B. fold b in B.
  pose proof (digval_range c Hc).
  assert (digval c = 1) as E1 by nia.
  exists w. repeat split; auto; try lia.
  f_equal. apply digval_inj; auto.
Qed.

(** * strip *)
Lemma lstrip_nospace c s : pyspace c = false -> lstrip (c :: s) = c :: s.
Proof. intro H. cbn. now rewrite H. Qed.
Lemma lstrip_nil_iff s : lstrip s = [] <-> forallb pyspace s = true.
Proof.
  induction s as [|c s IH]; cbn; [tauto|].
  destruct (pyspace c); cbn; [exact IH|]. split; discriminate.
Qed.
Lemma lstrip_app a b : forallb pyspace a = true -> lstrip (a ++ b) = lstrip b.
Proof.
  induction a as [|c a IH]; cbn; intro H; [reflexivity|].
  apply andb_prop in H as [H1 H2]. rewrite H1. auto.
Qed.
Lemma forallb_rev {A} (p : A -> bool) l : forallb p (rev l) = forallb p l.
Proof.
  induction l as [|x l IH]; cbn; [reflexivity|]. rewrite forallb_app, IH. cbn.
  destruct (p x); cbn; now rewrite ?andb_true_r, ?andb_false_r.
Qed.
Lemma rstrip_app a b : forallb pyspace b = true -> rstrip (a ++ b) = rstrip a.
Proof.
  intro H. unfold rstrip. rewrite rev_app_distr, lstrip_app; [reflexivity|].
  now rewrite forallb_rev.
Qed.
Lemma lstrip_suffix s : exists a, s = a ++ lstrip s /\ forallb pyspace a = true.
Proof.
  induction s as [|c s (a & E & H)].
  - exists []. split; reflexivity.
  - cbn. destruct (pyspace c) eqn:P.
    + exists (c :: a). cbn. rewrite P, H. split; [f_equal; exact E|reflexivity].
    + exists []. split; reflexivity.
Qed.
Lemma lstrip_head s : match lstrip s with [] => True | c :: _ => pyspace c = false end.
Proof.
  induction s as [|c s IH]; cbn; [trivial|]. destruct (pyspace c) eqn:P; [exact IH|exact P].
Qed.
Lemma rstrip_prefix s : exists b, s = rstrip s ++ b /\ forallb pyspace b = true.
Proof.
  unfold rstrip. destruct (lstrip_suffix (rev s)) as (a & E & H).
  exists (rev a). rewrite forallb_rev. split; [|exact H].
  rewrite <- rev_app_distr, <- E. now rewrite rev_involutive.
Qed.

(** a string that strip leaves alone: empty, or neither end is white space *)
Definition lastc (s : str) : option ascii := match rev s with [] => None | c :: _ => Some c end.
Definition trimmed (s : str) : bool :=
  match s with
  | [] => true
  | c :: _ => negb (pyspace c) && match lastc s with Some d => negb (pyspace d) | None => true end
  end.
Lemma lstrip_trimmed s : trimmed s = true -> lstrip s = s.
Proof. destruct s as [|c s]; cbn; [reflexivity|]. destruct (pyspace c); cbn; [discriminate|reflexivity]. Qed.
Lemma rstrip_trimmed s : trimmed s = true -> rstrip s = s.
Proof.
  intro H. unfold rstrip. destruct s as [|c s]; [reflexivity|].
  unfold trimmed in H. apply andb_prop in H as [_ H]. unfold lastc in H.
  destruct (rev (c :: s)) as [|d t] eqn:E.
  - apply (f_equal (@length _)) in E. rewrite rev_length in E. discriminate.
  - apply negb_true_iff in H. cbn [lstrip]. rewrite H, <- E, rev_involutive. reflexivity.
Qed.
Lemma strip_trimmed s : trimmed s = true -> strip s = s.
Proof. intro H. unfold strip. rewrite lstrip_trimmed by exact H. now apply rstrip_trimmed. Qed.
Lemma strip_pad a s b : forallb pyspace a = true -> forallb pyspace b = true -> trimmed s = true ->
  strip (a ++ s ++ b) = s.
Proof.
  intros Ha Hb Hs. unfold strip. rewrite lstrip_app by exact Ha.
  destruct s as [|c s].
  - cbn [app]. apply lstrip_nil_iff in Hb. rewrite Hb. reflexivity.
  - assert (pyspace c = false) as Hc by (cbn in Hs; destruct (pyspace c); [discriminate|reflexivity]).
    cbn [app]. rewrite lstrip_nospace by exact Hc.
    change (c :: s ++ b) with ((c :: s) ++ b). rewrite rstrip_app by exact Hb. now apply rstrip_trimmed.
Qed.
Lemma strip_is_trimmed s : trimmed (strip s) = true.
Proof.
  unfold strip. destruct (lstrip_suffix s) as (a & _ & _).
  pose proof (lstrip_head s) as Hh. set (t := lstrip s) in *.
  destruct (rstrip_prefix t) as (b & E & Hb).
  destruct (rstrip t) as [|c r] eqn:Er; [reflexivity|].
  rewrite E in Hh. cbn in Hh. cbn. rewrite Hh. cbn.
  unfold lastc. unfold rstrip in Er.
  pose proof (lstrip_head (rev t)) as Hl.
  apply (f_equal (@rev _)) in Er. rewrite rev_involutive in Er. rewrite Er in Hl.
  destruct (rev (c :: r)); [reflexivity|]. now rewrite Hl.
Qed.
Lemma strip_idem s : strip (strip s) = strip s.
Proof. apply strip_trimmed, strip_is_trimmed. Qed.
Lemma strip_decomp s : exists a b, s = a ++ strip s ++ b /\ forallb pyspace a = true /\ forallb pyspace b = true.
Proof.
  destruct (lstrip_suffix s) as (a & E & Ha). destruct (rstrip_prefix (lstrip s)) as (b & E2 & Hb).
  exists a, b. unfold strip. rewrite <- E2. auto.
Qed.
Lemma nospace_trimmed s : forallb (fun c => negb (pyspace c)) s = true -> trimmed s = true.
Proof.
  intro H. destruct s as [|c s]; [reflexivity|]. cbn in H |- *. apply andb_prop in H as [H1 H2].
  rewrite H1. cbn. unfold lastc. destruct (rev (c :: s)) as [|d t] eqn:E; [reflexivity|].
  assert (In d (c :: s)) as Hi by (apply in_rev; rewrite E; now left).
  destruct Hi as [<-|Hi]; [exact H1|]. rewrite forallb_forall in H2. now apply H2.
Qed.

Lemma isdig_nospace c : isdig c = true -> pyspace c = false.
Proof. apply implf_ascii. vm_compute. reflexivity. Qed.

(** * int() on digit strings *)
Lemma int_digits_alldig s : forall a b, alldig s = true -> (s <> [] \/ b = true) ->
  int_digits s a b = Some (fold_left (fun a c => 10 * a + digval c) s a).
Proof.
  induction s as [|c s IH]; intros a b Hd Hn; cbn.
  - destruct Hn as [Hn| ->]; [contradiction|reflexivity].
  - apply alldig_cons in Hd as [Hc Hd]. rewrite Hc. apply IH; auto.
Qed.
Lemma isdig_nosign c : isdig c = true -> ceqb c "+" = false /\ ceqb c "-" = false.
Proof. intro H. split; revert c H; apply implf_ascii; vm_compute; reflexivity. Qed.
Lemma pyint_digits s : alldig s = true -> s <> [] -> pyint s = Some (decval s).
Proof.
  intros Hd Hn. unfold pyint. rewrite strip_trimmed.
  - destruct s as [|c s]; [contradiction|]. pose proof Hd as Hd'. apply alldig_cons in Hd' as [Hc _].
    destruct (isdig_nosign c Hc) as [-> ->]. apply int_digits_alldig; auto.
  - apply nospace_trimmed. unfold alldig in Hd. rewrite forallb_forall in *. intros x Hx.
    apply negb_true_iff, isdig_nospace, Hd, Hx.
Qed.
Lemma py_int_digits s : alldig s = true -> s <> [] -> py_int s = Ok (decval s).
Proof. intros. unfold py_int. now rewrite pyint_digits. Qed.
Lemma py_int_dec n : 0 <= n -> py_int (dec n) = Ok n.
Proof. intro H. rewrite py_int_digits by (try apply dec_alldig; try apply dec_ne; lia). now rewrite dec_val. Qed.

(** * cfind *)
Lemma cfind_some c s n : cfind c s = Some n -> nth_error s n = Some c.
Proof.
  revert n. induction s as [|x s IH]; intros n H; cbn in H; [discriminate|].
  destruct (ceqb x c) eqn:E.
  - injection H as <-. apply ceqb_eq in E. subst. reflexivity.
  - destruct (cfind c s) eqn:F; [|discriminate]. injection H as <-. cbn. now apply IH.
Qed.
Lemma cfind_none c s : cfind c s = None <-> ~ In c s.
Proof.
  induction s as [|x s IH]; cbn; [tauto|].
  destruct (ceqb x c) eqn:E.
  - apply ceqb_eq in E. split; [discriminate|]. intro H. exfalso. apply H. auto.
  - apply ceqb_neq in E. destruct (cfind c s); split; try discriminate; try tauto.
    + intro H. exfalso. destruct IH as [_ IH].
      assert (Some n = None) as X; [apply IH; tauto|discriminate X].
Qed.
Lemma cfind_nodup c s n : NoDup s -> nth_error s n = Some c -> cfind c s = Some n.
Proof.
  revert n. induction s as [|x s IH]; intros n Hd Hn; [destruct n; discriminate|].
  inversion Hd as [|? ? Hx Hs]; subst. destruct n as [|n]; cbn in *.
  - injection Hn as <-. now rewrite ceqb_refl.
  - destruct (ceqb x c) eqn:E.
    + apply ceqb_eq in E. subst. exfalso. apply Hx. eapply nth_error_In; eauto.
    + now rewrite (IH n Hs Hn).
Qed.
Lemma cmem_in c s : cmem c s = true <-> In c s.
Proof.
  unfold cmem. destruct (cfind c s) eqn:E.
  - split; [|reflexivity]. intros _. apply cfind_some in E. eapply nth_error_In; eauto.
  - split; [discriminate|]. intro H. apply cfind_none in E. contradiction.
Qed.

Lemma spaces_length n : length (spaces n) = n.
Proof. apply repeat_length. Qed.
Lemma spaces_space n : forallb pyspace (spaces n) = true.
Proof. induction n; cbn; auto. Qed.
