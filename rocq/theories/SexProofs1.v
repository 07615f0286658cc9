(** Numerals and decimal texts. *)
From Verif Require Import PyStrProofs PyFloat PyFloatProofs SexVals SexSpec.
From Coq Require Import Lqa.
Open Scope Z_scope.

Lemma p10_pos k : 0 < 10 ^ Z.of_nat k.
Proof. apply Z.pow_pos_nonneg; lia. Qed.
Lemma dec_le_length k n : 0 <= n < 10 ^ Z.of_nat k -> (1 <= k)%nat -> (length (dec n) <= k)%nat.
Proof.
  intros H K. destruct (Z.eq_dec n 0) as [->|N]; [change (length (dec 0)) with 1%nat; lia|].
  destruct (dec_head n) as (c & w & E & Hc & Hz); [lia|].
  pose proof (dec_alldig n ltac:(lia)) as Hd. pose proof (dec_val n ltac:(lia)) as Hv. rewrite E in *.
  apply alldig_cons in Hd as [_ Hw]. pose proof (decval_length_lo c w Hc Hw Hz). cbn [length].
  destruct (Nat.le_gt_cases (S (length w)) k) as [L|G]; auto.
  assert (10 ^ Z.of_nat k <= 10 ^ Z.of_nat (length w)) by (apply Z.pow_le_mono_r; lia). lia.
Qed.
Lemma alldig_zeros n : alldig (repeat "0"%char n) = true.
Proof. induction n; auto. Qed.
Lemma decval_zeros n : decval (repeat "0"%char n) = 0.
Proof. induction n; [reflexivity|]. cbn [repeat]. rewrite decval_cons, IHn. reflexivity. Qed.
Lemma num_spec w n : (1 <= w)%nat -> 0 <= n < 10 ^ Z.of_nat w -> length (num w n) = w /\ alldig (num w n) = true /\ decval (num w n) = n.
Proof.
  intros W H. unfold num, zfill. pose proof (dec_le_length w n H W). repeat split.
  - rewrite app_length, repeat_length. lia.
  - apply alldig_app. split; [apply alldig_zeros|apply dec_alldig; lia].
  - rewrite decval_app, decval_zeros, dec_val by lia. lia.
Qed.
Lemma num_uniq w s : (1 <= w)%nat -> alldig s = true -> length s = w -> s = num w (decval s).
Proof.
  intros W A L. pose proof (decval_bound s A) as B. rewrite L in B. destruct (num_spec w (decval s) W B) as (L' & A' & V').
  apply decval_inj; auto; congruence.
Qed.
Lemma num_inj w a b : (1 <= w)%nat -> 0 <= a < 10 ^ Z.of_nat w -> 0 <= b < 10 ^ Z.of_nat w -> num w a = num w b -> a = b.
Proof. intros W A B E. destruct (num_spec w a W A) as (_ & _ & Va), (num_spec w b W B) as (_ & _ & Vb). congruence. Qed.
Lemma num_dec w n : 10 ^ Z.of_nat w <= n < 10 ^ Z.of_nat (S w) -> num (S w) n = dec n.
Proof. intros H. unfold num, zfill. rewrite (dec_length n w H), Nat.sub_diag. reflexivity. Qed.

(** two digits after the leading 1 *)
Lemma tl_hundred n : 0 <= n < 100 -> tl (dec (100 + n)) = num 2 n.
Proof.
  intros H. destruct (pad_digits 2 n) as (w & E & L & A & V); [cbn; lia|]. change (10 ^ Z.of_nat 2) with 100 in E.
  rewrite Z.add_comm, E. cbn [tl]. rewrite <- V. apply num_uniq; auto.
Qed.

Lemma fmtf_pos n f V : fneg f = false -> rheQ (fmag f * inject_Z (10 ^ Z.of_nat n)) = V ->
  fmtf n f = dec (V / 10 ^ Z.of_nat n) ++ match n with O => [] | _ => $"." ++ num n (V mod 10 ^ Z.of_nat n) end.
Proof. intros Hn HV. unfold fmtf. rewrite Hn, HV. reflexivity. Qed.
Lemma fmtf_dec n f V : (1 <= n)%nat -> rheQ (fmag f * inject_Z (10 ^ Z.of_nat n)) = V -> fmtf n f = decimal_text (fneg f) n V.
Proof. intros Hn HV. unfold fmtf, decimal_text. rewrite HV. destruct n; [lia|]. reflexivity. Qed.
Lemma tl_app {A} (a b : list A) : a <> [] -> tl (a ++ b) = tl a ++ b.
Proof. destruct a; [congruence|reflexivity]. Qed.
Lemma tl_fixed n f N : fneg f = false -> 0 <= N < 100 * 10 ^ Z.of_nat n ->
  rheQ (fmag f * inject_Z (10 ^ Z.of_nat n)) = 100 * 10 ^ Z.of_nat n + N -> tl (fmtf n f) = fixed n N.
Proof.
  intros Hn HN HV. pose proof (p10_pos n) as P. rewrite (fmtf_pos n f _ Hn HV). unfold fixed.
  assert (D : (100 * 10 ^ Z.of_nat n + N) / 10 ^ Z.of_nat n = 100 + N / 10 ^ Z.of_nat n) by (rewrite Z.add_comm, Z.div_add by lia; lia).
  assert (M : (100 * 10 ^ Z.of_nat n + N) mod 10 ^ Z.of_nat n = N mod 10 ^ Z.of_nat n) by (rewrite Z.add_comm, Z.mod_add by lia; reflexivity).
  rewrite D, M. assert (0 <= N / 10 ^ Z.of_nat n < 100). { split; [apply Z.div_pos; lia|]. apply Z.div_lt_upper_bound; lia. }
  rewrite tl_app by (apply dec_ne; lia). now rewrite tl_hundred.
Qed.

(** * reading a decimal text *)
Lemma take_digits_app a b : alldig a = true -> (match b with c :: _ => isdig c = false | [] => True end) -> take_digits (a ++ b) = (a, b).
Proof.
  induction a as [|c a IH]; intros A B; cbn [app].
  - destruct b as [|c b]; auto. cbn [take_digits]. now rewrite B.
  - apply alldig_cons in A as [C A]. cbn [take_digits]. now rewrite C, IH.
Qed.
Lemma float_mag_dec a b : alldig a = true -> alldig b = true -> a <> [] -> b <> [] ->
  float_mag (a ++ "."%char :: b) = Some (decimal (decval (a ++ b)) (- Z.of_nat (length b))).
Proof.
  intros A B Na Nb. unfold float_mag. rewrite take_digits_app; auto. rewrite ceqb_refl.
  rewrite <- (app_nil_r b) at 1. rewrite take_digits_app; auto. destruct a; [congruence|]. cbn [app float_exp]. reflexivity.
Qed.
Lemma decimal_neg m k : (0 < k)%nat -> (decimal m (- Z.of_nat k) == inject_Z m / inject_Z (10 ^ Z.of_nat k))%Q.
Proof.
  intros K. unfold decimal. destruct (Z.leb_spec 0 (- Z.of_nat k)); [lia|]. rewrite Z.opp_involutive.
  rewrite Qmake_Qdiv, Z2Pos.id by apply p10_pos. reflexivity.
Qed.
Lemma alldig_trimmed s t : s <> [] -> t <> [] -> alldig s = true -> alldig t = true -> trimmed (s ++ $"." ++ t) = true.
Proof.
  intros Ns Nt A B. apply nospace_trimmed. rewrite !forallb_app.
  assert (H : forall l, alldig l = true -> forallb (fun c => negb (pyspace c)) l = true).
  { intros l L. apply forallb_forall. intros c I. unfold alldig in L. rewrite forallb_forall in L. now rewrite (isdig_nospace c (L c I)). }
  rewrite (H s A), (H t B). reflexivity.
Qed.
Lemma pyfloat_dec neg d V : (1 <= d)%nat -> 0 <= V -> exists q, pyfloat (decimal_text neg d V) = Ok (F neg (rnd q)) /\
  (q == inject_Z V / inject_Z (10 ^ Z.of_nat d))%Q.
Proof.
  intros Hd HV. pose proof (p10_pos d) as P. set (a := V / 10 ^ Z.of_nat d). set (b := V mod 10 ^ Z.of_nat d).
  assert (Ha : 0 <= a) by (apply Z.div_pos; lia). assert (Hb : 0 <= b < 10 ^ Z.of_nat d) by (apply Z.mod_pos_bound; lia).
  destruct (num_spec d b Hd Hb) as (Lb & Ab & Vb).
  pose proof (dec_alldig a Ha) as Aa. pose proof (dec_ne a Ha) as Na. pose proof (dec_val a Ha) as Va.
  assert (Nb : num d b <> []) by (intros E; rewrite E in Lb; cbn in Lb; lia).
  unfold pyfloat. set (u := dec a ++ $"." ++ num d b).
  assert (Tr : trimmed u = true) by now apply alldig_trimmed.
  assert (E : strip (decimal_text neg d V) = decimal_text neg d V).
  { apply strip_trimmed. unfold decimal_text. fold a b. fold u. destruct neg; [|exact Tr].
    apply nospace_trimmed. cbn [app forallb]. unfold u.
    assert (H : forall l, alldig l = true -> forallb (fun c => negb (pyspace c)) l = true).
    { intros l L. apply forallb_forall. intros c I. unfold alldig in L. rewrite forallb_forall in L. now rewrite (isdig_nospace c (L c I)). }
    change ($"-" ++ dec a ++ $"." ++ num d b) with ("-"%char :: dec a ++ $"." ++ num d b). cbn [forallb].
    rewrite !forallb_app, (H _ Aa), (H _ Ab). reflexivity. }
  rewrite E. exists (decimal (decval (dec a ++ num d b)) (- Z.of_nat (length (num d b)))). split.
  - unfold decimal_text. fold a b. fold u.
    assert (M : float_mag u = Some (decimal (decval (dec a ++ num d b)) (- Z.of_nat (length (num d b))))) by now apply float_mag_dec.
    destruct neg.
    + change ($"-" ++ u) with ("-"%char :: u). cbn [ceqb]. rewrite ceqb_refl, M. reflexivity.
    + change ([] ++ u) with u. destruct u as [|c r] eqn:Eu; [now rewrite <- Eu in M; destruct (dec a)|].
      assert (C : isdig c = true). { unfold u in Eu. destruct (dec a) as [|x l]; [congruence|]. cbn in Eu. injection Eu as <- _. now apply alldig_cons in Aa. }
      destruct (isdig_nosign c C) as [-> ->]. rewrite M. reflexivity.
  - rewrite Lb, decimal_neg by lia. rewrite decval_app, Va, Vb, Lb. unfold a, b. 
    rewrite (Z.div_mod V (10 ^ Z.of_nat d)) at 3 by lia. now rewrite (Z.mul_comm (10 ^ Z.of_nat d)).
Qed.
