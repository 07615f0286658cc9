(** Dates: fractions of a day, and the texts. *)
From Verif Require Import PyStrProofs PyReInv PackProofs2 PsvLines RoundProofs1 PyFloat PyFloatProofs SexVals SexSpec SexProofs1 SexProofs2 SexProofs3 SexProofs4 SexProofs5 SexProofs6 SexProofs7 SexProofs12.
From Coq Require Import Lqa.
Open Scope Z_scope.

Definition day_fl (q micro : Z) : fl :=
  fadd (fdiv (of_Z q) (of_Z 86400)) (fdiv (fdiv (of_Z micro) (of_Z 86400)) (of_Z 1000000)).
Lemma day_near q micro : 0 <= q < 86400 -> 0 <= micro < 1000000 ->
  exists y, isp (day_fl q micro) y /\ near e14 y ((inject_Z q * 1000000 + inject_Z micro) * (1 # 86400000000)).
Proof.
  intros Q M. assert (Q0 : (0 <= inject_Z q)%Q) by (apply (injZ_le 0); lia). assert (M0 : (0 <= inject_Z micro)%Q) by (apply (injZ_le 0); lia).
  pose proof (isp_div _ _ _ _ (isp_Z q ltac:(lia)) (isp_Z 86400 ltac:(lia))) as A.
  pose proof (isp_div _ _ _ _ (isp_div _ _ _ _ (isp_Z micro ltac:(lia)) (isp_Z 86400 ltac:(lia))) (isp_Z 1000000 ltac:(lia))) as B.
  pose proof (isp_add _ _ _ _ A B (rnd_nonneg _) (rnd_nonneg _)) as C. eexists. split; [exact C|].
  change (inject_Z 86400) with 86400%Q in *. change (inject_Z 1000000) with 1000000%Q in *. unfold Qdiv.
  change (/ 86400)%Q with (1 # 86400)%Q. change (/ 1000000)%Q with (1 # 1000000)%Q.
  set (a := inject_Z q) in *. set (b := inject_Z micro) in *. clearbody a b. clear A B C.
  pose proof (near_rnd (a * (1 # 86400)) ltac:(lra)) as N1. set (x := rnd (a * (1 # 86400))) in *.
  pose proof (near_rnd (b * (1 # 86400)) ltac:(lra)) as N2. pose proof (rnd_nonneg (b * (1 # 86400))) as P2. set (y := rnd (b * (1 # 86400))) in *.
  pose proof (near_rnd (y * (1 # 1000000)) ltac:(lra)) as N3. pose proof (rnd_nonneg (y * (1 # 1000000))) as P3. set (z := rnd (y * (1 # 1000000))) in *.
  pose proof (rnd_nonneg (a * (1 # 86400))) as P1. fold x in P1. clearbody x y z.
  pose proof (near_rnd (x + z) ltac:(lra)) as N4. set (w := rnd (x + z)) in *. clearbody w.
  nears. split; lra.
Qed.
Lemma day_digits q micro k V : 0 <= q < 86400 -> 0 <= micro < 1000000 -> (1 <= k <= 6)%nat ->
  1000 * Z.abs ((q * 1000000 + micro) * 10 ^ Z.of_nat k - V * 86400000000) <= 499 * 86400000000 -> 0 <= V < 10 ^ Z.of_nat k ->
  fmtf k (day_fl q micro) = $"0." ++ num k V.
Proof.
  intros Q M K H HV. destruct (day_near q micro Q M) as (y & [I1 I2] & N).
  assert (U : 0 <= q * 1000000 + micro < 86400000000) by lia. set (W := q * 1000000 + micro) in *.
  assert (EW : (inject_Z q * 1000000 + inject_Z micro == inject_Z W)%Q) by (unfold W; rewrite inject_Z_plus, inject_Z_mult; reflexivity).
  pose proof (p10_pos k) as P. assert (P6 : 10 ^ Z.of_nat k <= 1000000) by (change 1000000 with (10 ^ 6); apply Z.pow_le_mono_r; lia).
  rewrite (fmtf_pos k _ V I1).
  { destruct k as [|k]; [lia|]. rewrite Z.div_small, Z.mod_small by lia. reflexivity. }
  apply rheQ_uniq. rewrite I2. set (T := 10 ^ Z.of_nat k) in *. clearbody T W.
  assert (H1 : 1000 * (W * T) <= 1000 * (V * 86400000000) + 499 * 86400000000 /\ 1000 * (V * 86400000000) - 499 * 86400000000 <= 1000 * (W * T)) by lia.
  destruct H1 as [H1 H2]. apply injZ_le in H1, H2. unfold Z.sub in H2. rewrite ?inject_Z_plus, ?inject_Z_mult in *.
  change (inject_Z 1000) with 1000%Q in *. change (inject_Z 499) with 499%Q in *. change (inject_Z 86400000000) with 86400000000%Q in *.
  replace (inject_Z (- (499 * 86400000000))) with (- (499 * 86400000000))%Q in H2 by reflexivity.
  assert (WT : (0 <= inject_Z W * inject_Z T <= 86400000000 * 1000000)%Q).
  { split.
    - rewrite <- inject_Z_mult. apply (injZ_le 0). nia.
    - rewrite <- inject_Z_mult. apply (injZ_le _ (86400000000 * 1000000)). nia. }
  assert (T0 : (0 <= inject_Z T)%Q) by (apply (injZ_le 0); lia).
  nears. rewrite EW in N. destruct N as [N1 N2].
  assert (N1' := Qmult_le_compat_r _ _ _ N1 T0). assert (N2' := Qmult_le_compat_r _ _ _ N2 T0). clear N1 N2 EW.
  set (yt := (y * inject_Z T)%Q) in *.
  setoid_replace (inject_Z W * (1 # 86400000000) * (1 - (1 # 100000000000000)) * inject_Z T)%Q with (inject_Z W * inject_Z T * ((1 # 86400000000) * (1 - (1 # 100000000000000))))%Q in N1' by ring.
  setoid_replace (inject_Z W * (1 # 86400000000) * (1 + (1 # 100000000000000)) * inject_Z T)%Q with (inject_Z W * inject_Z T * ((1 # 86400000000) * (1 + (1 # 100000000000000))))%Q in N2' by ring.
  set (wt := (inject_Z W * inject_Z T)%Q) in *. clearbody yt wt. set (v := inject_Z V) in *. clearbody v. split; lra.
Qed.

Lemma num_alldig k N : (1 <= k)%nat -> 0 <= N < 10 ^ Z.of_nat k -> alldig (num k N) = true.
Proof. intros K H. apply (num_spec k N K H). Qed.
Lemma alldig_notin c s : isdig c = false -> alldig s = true -> ~ In c s.
Proof. intros C A I. unfold alldig in A. rewrite forallb_forall in A. specialize (A c I). congruence. Qed.
Lemma split_frac k N : (1 <= k)%nat -> 0 <= N < 10 ^ Z.of_nat k -> splitc "." ($"0." ++ num k N) = [$"0"; num k N].
Proof.
  intros K H. change ($"0." ++ num k N) with ($"0" ++ "."%char :: num k N).
  assert (~ In "."%char (num k N)) by (apply alldig_notin; [reflexivity|now apply num_alldig]).
  rewrite splitc_cons by (intros [E|[]]; discriminate). now rewrite splitc_one.
Qed.
Lemma prec_log k : (1 <= k <= 6)%nat -> Qle_bool (fval (prec_fl (PInt (10 ^ (6 - Z.of_nat k))))) 0 = false /\
  int_log10 (fmag (prec_fl (PInt (10 ^ (6 - Z.of_nat k))))) = 6 - Z.of_nat k /\ fltb (prec_fl (PInt (10 ^ (6 - Z.of_nat k)))) (of_Z 1) = false.
Proof. intros H. nat_upto k; try lia; repeat split; vm_compute; reflexivity. Qed.
Lemma iso_back iso y m d q micro k V : (1 <= k <= 6)%nat -> 0 <= q < 86400 -> 0 <= micro < 1000000 ->
  1000 * Z.abs ((q * 1000000 + micro) * 10 ^ Z.of_nat k - V * 86400000000) <= 499 * 86400000000 -> 0 <= V < 10 ^ Z.of_nat k ->
  match strptime re_isof iso with Err _ => strptime re_iso iso | x => x end = Ok ({| d_y := y; d_m := m; d_d := d |}, q * 1000000 + micro) ->
  isoToSexDate iso (prec_fl (PInt (10 ^ (6 - Z.of_nat k)))) = Ok (date_text y m d k V).
Proof.
  intros K Q M H HV E. unfold isoToSexDate. rewrite E. cbn [rbind]. destruct (prec_log k K) as (-> & -> & _).
  rewrite Z.div_add_l, Z.div_small, Z.add_0_r by lia.
  replace ((q * 1000000 + micro) mod 1000000) with micro by (rewrite Z.add_comm, Z.mod_add, Z.mod_small by lia; reflexivity).
  replace (6 - (6 - Z.of_nat k)) with (Z.of_nat k) by lia. destruct (Z.leb_spec (Z.of_nat k) 0); [lia|]. rewrite Nat2Z.id.
  fold (day_fl q micro). rewrite (day_digits q micro k V Q M K H HV), split_frac by lia.
  unfold date_text, sex_text, d2, num. cbn [d_y d_m d_d]. rewrite <- !app_assoc. reflexivity.
Qed.

(** * the regular expressions *)

Definition k19 : cls := Cl false [("1", "9")]%char.
Definition k29 : cls := Cl false [("2", "9")]%char.
Definition k12 : cls := Cl false [("1", "1"); ("2", "2")]%char.
Definition k01 : cls := Cl false [("0", "1")]%char.
Definition k03 : cls := Cl false [("0", "3")]%char.
Definition k05 : cls := Cl false [("0", "5")]%char.
(** shapes of the fields, as lists of pieces *)
Definition shapes := list (list piece).
Definition is_shape (s : str) (ps : list piece) : Prop := s = flat ps /\ Forall conf ps.
Lemma upto_all (P : Z -> bool) a n k : forallb P (map (Z.add a) (upto n)) = true -> a <= k < a + Z.of_nat n -> P k = true.
Proof.
  intros F H. rewrite forallb_forall in F. apply F. apply in_map_iff. exists (k - a). split; [lia|]. apply in_upto. lia.
Qed.
Definition year_b (y : Z) : bool :=
  match dec y with
  | [a; b; c; e] => isdig b && isdig c && isdig e && (incls k29 a || ceqb a "1" && (ceqb b "6" || ceqb b "7" || ceqb b "8" || ceqb b "9"))
  | _ => false
  end.
Lemma year_shape y : 1600 <= y <= 9999 -> exists a b c e, dec y = [a; b; c; e] /\ isdig b = true /\ isdig c = true /\ isdig e = true /\
  (incls k29 a = true \/ a = "1"%char /\ (b = "6"%char \/ b = "7"%char \/ b = "8"%char \/ b = "9"%char)).
Proof.
  intros H. assert (B : year_b y = true). { apply (upto_all year_b 1600 (Z.to_nat 8400) y); [vm_compute; reflexivity|lia]. }
  unfold year_b in B. destruct (dec y) as [|a [|b [|c [|e [|]]]]]; try discriminate. exists a, b, c, e. split; [reflexivity|].
  apply andb_prop in B as [B B4]. apply andb_prop in B as [B B3]. apply andb_prop in B as [B1 B2]. repeat split; auto.
  apply orb_prop in B4 as [B4|B4]; [now left|right]. apply andb_prop in B4 as [B4 B5]. apply ceqb_eq in B4. split; [exact B4|].
  apply orb_prop in B5 as [B5|B5]; [|apply ceqb_eq in B5; tauto]. apply orb_prop in B5 as [B5|B5]; [|apply ceqb_eq in B5; tauto].
  apply orb_prop in B5 as [B5|B5]; apply ceqb_eq in B5; tauto.
Qed.
Definition month_b (m : Z) : bool :=
  match num 2 m with [a; b] => ceqb a "0" && incls k19 b || ceqb a "1" && (ceqb b "0" || ceqb b "1" || ceqb b "2") | _ => false end.
Lemma month_shape m : 1 <= m <= 12 -> exists a b, num 2 m = [a; b] /\
  (a = "0"%char /\ incls k19 b = true \/ a = "1"%char /\ (b = "0"%char \/ b = "1"%char \/ b = "2"%char)).
Proof.
  intros H. assert (B : month_b m = true). { apply (upto_all month_b 1 12 m); [vm_compute; reflexivity|lia]. }
  unfold month_b in B. destruct (num 2 m) as [|a [|b [|]]]; try discriminate. exists a, b. split; [reflexivity|].
  apply orb_prop in B as [B|B]; apply andb_prop in B as [B B5]; apply ceqb_eq in B; [now left|right]. split; [exact B|].
  apply orb_prop in B5 as [B5|B5]; [|apply ceqb_eq in B5; tauto]. apply orb_prop in B5 as [B5|B5]; apply ceqb_eq in B5; tauto.
Qed.
Definition day_b (m : Z) : bool :=
  match num 2 m with [a; b] => ceqb a "0" && incls k19 b || incls k12 a && isdig b || ceqb a "3" && (ceqb b "0" || ceqb b "1") | _ => false end.
Lemma day_shape m : 1 <= m <= 31 -> exists a b, num 2 m = [a; b] /\
  (a = "0"%char /\ incls k19 b = true \/ incls k12 a = true /\ isdig b = true \/ a = "3"%char /\ b = "0"%char \/ a = "3"%char /\ b = "1"%char).
Proof.
  intros H. assert (B : day_b m = true). { apply (upto_all day_b 1 31 m); [vm_compute; reflexivity|lia]. }
  unfold day_b in B. destruct (num 2 m) as [|a [|b [|]]]; try discriminate. exists a, b. split; [reflexivity|].
  apply orb_prop in B as [B|B]; [apply orb_prop in B as [B|B]|]; apply andb_prop in B as [B B5]; try apply ceqb_eq in B; [now left|tauto|].
  apply orb_prop in B5 as [B5|B5]; apply ceqb_eq in B5; tauto.
Qed.
Definition hour_b (m : Z) : bool :=
  match num 2 m with [a; b] => incls k01 a && isdig b || ceqb a "2" && incls k03 b | _ => false end.
Lemma hour_shape m : 0 <= m < 24 -> exists a b, num 2 m = [a; b] /\ (incls k01 a = true /\ isdig b = true \/ a = "2"%char /\ incls k03 b = true).
Proof.
  intros H. assert (B : hour_b m = true). { apply (upto_all hour_b 0 24 m); [vm_compute; reflexivity|lia]. }
  unfold hour_b in B. destruct (num 2 m) as [|a [|b [|]]]; try discriminate. exists a, b. split; [reflexivity|].
  apply orb_prop in B as [B|B]; apply andb_prop in B as [B B5]; try apply ceqb_eq in B; tauto.
Qed.
Definition min_b (m : Z) : bool := match num 2 m with [a; b] => incls k05 a && isdig b | _ => false end.
Lemma min_shape m : 0 <= m < 60 -> exists a b, num 2 m = [a; b] /\ incls k05 a = true /\ isdig b = true.
Proof.
  intros H. assert (B : min_b m = true). { apply (upto_all min_b 0 60 m); [vm_compute; reflexivity|lia]. }
  unfold min_b in B. destruct (num 2 m) as [|a [|b [|]]]; try discriminate. exists a, b. split; [reflexivity|].
  apply andb_prop in B as [B B5]; tauto.
Qed.

Lemma date_match y m d w j : 1600 <= y <= 9999 -> 1 <= m <= 12 -> 1 <= d <= 31 -> alldig w = true -> w <> [] ->
  exists g, re_match re_date (dec y ++ $" " ++ num 2 m ++ $" " ++ num 2 d ++ $"." ++ w ++ spaces j) = Some g /\
    gs g 1 = dec y /\ gs g 3 = num 2 m /\ gs g 5 = num 2 d /\ gs g 6 = w.
Proof.
  intros Hy Hm Hd Aw Nw.
  destruct (year_shape y Hy) as (a & b & c & e & -> & Hb & Hc & He & HY).
  destruct (month_shape m Hm) as (m1 & m2 & -> & HM). destruct (day_shape d Hd) as (d1 & d2 & -> & HD).
  assert (HJ : exists t, spaces j = flat t /\ Forall conf t /\ (t = [] \/ exists i, t = [(Many (c_one " "), spaces (S i))])).
  { destruct j as [|j]; [exists []|exists [(Many (c_one " "), spaces (S j))]].
    - repeat split; auto.
    - repeat split; [cbn [flat concat map snd]; now rewrite app_nil_r|constructor; [apply spaces_conf|constructor]|right; eauto]. }
  destruct HJ as (t & -> & Ct & HT).
  Local Ltac go Y M D w t :=
    let ps := eval cbn [app] in (Y ++ sp :: M ++ sp :: D ++ ch "."%char :: dgs w :: t) in
    let E := fresh in sym_yes E re_date ps; eexists; split; [exact E|repeat split; reflexivity].
  Local Ltac goT Y M D w HT :=
    let i := fresh "i" in destruct HT as [->|(i & ->)]; [cbn [flat concat map app]; rewrite ?app_nil_r; go Y M D w (@nil piece)|
      pose proof (spaces_conf i); cbn [flat concat map snd app]; rewrite ?app_nil_r; go Y M D w [(Many (c_one " "), spaces (S i))]].
  Local Ltac goD Y M HD d1 d2 w HT :=
    destruct HD as [[-> ?]|[[? ?]|[[-> ->]|[-> ->]]]];
    [goT Y M [ch "0"%char; pc k19 d2] w HT|goT Y M [pc k12 d1; dg d2] w HT|goT Y M [ch "3"%char; ch "0"%char] w HT|goT Y M [ch "3"%char; ch "1"%char] w HT].
  Local Ltac goM Y HM m1 m2 HD d1 d2 w HT :=
    destruct HM as [[-> ?]|[-> [->|[->| ->]]]];
    [goD Y [ch "0"%char; pc k19 m2] HD d1 d2 w HT|goD Y [ch "1"%char; ch "0"%char] HD d1 d2 w HT|goD Y [ch "1"%char; ch "1"%char] HD d1 d2 w HT|goD Y [ch "1"%char; ch "2"%char] HD d1 d2 w HT].
  destruct HY as [?|[-> [->|[->|[->| ->]]]]].
  - goM [pc k29 a; dg b; dg c; dg e] HM m1 m2 HD d1 d2 w HT.
  - goM [ch "1"%char; ch "6"%char; dg c; dg e] HM m1 m2 HD d1 d2 w HT.
  - goM [ch "1"%char; ch "7"%char; dg c; dg e] HM m1 m2 HD d1 d2 w HT.
  - goM [ch "1"%char; ch "8"%char; dg c; dg e] HM m1 m2 HD d1 d2 w HT.
  - goM [ch "1"%char; ch "9"%char; dg c; dg e] HM m1 m2 HD d1 d2 w HT.
Qed.
