(** Canonical sexagesimal texts are read back; right ascension complete. *)
From Verif Require Import PyStrProofs PyReInv PackProofs2 PyFloat PyFloatProofs SexVals SexSpec SexProofs1 SexProofs2 SexProofs3 SexProofs4 SexProofs5 SexProofs6.
From Coq Require Import Lqa.
Open Scope Z_scope.

Lemma num2 v : 0 <= v < 100 -> exists a b, num 2 v = [a; b] /\ isdig a = true /\ isdig b = true /\ py_int [a; b] = Ok v.
Proof.
  intros H. destruct (num_spec 2 v ltac:(lia) H) as (L & A & V). destruct (len2 _ L) as (a & b & E). rewrite E in *.
  apply alldig2 in A as A'. exists a, b. repeat split; try tauto. rewrite py_int_digits; [now rewrite V|exact A|discriminate].
Qed.
Lemma spaces_conf j : conf (Many (c_one " "), spaces (S j)).
Proof. unfold conf, confb, spaces. cbn [repeat snd forallb]. rewrite andb_true_iff. split; [reflexivity|]. induction j; cbn [repeat forallb]; auto. Qed.
Definition tail (j : nat) : list piece := match j with O => [] | S _ => [(Many (c_one " "), spaces j)] end.

Lemma fixed_split p N : 0 <= N < 100 * 10 ^ Z.of_nat p -> (1 <= p)%nat ->
  exists a b f, fixed p N = a :: b :: "."%char :: f /\ isdig a = true /\ isdig b = true /\ alldig f = true /\ f <> [] /\ length f = p /\
    decval (a :: b :: f) = N.
Proof.
  intros H Hp. pose proof (p10_pos p) as P. unfold fixed.
  assert (A : 0 <= N / 10 ^ Z.of_nat p < 100) by (split; [apply Z.div_pos; lia|apply Z.div_lt_upper_bound; lia]).
  assert (B : 0 <= N mod 10 ^ Z.of_nat p < 10 ^ Z.of_nat p) by (apply Z.mod_pos_bound; lia).
  destruct (num_spec 2 _ ltac:(lia) A) as (L & D & V). destruct (len2 _ L) as (a & b & E). rewrite E in *.
  destruct (num_spec p _ Hp B) as (Lf & Df & Vf). apply alldig2 in D as D'.
  exists a, b, (num p (N mod 10 ^ Z.of_nat p)). destruct p; [lia|].
  split; [reflexivity|]. repeat split; try tauto.
  - intros E0. rewrite E0 in Lf. discriminate.
  - change (a :: b :: num (S p) (N mod 10 ^ Z.of_nat (S p))) with ([a; b] ++ num (S p) (N mod 10 ^ Z.of_nat (S p))).
    rewrite decval_app, V, Vf, Lf. rewrite (Z.mul_comm (N / _)). symmetry. apply Z.div_mod. lia.
Qed.
Lemma fixed0 N : 0 <= N < 100 -> fixed 0 N = num 2 N.
Proof. intros H. unfold fixed. change (10 ^ Z.of_nat 0) with 1. rewrite Z.div_1_r, app_nil_r. reflexivity. Qed.

Ltac fold_str H e := match type of H with re_match _ ?s = _ => replace s with e in H by (cbn [app]; rewrite <- ?app_assoc; cbn [app]; reflexivity) end.

Lemma parse_sec p h m N j : (1 <= p <= 6)%nat -> 0 <= h < 100 -> 0 <= m < 100 -> 0 <= N < 100 * 10 ^ Z.of_nat p ->
  exists r, checkSexagesimal (sec_text p h m N ++ spaces j) = Ok r /\ sec_fields r p (PTen p) h m N.
Proof.
  intros Hp Hh Hm HN. destruct (num2 h Hh) as (a & b & Eh & Da & Db & Ih). destruct (num2 m Hm) as (c & d & Em & Dc & Dd & Im).
  destruct (fixed_split p N HN ltac:(lia)) as (e & f & w & Ef & De & Df & Dw & Nw & Lw & Vw).
  unfold sec_text. rewrite Eh, Em, Ef. set (s := ([a; b] ++ $" " ++ [c; d] ++ $" " ++ e :: f :: "."%char :: w) ++ spaces j).
  assert (M : exists g, re_match re_normal s = Some g /\ gs g 1 = [a; b] /\ gs g 2 = [c; d] /\ gs g 3 = e :: f :: "."%char :: w /\ gs g 4 = w).
  { destruct j as [|j].
    - sym_yes M re_normal [dg a; dg b; sp; dg c; dg d; sp; dg e; dg f; ch "."%char; dgs w].
      eexists. split; [|repeat split; [..]].
      + unfold s. cbn [spaces repeat]. rewrite app_nil_r. exact M.
      + reflexivity.
      + reflexivity.
      + reflexivity.
      + reflexivity.
    - pose proof (spaces_conf j) as SC.
      sym_yes M re_normal [dg a; dg b; sp; dg c; dg d; sp; dg e; dg f; ch "."%char; dgs w; (Many (c_one " "), spaces (S j))].
      eexists. split; [|repeat split; [..]].
      + unfold s. cbn [app]. exact M.
      + reflexivity.
      + reflexivity.
      + reflexivity.
      + reflexivity. }
  destruct M as (g & M & G1 & G2 & G3 & G4).
  destruct (pyfloat_point [e; f] w (alldig2' _ _ De Df) Dw ltac:(discriminate)) as (x & Ex & Ix). cbn [app] in Ex, Ix. rewrite Vw, Lw in Ix.
  eexists. split.
  - unfold checkSexagesimal, checks. cbn [first_check]. rewrite M. unfold actionNormal. rewrite G1, G2, G3, G4, Ih, Im. cbn [rbind].
    rewrite Ex. cbn [rbind]. rewrite Lw. reflexivity.
  - constructor; auto; [lia|now left|]. eauto.
Qed.
Ltac both j tac0 tacS := destruct j as [|j]; [change (spaces 0) with (@nil ascii); rewrite ?app_nil_r; tac0|pose proof (spaces_conf j); tacS].

Lemma parse_isec h m s j : 0 <= h < 100 -> 0 <= m < 100 -> 0 <= s < 100 ->
  exists r, checkSexagesimal (sec_text 0 h m s ++ spaces j) = Ok r /\ sec_fields r 0 (PInt 1) h m s.
Proof.
  intros Hh Hm Hs. destruct (num2 h Hh) as (a & b & Eh & Da & Db & Ih). destruct (num2 m Hm) as (c & d & Em & Dc & Dd & Im).
  destruct (num2 s Hs) as (e & f & Es & De & Df & Is). unfold sec_text. rewrite fixed0, Eh, Em, Es by lia.
  set (t := ([a; b] ++ $" " ++ [c; d] ++ $" " ++ [e; f]) ++ spaces j).
  assert (M0 : re_match re_normal t = None).
  { unfold t. destruct j as [|j].
    - sym_none M re_normal [dg a; dg b; sp; dg c; dg d; sp; dg e; dg f]. exact M.
    - pose proof (spaces_conf j). sym_none M re_normal [dg a; dg b; sp; dg c; dg d; sp; dg e; dg f; (Many (c_one " "), spaces (S j))]. exact M. }
  assert (M : exists g, re_match re_intsec t = Some g /\ gs g 1 = [a; b] /\ gs g 2 = [c; d] /\ gs g 3 = [e; f]).
  { unfold t. destruct j as [|j].
    - sym_yes M re_intsec [dg a; dg b; sp; dg c; dg d; sp; dg e; dg f]. eexists. split; [exact M|]. repeat split; reflexivity.
    - pose proof (spaces_conf j). sym_yes M re_intsec [dg a; dg b; sp; dg c; dg d; sp; dg e; dg f; (Many (c_one " "), spaces (S j))].
      eexists. split; [exact M|]. repeat split; reflexivity. }
  destruct M as (g & M & G1 & G2 & G3). eexists. split.
  - unfold checkSexagesimal, checks. cbn [first_check]. rewrite M0, M. unfold actionIntegerSeconds. rewrite G1, G2, G3, Ih, Im, Is. reflexivity.
  - constructor; auto; [lia|right; auto|]. eexists. split; [reflexivity|]. now apply isp_Z10.
Qed.
Lemma parse_min q pr h N j : min_prec q pr -> 0 <= h < 100 -> 0 <= N < 100 * 10 ^ Z.of_nat q ->
  exists r, checkSexagesimal (min_text q h N ++ spaces j) = Ok r /\ min_fields r q pr h N.
Proof.
  intros Hpr Hh HN. destruct (num2 h Hh) as (a & b & Eh & Da & Db & Ih). unfold min_text. rewrite Eh.
  assert (Hpr' := Hpr). destruct Hpr as [[-> ->]|[[-> ->]|[-> ->]]].
  - destruct (fixed_split 2 N HN ltac:(lia)) as (e & f & w & Ef & De & Df & Dw & Nw & Lw & Vw). rewrite Ef.
    destruct (len2 _ Lw) as (x & y & ->). apply alldig2 in Dw as (Dx & Dy).
    set (t := ([a; b] ++ $" " ++ [e; f; "."%char; x; y]) ++ spaces j).
    destruct (pyfloat_point [e; f] [x; y] (alldig2' _ _ De Df) (alldig2' _ _ Dx Dy) ltac:(discriminate)) as (v & Ex & Ix). cbn [app] in Ex, Ix. rewrite Vw in Ix.
    assert (M : re_match re_normal t = None /\ re_match re_intsec t = None /\ exists g, re_match re_minhund t = Some g /\ gs g 1 = [a; b] /\ gs g 2 = [e; f; "."%char; x; y]).
    { unfold t. destruct j as [|j].
      - sym_none M0 re_normal [dg a; dg b; sp; dg e; dg f; ch "."%char; dg x; dg y].
        sym_none M1 re_intsec [dg a; dg b; sp; dg e; dg f; ch "."%char; dg x; dg y].
        sym_yes M re_minhund [dg a; dg b; sp; dg e; dg f; ch "."%char; dg x; dg y].
        split; [exact M0|]. split; [exact M1|]. eexists. split; [exact M|]. split; reflexivity.
      - pose proof (spaces_conf j).
        sym_none M0 re_normal [dg a; dg b; sp; dg e; dg f; ch "."%char; dg x; dg y; (Many (c_one " "), spaces (S j))].
        sym_none M1 re_intsec [dg a; dg b; sp; dg e; dg f; ch "."%char; dg x; dg y; (Many (c_one " "), spaces (S j))].
        sym_yes M re_minhund [dg a; dg b; sp; dg e; dg f; ch "."%char; dg x; dg y; (Many (c_one " "), spaces (S j))].
        split; [exact M0|]. split; [exact M1|]. eexists. split; [exact M|]. split; reflexivity. }
    destruct M as (M0 & M1 & g & M & G1 & G2). eexists. split.
    + unfold checkSexagesimal, checks. cbn [first_check]. rewrite M0, M1, M. unfold actionMinutesHundredths. rewrite G1, G2, Ih. cbn [rbind]. rewrite Ex. reflexivity.
    + constructor; auto. eauto.
  - destruct (fixed_split 1 N HN ltac:(lia)) as (e & f & w & Ef & De & Df & Dw & Nw & Lw & Vw). rewrite Ef.
    destruct w as [|x [|]]; try discriminate Lw. assert (Dx : isdig x = true) by now apply alldig_cons in Dw.
    set (t := ([a; b] ++ $" " ++ [e; f; "."%char; x]) ++ spaces j).
    destruct (pyfloat_point [e; f] [x] (alldig2' _ _ De Df) Dw ltac:(discriminate)) as (v & Ex & Ix). cbn [app] in Ex, Ix. rewrite Vw in Ix.
    assert (M : re_match re_normal t = None /\ re_match re_intsec t = None /\ re_match re_minhund t = None /\ exists g, re_match re_minten t = Some g /\ gs g 1 = [a; b] /\ gs g 2 = [e; f; "."%char; x]).
    { unfold t. destruct j as [|j].
      - sym_none M0 re_normal [dg a; dg b; sp; dg e; dg f; ch "."%char; dg x].
        sym_none M1 re_intsec [dg a; dg b; sp; dg e; dg f; ch "."%char; dg x].
        sym_none M2 re_minhund [dg a; dg b; sp; dg e; dg f; ch "."%char; dg x].
        sym_yes M re_minten [dg a; dg b; sp; dg e; dg f; ch "."%char; dg x].
        split; [exact M0|]. split; [exact M1|]. split; [exact M2|]. eexists. split; [exact M|]. split; reflexivity.
      - pose proof (spaces_conf j).
        sym_none M0 re_normal [dg a; dg b; sp; dg e; dg f; ch "."%char; dg x; (Many (c_one " "), spaces (S j))].
        sym_none M1 re_intsec [dg a; dg b; sp; dg e; dg f; ch "."%char; dg x; (Many (c_one " "), spaces (S j))].
        sym_none M2 re_minhund [dg a; dg b; sp; dg e; dg f; ch "."%char; dg x; (Many (c_one " "), spaces (S j))].
        sym_yes M re_minten [dg a; dg b; sp; dg e; dg f; ch "."%char; dg x; (Many (c_one " "), spaces (S j))].
        split; [exact M0|]. split; [exact M1|]. split; [exact M2|]. eexists. split; [exact M|]. split; reflexivity. }
    destruct M as (M0 & M1 & M2 & g & M & G1 & G2). eexists. split.
    + unfold checkSexagesimal, checks. cbn [first_check]. rewrite M0, M1, M2, M. unfold actionMinutesTenths. rewrite G1, G2, Ih. cbn [rbind]. rewrite Ex. reflexivity.
    + constructor; auto. eauto.
  - change (100 * 10 ^ Z.of_nat 0) with 100 in HN. rewrite fixed0 by lia. destruct (num2 N HN) as (e & f & Es & De & Df & Is). rewrite Es.
    set (t := ([a; b] ++ $" " ++ [e; f]) ++ spaces j).
    assert (M : re_match re_normal t = None /\ re_match re_intsec t = None /\ re_match re_minhund t = None /\ re_match re_minten t = None /\ exists g, re_match re_intmin t = Some g /\ gs g 1 = [a; b] /\ gs g 2 = [e; f]).
    { unfold t. destruct j as [|j].
      - sym_none M0 re_normal [dg a; dg b; sp; dg e; dg f].
        sym_none M1 re_intsec [dg a; dg b; sp; dg e; dg f].
        sym_none M2 re_minhund [dg a; dg b; sp; dg e; dg f].
        sym_none M3 re_minten [dg a; dg b; sp; dg e; dg f].
        sym_yes M re_intmin [dg a; dg b; sp; dg e; dg f].
        split; [exact M0|]. split; [exact M1|]. split; [exact M2|]. split; [exact M3|]. eexists. split; [exact M|]. split; reflexivity.
      - pose proof (spaces_conf j).
        sym_none M0 re_normal [dg a; dg b; sp; dg e; dg f; (Many (c_one " "), spaces (S j))].
        sym_none M1 re_intsec [dg a; dg b; sp; dg e; dg f; (Many (c_one " "), spaces (S j))].
        sym_none M2 re_minhund [dg a; dg b; sp; dg e; dg f; (Many (c_one " "), spaces (S j))].
        sym_none M3 re_minten [dg a; dg b; sp; dg e; dg f; (Many (c_one " "), spaces (S j))].
        sym_yes M re_intmin [dg a; dg b; sp; dg e; dg f; (Many (c_one " "), spaces (S j))].
        split; [exact M0|]. split; [exact M1|]. split; [exact M2|]. split; [exact M3|]. eexists. split; [exact M|]. split; reflexivity. }
    destruct M as (M0 & M1 & M2 & M3 & g & M & G1 & G2). eexists. split.
    + unfold checkSexagesimal, checks. cbn [first_check]. rewrite M0, M1, M2, M3, M. unfold actionIntegerMinutes. rewrite G1, G2, Ih. cbn [rbind]. rewrite Is. reflexivity.
    + constructor; auto. eexists. split; [reflexivity|]. now apply isp_Z10.
Qed.

(** the printed value: V/10^d is X c, up to 0.52 of the last digit, and up to a third of u c *)
Lemma close_of V T a X c u d : (Qabs (inject_Z V - a * inject_Z T) <= 52 # 100)%Q ->
  (X * c * inject_Z (10 ^ Z.of_nat d) == a * inject_Z T)%Q -> ((52 # 100) <= (1 # 3) * (u * c * inject_Z (10 ^ Z.of_nat d)))%Q -> close X c u d V.
Proof.
  intros H E U. unfold close. pose proof (injZ_lt _ _ (p10_pos d)) as P. change (inject_Z 0) with 0%Q in P. set (D := inject_Z (10 ^ Z.of_nat d)) in *. clearbody D.
  rewrite <- E in H. apply Qabs_Qle_condition in H.
  assert (I : (D * / D == 1)%Q) by (field; lra). pose proof (Qinv_lt_0_compat _ P) as PI. unfold Qdiv. set (i := (/ D)%Q) in *. clearbody i.
  set (v := inject_Z V) in *. clearbody v. set (x := (X * c)%Q) in *. clearbody x. set (uc := (u * c)%Q) in *. clearbody uc.
  assert (Hv : (v * i - x == (v - x * D) * i)%Q). { setoid_replace ((v - x * D) * i)%Q with (v * i - x * (D * i))%Q by ring. rewrite I. ring. }
  assert (Hu : ((52 # 100) * i <= (1 # 3) * uc)%Q).
  { assert (((52 # 100) * i <= (1 # 3) * (uc * D) * i)%Q) by (apply Qmult_le_compat_r; lra).
    setoid_replace ((1 # 3) * (uc * D) * i)%Q with ((1 # 3) * uc * (D * i))%Q in H0 by ring. rewrite I in H0. lra. }
  assert (Hw : (Qabs (v * i - x) <= (52 # 100) * i)%Q).
  { assert (A1 : (- ((52 # 100) * i) <= (v - x * D) * i)%Q) by nra. assert (A2 : ((v - x * D) * i <= (52 # 100) * i)%Q) by nra.
    apply Qabs_Qle_condition. split; lra. }
  split; [exact Hw|]. eapply Qle_trans; [exact Hw|exact Hu].
Qed.
Lemma inj10_add p k : (inject_Z (10 ^ Z.of_nat (p + k)) == inject_Z (10 ^ Z.of_nat p) * inject_Z (10 ^ Z.of_nat k))%Q.
Proof. rewrite Nat2Z.inj_add, Z.pow_add_r, inject_Z_mult by lia. reflexivity. Qed.
Lemma norm_sec P h m N : 0 < P -> 0 <= m < 60 -> 0 <= N < 60 * P -> let T := (3600 * h + 60 * m) * P + N in
  T / (60 * P) / 60 = h /\ (T / (60 * P)) mod 60 = m /\ T mod (60 * P) = N.
Proof.
  intros HP Hm HN T. assert (ET : T = (60 * P) * (60 * h + m) + N) by (unfold T; ring).
  assert (D : T / (60 * P) = 60 * h + m) by (symmetry; apply (Zdiv_unique _ _ _ N); auto; lia).
  rewrite D. repeat split.
  - symmetry. apply (Zdiv_unique _ _ _ m); lia.
  - symmetry. apply (Zmod_unique _ _ h); lia.
  - symmetry. apply (Zmod_unique _ _ (60 * h + m)); lia.
Qed.
Lemma norm_min P h N : 0 < P -> 0 <= N < 60 * P -> let T := 60 * h * P + N in T / (60 * P) = h /\ T mod (60 * P) = N.
Proof.
  intros HP HN T. assert (ET : T = (60 * P) * h + N) by (unfold T; ring). split.
  - symmetry. apply (Zdiv_unique _ _ _ N); lia.
  - symmetry. apply (Zmod_unique _ _ h); lia.
Qed.
Definition ra_ok (w : str) (X : Q) (pr : prec) (u : Q) : Prop :=
  exists d V, (1 <= d)%nat /\ 0 <= V /\ checkRa w = Ok (decimal_text false d V, pr) /\
    decRaToSexRa (decimal_text false d V) (prec_fl pr) = Ok w /\ close X (1 # 240) u d V.
Lemma ra_ok_sec p pr h m N r : checkSexagesimal (padr 12 (sec_text p h m N)) = Ok r -> sec_fields r p pr h m N -> m < 60 -> N < 60 * 10 ^ Z.of_nat p ->
  ra_ok (padr 12 (sec_text p h m N)) (inject_Z (3600 * h + 60 * m) + inject_Z N / inject_Z (10 ^ Z.of_nat p)) pr (/ inject_Z (10 ^ Z.of_nat p)).
Proof.
  intros HR HF Hm HN. destruct (ra_fwd_sec _ _ _ _ _ _ _ HR HF) as (V & Ev & PV & BV & RT). destruct HF as [Hp Hpr Hh Hm0 HN0 _].
  pose proof (p10_pos p) as PP. set (P := 10 ^ Z.of_nat p) in *.
  pose proof (ra_back_sec p pr _ V Hp Hpr RT PV BV) as B. fold P in B. cbv zeta in B.
  destruct (norm_sec P h m N PP ltac:(lia) ltac:(lia)) as (E1 & E2 & E3). rewrite E1, E2, E3, (Z.mod_small h 100) in B by lia.
  exists (p + 3)%nat, V. split; [lia|]. split; [exact PV|]. split; [|split; [exact B|]].
  - unfold checkRa. rewrite Ev. cbn [rbind]. rewrite B. cbn [rbind]. now rewrite streqb_refl.
  - pose proof (injZ_lt _ _ PP) as PQ. change (inject_Z 0) with 0%Q in PQ.
    eapply close_of; [exact BV| |].
    + rewrite inj10_add. fold P. change (inject_Z (10 ^ Z.of_nat 3)) with 1000%Q. rewrite (inject_Z_plus _ N), (inject_Z_mult _ P). field. lra.
    + rewrite inj10_add. fold P. change (inject_Z (10 ^ Z.of_nat 3)) with 1000%Q.
      setoid_replace (/ inject_Z P * (1 # 240) * (inject_Z P * 1000))%Q with (1000 # 240)%Q by (field; lra). lra.
Qed.
Lemma ra_ok_min q pr h N r : checkSexagesimal (padr 12 (min_text q h N)) = Ok r -> min_fields r q pr h N -> N < 60 * 10 ^ Z.of_nat q ->
  ra_ok (padr 12 (min_text q h N)) (inject_Z (3600 * h) + inject_Z N * (60 / inject_Z (10 ^ Z.of_nat q))) pr (60 / inject_Z (10 ^ Z.of_nat q)).
Proof.
  intros HR HF HN. destruct (ra_fwd_min _ _ _ _ _ _ HR HF) as (V & Ev & PV & BV & RT). destruct HF as [Hpr Hh HN0 _].
  pose proof (p10_pos q) as PP. set (P := 10 ^ Z.of_nat q) in *.
  pose proof (ra_back_min q pr _ V Hpr RT PV BV) as B. fold P in B. cbv zeta in B.
  destruct (norm_min P h N PP ltac:(lia)) as (E1 & E2). rewrite E1, E2, (Z.mod_small h 100) in B by lia.
  exists (q + 1)%nat, V. split; [lia|]. split; [exact PV|]. split; [|split; [exact B|]].
  - unfold checkRa. rewrite Ev. cbn [rbind]. rewrite B. cbn [rbind]. now rewrite streqb_refl.
  - pose proof (injZ_lt _ _ PP) as PQ. change (inject_Z 0) with 0%Q in PQ.
    eapply close_of; [exact BV| |].
    + rewrite inj10_add. fold P. change (inject_Z (10 ^ Z.of_nat 1)) with 10%Q. rewrite (inject_Z_plus _ N), (inject_Z_mult _ P), (inject_Z_mult 3600), (inject_Z_mult 60).
      change (inject_Z 3600) with 3600%Q. change (inject_Z 60) with 60%Q. field. lra.
    + rewrite inj10_add. fold P. change (inject_Z (10 ^ Z.of_nat 1)) with 10%Q.
      setoid_replace (60 / inject_Z P * (1 # 240) * (inject_Z P * 10))%Q with (600 # 240)%Q by (field; lra). lra.
Qed.
Lemma padr_app n s : padr n s = s ++ spaces (n - length s).
Proof. reflexivity. Qed.
Lemma ra_ok_comp w X X' pr u u' : (X == X')%Q -> (u == u')%Q -> ra_ok w X pr u -> ra_ok w X' pr u'.
Proof.
  intros E1 E2 (d & V & A & B & C & D & E). exists d, V. split; [exact A|]. split; [exact B|]. split; [exact C|]. split; [exact D|].
  unfold close in *. rewrite <- E1, <- E2. exact E.
Qed.
Lemma fixed_length p N : 0 <= N < 100 * 10 ^ Z.of_nat p -> length (fixed p N) = match p with O => 2 | S _ => 3 + p end%nat.
Proof.
  intros H. destruct p as [|p].
  - change (100 * 10 ^ Z.of_nat 0) with 100 in H. rewrite fixed0 by lia. apply num_spec; [lia|]. exact H.
  - destruct (fixed_split (S p) N H ltac:(lia)) as (a & b & f & -> & _ & _ & _ & _ & L & _). cbn [length]. lia.
Qed.
Lemma sec_text_length p h m N : 0 <= h < 100 -> 0 <= m < 100 -> 0 <= N < 100 * 10 ^ Z.of_nat p -> length (sec_text p h m N) = match p with O => 8 | S _ => 9 + p end%nat.
Proof.
  intros A B C. unfold sec_text. rewrite !app_length, (fixed_length p N C). destruct (num_spec 2 h ltac:(lia) A) as (-> & _), (num_spec 2 m ltac:(lia) B) as (-> & _).
  destruct p; reflexivity.
Qed.
Lemma ra_canonical s X pr u : sexagesimal s X pr u -> (length s <= 12)%nat -> ra_ok (padr 12 s) X pr u.
Proof.
  intros H L. destruct H.
  - pose proof (p10_pos p) as PP. rewrite sec_text_length in L by lia. assert (p <= 3)%nat by (destruct p; lia).
    destruct (parse_sec p h m N (12 - length (sec_text p h m N)) ltac:(lia) ltac:(lia) ltac:(lia) ltac:(lia)) as (r & HR & HF).
    now apply (ra_ok_sec p (PTen p) h m N r HR HF).
  - destruct (parse_isec h m s (12 - length (sec_text 0 h m s)) ltac:(lia) ltac:(lia) ltac:(lia)) as (r & HR & HF).
    assert (B : s < 60 * 10 ^ Z.of_nat 0) by (change (60 * 10 ^ Z.of_nat 0) with 60; lia).
    eapply ra_ok_comp; [| |apply (ra_ok_sec 0 (PInt 1) h m s r HR HF); [lia|exact B]].
    + change (inject_Z (10 ^ Z.of_nat 0)) with 1%Q. rewrite (inject_Z_plus (3600 * h + 60 * m) s). field.
    + reflexivity.
  - destruct (parse_min 2 PHund h N (12 - length (min_text 2 h N)) ltac:(left; auto) ltac:(lia) ltac:(lia)) as (r & HR & HF).
    assert (B : N < 60 * 10 ^ Z.of_nat 2) by (change (60 * 10 ^ Z.of_nat 2) with 6000; lia).
    eapply ra_ok_comp; [| |apply (ra_ok_min 2 PHund h N r HR HF); exact B].
    + change (inject_Z (10 ^ Z.of_nat 2)) with 100%Q. field.
    + reflexivity.
  - destruct (parse_min 1 (PInt 6) h N (12 - length (min_text 1 h N)) ltac:(right; left; auto) ltac:(lia) ltac:(lia)) as (r & HR & HF).
    assert (B : N < 60 * 10 ^ Z.of_nat 1) by (change (60 * 10 ^ Z.of_nat 1) with 600; lia).
    eapply ra_ok_comp; [| |apply (ra_ok_min 1 (PInt 6) h N r HR HF); exact B].
    + change (inject_Z (10 ^ Z.of_nat 1)) with 10%Q. field.
    + reflexivity.
  - destruct (parse_min 0 (PInt 60) h m (12 - length (min_text 0 h m)) ltac:(right; right; auto) ltac:(lia) ltac:(change (100 * 10 ^ Z.of_nat 0) with 100; lia)) as (r & HR & HF).
    assert (B : m < 60 * 10 ^ Z.of_nat 0) by (change (60 * 10 ^ Z.of_nat 0) with 60; lia).
    eapply ra_ok_comp; [| |apply (ra_ok_min 0 (PInt 60) h m r HR HF); exact B].
    + change (inject_Z (10 ^ Z.of_nat 0)) with 1%Q. rewrite (inject_Z_plus (3600 * h)), (inject_Z_mult 60). change (inject_Z 60) with 60%Q. field.
    + reflexivity.
Qed.
Lemma ra_complete w : (length w <= 12)%nat ->
  checkRa w = Err RuntimeError \/ exists s X pr u, sexagesimal s X pr u /\ w = padr 12 s.
Proof.
  intros L. destruct (check_inv w L) as [E|(r & HR & HF)].
  { left. unfold checkRa, sexRaToDecRa. rewrite E. reflexivity. }
  destruct HF as [(p & pr & h & m & N & HF)|(q & pr & h & N & HF)].
  - destruct (ra_fwd_sec _ _ _ _ _ _ _ HR HF) as (V & Ev & PV & BV & RT).
    unfold checkRa. rewrite Ev. cbn [rbind]. destruct HF as [Hp Hpr Hh Hm HN HFr].
    rewrite (ra_back_sec p pr _ V Hp Hpr RT PV BV). cbn [rbind].
    set (P := 10 ^ Z.of_nat p) in *. set (T := (3600 * h + 60 * m) * P + N) in *. set (k := T / (60 * P)). cbv zeta.
    pose proof (p10_pos p) as PP. fold P in PP.
    assert (A1 : 0 <= k / 60 mod 100 < 100) by (apply Z.mod_pos_bound; lia).
    assert (A2 : 0 <= k mod 60 < 60) by (apply Z.mod_pos_bound; lia).
    assert (A3 : 0 <= T mod (60 * P) < 60 * P) by (apply Z.mod_pos_bound; lia).
    set (h' := k / 60 mod 100) in *. set (m' := k mod 60) in *. set (N' := T mod (60 * P)) in *. clearbody h' m' N'.
    destruct (streqb (padr 12 (sec_text p h' m' N')) w) eqn:E; [|now left]. apply streqb_eq in E. subst w. right.
    destruct p as [|p].
    + exists (sec_text 0 h' m' N'). do 3 eexists. split; [|reflexivity]. apply sx_isec; auto.
    + exists (sec_text (S p) h' m' N'). do 3 eexists. split; [|reflexivity]. apply sx_sec; auto. lia.
  - destruct (ra_fwd_min _ _ _ _ _ _ HR HF) as (V & Ev & PV & BV & RT).
    unfold checkRa. rewrite Ev. cbn [rbind]. destruct HF as [Hpr Hh HN HFr].
    rewrite (ra_back_min q pr _ V Hpr RT PV BV). cbn [rbind].
    set (P := 10 ^ Z.of_nat q) in *. set (T := 60 * h * P + N) in *. cbv zeta.
    pose proof (p10_pos q) as PP. fold P in PP. set (k := T / (60 * P)).
    assert (A1 : 0 <= k mod 100 < 100) by (apply Z.mod_pos_bound; lia).
    assert (A3 : 0 <= T mod (60 * P) < 60 * P) by (apply Z.mod_pos_bound; lia).
    set (h' := k mod 100) in *. set (N' := T mod (60 * P)) in *. clearbody h' N'.
    destruct (streqb (padr 12 (min_text q h' N')) w) eqn:E; [|now left]. apply streqb_eq in E. subst w. right.
    exists (min_text q h' N'). destruct Hpr as [[-> ->]|[[-> ->]|[-> ->]]]; do 3 eexists; (split; [|reflexivity]).
    + now apply sx_hund.
    + now apply sx_tenth.
    + apply sx_imin; auto.
Qed.
