From Verif Require Import Mpc80 FmtRe PyStrProofs PackProofs13.
From Verif Require Export Mpc80Spec.
Local Open Scope nat_scope.

(** * Layouts and fixed-format patterns *)
Fixpoint fitp (ps : list (ascii -> bool)) (s : str) : bool :=
  match ps, s with
  | [], [] => true
  | p :: ps', x :: s' => p x && fitp ps' s'
  | _, _ => false
  end.
Definition flat (f : layout) : list (ascii -> bool) := flat_map (fun np => repeat (snd np) (fst np)) f.

Lemma fitp_repeat p n qs : forall l, fitp (repeat p n ++ qs) l = (Nat.leb n (length l) && forallb p (firstn n l) && fitp qs (skipn n l)).
Proof.
  induction n as [|n IH]; intros l.
  - reflexivity.
  - destruct l as [|x l]; [reflexivity|]. cbn [repeat app fitp firstn forallb skipn length].
    rewrite IH. change (Nat.leb (S n) (S (length l))) with (Nat.leb n (length l)).
    destruct (Nat.leb n (length l)), (p x); cbn; auto.
Qed.
Lemma laid_out_fitp f : forall l, laid_out f l <-> fitp (flat f) l = true.
Proof.
  induction f as [|[n p] f IH]; intros l; cbn [laid_out flat flat_map].
  - destruct l; cbn; split; congruence.
  - change (flat_map (fun np => repeat (snd np) (fst np)) f) with (flat f). cbn [fst snd].
    rewrite fitp_repeat, !andb_true_iff, Nat.leb_le, IH. tauto.
Qed.
Fixpoint eqcp (ks : list cls) (ps : list (ascii -> bool)) : bool :=
  match ks, ps with
  | [], [] => true
  | k :: ks', p :: ps' => forallb (fun c => Bool.eqb (incls k c) (p c)) allascii && eqcp ks' ps'
  | _, _ => false
  end.
Lemma eqcp_fits ks : forall ps s, eqcp ks ps = true -> length s = length ks -> fits ks s = fitp ps s.
Proof.
  induction ks as [|k ks IH]; intros [|p ps] [|x s] E L; cbn in *; try discriminate; auto.
  apply andb_prop in E as [E1 E2]. pose proof (forall_ascii _ E1 x) as H. cbn in H. apply Bool.eqb_prop in H.
  rewrite H, (IH ps); auto.
Qed.
Lemma match_layout r f l : fixedt r = true -> plain_end r = true -> width r = 80 -> eqcp (cells r) (flat f) = true ->
  length l = 80 -> re_match r l = if fitp (flat f) l then Some (capsf r l []) else None.
Proof.
  intros F P W E L. rewrite re_match_format by congruence.
  rewrite (eqcp_fits _ (flat f)); auto. rewrite cells_length. congruence.
Qed.
Lemma fitp_length ps : forall l, fitp ps l = true -> length l = length ps.
Proof.
  induction ps as [|p ps IH]; intros [|x l] H; cbn in *; try discriminate; auto.
  apply andb_prop in H as [_ H]. now rewrite (IH l).
Qed.
Lemma fitp_nth ps : forall l n p, fitp ps l = true -> nth_error ps n = Some p ->
  exists c, nth_error l n = Some c /\ p c = true.
Proof.
  induction ps as [|q ps IH]; intros [|x l] n p H N; cbn in *; try discriminate.
  - destruct n; discriminate.
  - apply andb_prop in H as [H1 H2]. destruct n; cbn in *.
    + injection N as <-. eauto.
    + eauto.
Qed.

Lemma m_normal l : length l = 80 -> re_match normalLineRegex l =
  if fitp (flat optical_layout) l then Some (capsf normalLineRegex l []) else None.
Proof. apply match_layout; vm_compute; reflexivity. Qed.
Lemma m_radar1 l : length l = 80 -> re_match radarFirstLineRegex l =
  if fitp (flat radar1_layout) l then Some (capsf radarFirstLineRegex l []) else None.
Proof. apply match_layout; vm_compute; reflexivity. Qed.
Lemma m_radar2 l : length l = 80 -> re_match radarSecondLineRegex l =
  if fitp (flat radar2_layout) l then Some (capsf radarSecondLineRegex l []) else None.
Proof. apply match_layout; vm_compute; reflexivity. Qed.
Lemma m_satellite l : length l = 80 -> re_match satelliteSecondLineRegex l =
  if fitp (flat satellite_layout) l then Some (capsf satelliteSecondLineRegex l []) else None.
Proof. apply match_layout; vm_compute; reflexivity. Qed.
Lemma m_rover l : length l = 80 -> re_match roverSecondLineRegex l =
  if fitp (flat rover_layout) l then Some (capsf roverSecondLineRegex l []) else None.
Proof. apply match_layout; vm_compute; reflexivity. Qed.

(** the kind of line, column 15 *)
Lemma kind_of ps kinds l : fitp ps l = true -> nth_error ps 14 = Some (one_of kinds) ->
  exists c, nth_error l 14 = Some c /\ cmem c kinds = true.
Proof. intros F N. destruct (fitp_nth _ _ _ _ F N) as (c & H1 & H2). eauto. Qed.
Lemma kinds_apart ps qs k1 k2 l : nth_error ps 14 = Some (one_of k1) -> nth_error qs 14 = Some (one_of k2) ->
  forallb (fun c => negb (cmem c k1 && cmem c k2)) allascii = true ->
  fitp ps l = true -> fitp qs l = false.
Proof.
  intros N1 N2 D F. destruct (fitp qs l) eqn:G; auto.
  destruct (kind_of _ _ _ F N1) as (c & H1 & H2). destruct (kind_of _ _ _ G N2) as (c' & H3 & H4).
  rewrite H1 in H3. injection H3 as <-. pose proof (forall_ascii _ D c) as X. cbn in X. rewrite H2, H4 in X. discriminate.
Qed.
Ltac apart := eapply kinds_apart; [| | |eassumption]; [reflexivity|reflexivity|vm_compute; reflexivity].

(** the column of a line *)
Lemma nth_cols n l : n < length l -> exists c, nth_error l n = Some c /\ cols (S n) (S n) l = [c].
Proof.
  intros H. destruct (nth_error l n) as [c|] eqn:E; [|apply nth_error_None in E; lia].
  exists c. split; auto. unfold cols. replace (S n - S n + 1) with 1 by lia. replace (S n - 1) with n by lia.
  apply nth_error_split in E as (l1 & l2 & -> & <-). rewrite skipn_app, skipn_all, Nat.sub_diag. reflexivity.
Qed.

(** * The data lines *)
Definition optical_dict l t p ra pra de pde : item :=
  texts (common l ++
      [($"raSexagesimal", cols 33 44 l); ($"decSexagesimal", cols 45 56 l); ($"bl1", cols 57 65 l);
       ($"mag", cols 66 70 l); ($"band", cols 71 71 l); ($"packedref", cols 72 77 l); ($"stn", cols 78 80 l)] ++
      time_fields t p ++
      [($"ra", ra); ($"precRA", prec_str pra); ($"dec", de); ($"precDec", prec_str pde)]).
Definition radar1_dict l shift : item :=
  texts (common l ++
      [($"delay", implied_point 5 (cols 33 47 l)); ($"shift", shift);
       ($"frq", firstn 5 (cols 63 68 l) ++ $"." ++ skipn 5 (cols 63 68 l));
       ($"trx", cols 69 71 l); ($"packedref", cols 72 77 l); ($"stn", cols 78 80 l)]).
Definition radar2_dict l : item :=
  texts (common l ++
      [($"sc", cols 33 33 l); ($"delay uncertainty", implied_point 10 (cols 34 47 l));
       ($"shift uncertainty", implied_point 11 (cols 48 62 l)); ($"frq continuation", cols 63 68 l);
       ($"trx", cols 69 71 l); ($"packedref", cols 72 77 l); ($"stn", cols 78 80 l)]).
Definition satellite_dict l x y z sys : item :=
  texts (common l ++
      [($"parallax_type", cols 33 33 l); ($"ctr", $"399"); ($"pos1", x); ($"pos2", y); ($"pos3", z); ($"sys", sys);
       ($"packedref", cols 72 77 l); ($"stn", cols 78 80 l)]).
Definition rover_dict l : item :=
  texts (common l ++
      [($"sys", $"WGS84"); ($"ctr", $"399"); ($"pos1", cols 35 44 l); ($"pos2", cols 46 55 l); ($"pos3", cols 57 61 l);
       ($"packedref", cols 72 77 l); ($"stn", cols 78 80 l)]).

(** the common columns as captured *)
Lemma cols_app a b c l : 1 <= a -> a <= b -> b < c -> cols a b l ++ cols (S b) c l = cols a c l.
Proof.
  intros. unfold cols. rewrite <- (firstn_skipn (b - a + 1) (firstn (c - a + 1) (skipn (a - 1) l))).
  rewrite firstn_firstn. replace (Nat.min (b - a + 1) (c - a + 1)) with (b - a + 1) by lia. f_equal.
  rewrite skipn_firstn_comm, skipn_skipn'. f_equal; [lia|]. f_equal. lia.
Qed.

Lemma caps_normal l : capsf normalLineRegex l [] =
  [(14, cols 78 80 l); (13, cols 72 77 l); (12, cols 71 71 l); (11, cols 66 70 l); (10, cols 57 65 l); (9, cols 45 56 l);
   (8, cols 33 44 l); (7, cols 21 32 l); (6, cols 20 20 l); (5, cols 16 19 l); (4, cols 15 15 l); (3, cols 14 14 l);
   (2, cols 13 13 l); (1, cols 1 12 l)].
Proof. unfold normalLineRegex. cbn [capsf width]. rewrite !skipn_skipn'. reflexivity. Qed.
Lemma caps_radar1 l : capsf radarFirstLineRegex l [] =
  [(13, cols 78 80 l); (12, cols 72 77 l); (11, cols 69 71 l); (10, cols 63 68 l); (9, cols 48 62 l);
   (8, cols 33 47 l); (7, cols 21 32 l); (6, cols 20 20 l); (5, cols 16 19 l); (4, cols 15 15 l); (3, cols 14 14 l);
   (2, cols 13 13 l); (1, cols 1 12 l)].
Proof. unfold radarFirstLineRegex. cbn [capsf width]. rewrite !skipn_skipn'. reflexivity. Qed.
Lemma caps_radar2 l : capsf radarSecondLineRegex l [] =
  [(14, cols 78 80 l); (13, cols 72 77 l); (12, cols 69 71 l); (11, cols 63 68 l); (10, cols 48 62 l); (9, cols 34 47 l);
   (8, cols 33 33 l); (7, cols 21 32 l); (6, cols 20 20 l); (5, cols 16 19 l); (4, cols 15 15 l); (3, cols 14 14 l);
   (2, cols 13 13 l); (1, cols 1 12 l)].
Proof. unfold radarSecondLineRegex. cbn [capsf width]. rewrite !skipn_skipn'. reflexivity. Qed.
Lemma caps_satellite l : capsf satelliteSecondLineRegex l [] =
  [(13, cols 78 80 l); (12, cols 72 77 l); (11, cols 59 69 l); (10, cols 47 57 l); (9, cols 35 45 l);
   (8, cols 33 33 l); (7, cols 21 32 l); (6, cols 20 20 l); (5, cols 16 19 l); (4, cols 15 15 l); (3, cols 14 14 l);
   (2, cols 13 13 l); (1, cols 1 12 l)].
Proof. unfold satelliteSecondLineRegex. cbn [capsf width]. rewrite !skipn_skipn'. reflexivity. Qed.
Lemma caps_rover l : capsf roverSecondLineRegex l [] =
  [(12, cols 78 80 l); (11, cols 72 77 l); (10, cols 57 61 l); (9, cols 46 55 l);
   (8, cols 35 44 l); (7, cols 21 32 l); (6, cols 20 20 l); (5, cols 16 19 l); (4, cols 15 15 l); (3, cols 14 14 l);
   (2, cols 13 13 l); (1, cols 1 12 l)].
Proof. unfold roverSecondLineRegex. cbn [capsf width]. rewrite !skipn_skipn'. reflexivity. Qed.
Lemma date_cols l : cols 16 19 l ++ cols 20 20 l ++ cols 21 32 l = cols 16 32 l.
Proof. rewrite (cols_app 20 20 32 l) by lia. apply (cols_app 16 19 32 l); lia. Qed.

Ltac dictfun := cbv [common_fields gs grp Nat.eqb]; rewrite ?date_cols.

Lemma normal_eq l : decode_normal (capsf normalLineRegex l []) =
  do (t, p) <- checkDate (cols 16 32 l) false;
  do (ra, pra) <- checkRa (cols 33 44 l); do (de, pde) <- checkDec (cols 45 56 l);
  Ok (optical_dict l t p ra pra de pde).
Proof.
  rewrite caps_normal. unfold decode_normal. dictfun.
  unfold do_checkDate.
  match goal with |- context [iget $"date" ?d] => change (iget $"date" d) with (Ok (cols 16 32 l)) end. cbn [rbind].
  destruct (checkDate (cols 16 32 l) false) as [[t p]|e]; cbn [rbind]; [|reflexivity].
  unfold do_checkRa.
  match goal with |- context [iget $"raSexagesimal" ?d] => change (iget $"raSexagesimal" d) with (Ok (cols 33 44 l)) end. cbn [rbind].
  destruct (checkRa (cols 33 44 l)) as [[ra pra]|e]; cbn [rbind]; [|reflexivity].
  unfold do_checkDec.
  match goal with |- context [iget $"decSexagesimal" ?d] => change (iget $"decSexagesimal" d) with (Ok (cols 45 56 l)) end. cbn [rbind].
  destruct (checkDec (cols 45 56 l)) as [[de pde]|e]; cbn [rbind]; reflexivity.
Qed.
(** texts of digits, points and blanks *)
Lemma strip_nil s : strip s = [] <-> forallb pyspace s = true.
Proof.
  split.
  - intros S. destruct (strip_decomp s) as (a & b & E & A & B). rewrite S in E. cbn in E. rewrite E, forallb_app, A, B. reflexivity.
  - intros H. unfold strip. replace (lstrip s) with (@nil ascii); [reflexivity|]. symmetry. now apply lstrip_nil_iff.
Qed.
Lemma blank_spaces s : forallb snumeric s = true -> blank s = streqb s (spaces (length s)).
Proof.
  intros N. unfold blank. assert (strip s = [] <-> s = spaces (length s)) as I.
  { rewrite strip_nil. split.
    - intros W. revert N W. clear. induction s as [|x s IH]; intros N W; [reflexivity|].
      cbn [forallb] in N, W. apply andb_prop in N as [N1 N2]. apply andb_prop in W as [W1 W2].
      cbn [length]. change (spaces (S (length s))) with (" "%char :: spaces (length s)). f_equal; auto.
      revert x N1 W1. assert (forall x, implb (snumeric x && pyspace x) (ceqb x " ") = true) as H
        by (apply forall_ascii; vm_compute; reflexivity).
      intros x N1 W1. specialize (H x). rewrite N1, W1 in H. cbn in H. now apply ceqb_eq in H.
    - intros E. rewrite E. clear. induction (length s); auto. }
  destruct (streqb s (spaces (length s))) eqn:E.
  - apply streqb_eq in E. now rewrite (proj2 I E).
  - destruct (strip s) eqn:S; auto. exfalso. rewrite (proj1 I eq_refl) in E at 1. rewrite streqb_refl in E. discriminate.
Qed.
Lemma fitp_skipn n : forall ps l, fitp ps l = true -> fitp (skipn n ps) (skipn n l) = true.
Proof.
  induction n as [|n IH]; intros [|p ps] [|x l] H; cbn in *; try discriminate; auto.
  apply andb_prop in H as [_ H]. auto.
Qed.
Lemma fitp_firstn n : forall ps l, fitp ps l = true -> fitp (firstn n ps) (firstn n l) = true.
Proof.
  induction n as [|n IH]; intros [|p ps] [|x l] H; cbn in *; try discriminate; auto.
  apply andb_prop in H as [H0 H]. rewrite H0. cbn. auto.
Qed.
Lemma fitp_all q ps : forallb (fun p => forallb (fun c => implb (p c) (q c)) allascii) ps = true ->
  forall l, fitp ps l = true -> forallb q l = true.
Proof.
  induction ps as [|p ps IH]; intros A [|x l] H; cbn [forallb fitp] in *; try discriminate; auto.
  apply andb_prop in A as [A1 A2]. apply andb_prop in H as [H1 H2].
  pose proof (forall_ascii _ A1 x) as X. cbn in X. rewrite H1 in X. cbn in X. rewrite X, IH; auto.
Qed.
Lemma field_class ps l a b q : fitp ps l = true ->
  forallb (fun p => forallb (fun c => implb (p c) (q c)) allascii) (firstn (b - a + 1) (skipn (a - 1) ps)) = true ->
  forallb q (cols a b l) = true.
Proof. intros F A. unfold cols. eapply fitp_all; [exact A|]. now apply fitp_firstn, fitp_skipn. Qed.
Lemma cols_length a b l : 1 <= a -> a <= b -> b <= length l -> length (cols a b l) = b - a + 1.
Proof. intros. unfold cols. rewrite firstn_length, skipn_length. lia. Qed.

Lemma point_implied n w : forallb snumeric w = true -> (if blank w then [] else point_at n w) = implied_point n w.
Proof. intros H. rewrite blank_spaces by auto. reflexivity. Qed.

Ltac fclass F := apply (field_class _ _ _ _ _ F); vm_compute; reflexivity.

Lemma radar1_eq l : length l = 80 -> fitp (flat radar1_layout) l = true ->
  exists shift, shift_of (cols 48 62 l) shift /\
    decode_radar1 (capsf radarFirstLineRegex l []) = Ok (radar1_dict l shift).
Proof.
  intros L F. rewrite caps_radar1. unfold decode_radar1. dictfun.
  assert (forallb snumeric (cols 33 47 l) = true) as N1 by fclass F.
  assert (forallb snumeric (cols 48 62 l) = true) as N2 by fclass F.
  assert (length (cols 48 62 l) = 15) as L2 by (rewrite cols_length; lia).
  rewrite point_implied by auto. rewrite (blank_spaces (cols 48 62 l)) by auto. rewrite L2.
  unfold shift_of, implied_point. rewrite L2.
  destruct (streqb (cols 48 62 l) (spaces 15)) eqn:B.
  - exists []. split; auto.
  - unfold point_at. destruct (cols 48 62 l) as [|x w] eqn:W; [discriminate|].
    eexists. split; [reflexivity|]. cbn [rbind firstn app packSigned]. reflexivity.
Qed.
Lemma radar2_eq l : length l = 80 -> fitp (flat radar2_layout) l = true ->
  decode_radar2 (capsf radarSecondLineRegex l []) = Ok (radar2_dict l).
Proof.
  intros L F. rewrite caps_radar2. unfold decode_radar2. dictfun.
  assert (forallb snumeric (cols 34 47 l) = true) as N1 by fclass F.
  assert (forallb snumeric (cols 48 62 l) = true) as N2 by fclass F.
  rewrite !point_implied by auto. reflexivity.
Qed.
Lemma rover_eq l : decode_rover (capsf roverSecondLineRegex l []) = Ok (rover_dict l).
Proof. rewrite caps_rover. unfold decode_rover. dictfun. reflexivity. Qed.
