(** Lemmas about Back80Spec, part 8: satellites and roving observers. *)
From Verif Require Import PyStrProofs JustSpec JustProofs AdesMasterTables FmtRe.
From Verif Require Import XmlToMpc80 Mpc80 Mpc80Spec Line80Spec LineProofs1 PackSpec DocSpec DocProofs2 DocProofs6 Mpc80Proofs1 Mpc80Proofs4 Mpc80Proofs12.
From Verif Require Import Back80Spec Back80Proofs1 Back80Proofs2 Back80Proofs3 Back80Proofs4 Back80Proofs5 Back80Proofs6 Back80Proofs7.
From Verif Require Import Mpc80 Mpc80Spec Back80Spec.
Local Open Scope nat_scope.

Lemma split_at a b c l : 1 <= a -> a <= b -> b < c -> cols a c l = cols a b l ++ cols (S b) c l.
Proof. intros. symmetry. now apply cols_app. Qed.
Lemma agree_sub a b c d l m : length l = 80 -> length m = 80 -> agree a b l m -> 1 <= a -> a <= c -> c <= d -> d <= b -> b <= 80 -> agree c d l m.
Proof.
  unfold agree. intros L M E A B C D F.
  assert (forall x, length x = 80 -> cols c d x = firstn (d - c + 1) (skipn (c - a) (cols a b x))) as K.
  { intros x X. unfold cols. rewrite skipn_firstn_comm, skipn_skipn', firstn_firstn. f_equal; [lia|]. f_equal. lia. }
  rewrite !K by assumption. now rewrite E.
Qed.
(** the common part of the second lines *)
Lemma second_head l m : length l = 80 -> length m = 80 -> agree 1 14 l m -> agree 16 32 l m ->
  forall k w, cols 15 15 m = [k] -> w = cols 33 80 m ->
  (cols 1 12 l ++ cols 13 13 l ++ cols 14 14 l) ++ [k] ++ cols 16 32 l ++ w = m.
Proof.
  intros L M A1 A2 k w K ->.
  rewrite (agree_sub 1 14 1 12 l m L M A1), (agree_sub 1 14 13 13 l m L M A1), (agree_sub 1 14 14 14 l m L M A1), A2, <- K by lia.
  rewrite <- !app_assoc. rewrite cols_head. apply from33; auto.
Qed.
Lemma first_col a b l f k : length l = 80 -> fitp (flat f) l = true -> 1 <= a -> a < b -> b <= 80 -> nth_error (flat f) (a - 1) = Some (one_of k) ->
  exists c, one_of k c = true /\ cols a b l = c :: cols (S a) b l /\ cols a a l = [c].
Proof.
  intros L F A B C N. destruct (fitp_nth _ _ _ _ F N) as (c & E & P). destruct (nth_cols (a - 1) l) as (c' & E' & Q); [lia|].
  rewrite E in E'. injection E' as <-. replace (S (a - 1)) with a in Q by lia. exists c. split; auto. split; auto. rewrite (split_at a a b) by lia. rewrite Q. reflexivity.
Qed.
Lemma blanks_at a b l f : fitp (flat f) l = true -> length l = 80 -> 1 <= a -> a <= b -> b <= 80 -> forallb (one_of $" ") (cols a b l) = true -> cols a b l = spaces (b - a + 1).
Proof. intros F L A B C H. apply all_blank in H. rewrite cols_length in H by lia. exact H. Qed.

Lemma satellite_prints o l m a b : ~ In nl l -> ~ In nl m -> decode80 l = Ok a -> decode80 m = Ok b -> is_kind "0" a = false -> is_kind "0" b = false ->
  kind_is "S" l -> kind_is "s" m -> optical_kept l -> agree 1 14 l m -> agree 16 32 l m -> agree 73 80 l m ->
  cols 34 34 m = $" " -> cols 46 46 m = $" " -> cols 58 58 m = $" " -> prints o $"optical" [l; m] (joined a b).
Proof.
  intros NL NM HA HB ZA ZB KL KM O A1 A2 A3 B1 B2 B3 xs R. apply decode_iff in HA; [|exact NL]. apply decode_iff in HB; [|exact NM].
  assert (In "S"%char $"A PeCBTMcEOHNnSVX") as I by (vm_compute; tauto).
  destruct (decodes_optical l a _ HA ZA KL I) as (_ & F & t & p & perm & prov & trk & ra & pra & de & pde & AC & RA & DE & EA).
  assert (is_kind "s" b = true) as KB.
  { destruct HB; try discriminate ZB; unfold is_kind; try (change (text_of _ $"code") with (cols 15 15 m); rewrite KM; reflexivity). rewrite H in KM. discriminate KM. }
  destruct (decodes_s m b HB KB) as (G & t' & p' & perm' & prov' & trk' & x & y & z & dp & sys & _ & SY & P1 & P2 & P3 & EB).
  assert (length l = 80) as L by now apply len80. pose proof G as G'. apply laid_out_fitp in G'. assert (length m = 80) as M by now apply lay80 in G'.
  set (d := joined a b) in *.
  assert (d = updated [($"sys", sys); ($"ctr", $"399"); ($"pos1", x); ($"pos2", y); ($"pos3", z)] a) as ED.
  { unfold d, joined. assert (is_kind "R" a = false) as ->. { rewrite EA. unfold is_kind. change (text_of _ $"code") with (cols 15 15 l). rewrite KL. reflexivity. } rewrite EB. reflexivity. }
  assert (text_of d $"code" = $"S") as CC. { rewrite ED, text_updated by reflexivity. rewrite EA. exact KL. }
  assert (text_of d $"sys" = sys /\ text_of d $"pos1" = x /\ text_of d $"pos2" = y /\ text_of d $"pos3" = z) as (T0 & T1 & T2 & T3) by (rewrite ED, EA; repeat split; reflexivity).
  destruct (not_left_out d _ CC I ltac:(discriminate)) as [L1 L2]. destruct (row_optical d xs L1 L2 R) as (pg & rf & PG & RF & ->).
  eexists. split; [reflexivity|]. split; [reflexivity|].
  change (print_record o (xtag (element $"optical" ofields (optical_text pg rf d)), subDict_of (element $"optical" ofields (optical_text pg rf d))))
    with (printOpticalLine o (subDict_of (element $"optical" ofields (optical_text pg rf d)))).
  destruct (first_col 35 45 m satellite_layout $"+-" M G' ltac:(lia) ltac:(lia) ltac:(lia) eq_refl) as (c1 & S1 & E1 & _).
  destruct (first_col 47 57 m satellite_layout $"+-" M G' ltac:(lia) ltac:(lia) ltac:(lia) eq_refl) as (c2 & S2 & E2 & _).
  destruct (first_col 59 69 m satellite_layout $"+-" M G' ltac:(lia) ltac:(lia) ltac:(lia) eq_refl) as (c3 & S3 & E3 & _).
  pose proof P1 as Q1. pose proof P2 as Q2. pose proof P3 as Q3. rewrite E1 in Q1. rewrite E2 in Q2. rewrite E3 in Q3.
  destruct (position_texty _ _ _ _ S1 Q1) as [X1 U1]. destruct (position_texty _ _ _ _ S2 Q2) as [X2 U2]. destruct (position_texty _ _ _ _ S3 Q3) as [X3 U3].
  rewrite <- E1 in U1. rewrite <- E2 in U2. rewrite <- E3 in U3.
  assert (sys = $"ICRF_AU" \/ sys = $"ICRF_KM") as SS by (destruct (streqb (cols 33 33 m) $"1"); injection SY as _ ->; auto).
  destruct (code_pair pg rf d "S" sys CC T0) as (C1 & C2 & C3); [right; auto|rewrite T1; destruct X1 as [XE XN]; rewrite XE; split; auto|].
  assert (source l d t p perm prov trk ra pra de pde) as SO. { rewrite ED, EA. apply source_updated; [apply source_line|reflexivity]. }
  rewrite (optical_back o l d t p perm prov trk ra pra de pde pg rf SO NL F AC RA DE O PG RF) by (rewrite C1; now rewrite KL).
  set (D := subDict_of _) in *. unfold optical_more. rewrite C2, C3. cbn [rbind].
  assert (kget $"pos1" D = Ok x /\ kget $"pos2" D = Ok y /\ kget $"pos3" D = Ok z) as (D1 & D2 & D3).
  { unfold kget, D. rewrite !oget by (vm_compute; tauto). rewrite (shown_texty (optical_text pg rf d) $"pos1" x T1 X1), (shown_texty (optical_text pg rf d) $"pos2" y T2 X2), (shown_texty (optical_text pg rf d) $"pos3" z T3 X3). auto. }
  rewrite D1, D2, D3. cbn [rbind]. 
  assert (satpos x dp = Ok (cols 35 45 m) /\ satpos y dp = Ok (cols 47 57 m) /\ satpos z dp = Ok (cols 59 69 m)) as (V1 & V2 & V3).
  { unfold satpos. rewrite U1, U2, U3. cbn [rbind]. rewrite !firstn_all2 by (rewrite cols_length; lia). auto. }
  assert (forall u, cols 33 33 m = [u] -> (cols 1 12 l ++ cols 13 13 l ++ cols 14 14 l) ++ $"s" ++ cols 16 32 l ++ [u; " "%char] ++
     cols 35 45 m ++ $" " ++ cols 47 57 m ++ $" " ++ cols 59 69 m ++ $" " ++ $"  " ++ cols 73 77 l ++ cols 78 80 l = m) as W.
  { intros u U. apply (second_head l m L M A1 A2 "s"); [exact KM|].
    rewrite (agree_sub 73 80 73 77 l m L M A3), (agree_sub 73 80 78 80 l m L M A3) by lia.
    assert (cols 70 72 m = spaces 3) as B by (apply (blanks_at 70 72 m satellite_layout); try lia; auto; fclass G').
    change ($" " ++ $"  " ++ cols 73 77 m ++ cols 78 80 m) with (spaces 3 ++ cols 73 77 m ++ cols 78 80 m). rewrite <- B.
    change [u; " "%char] with ([u] ++ $" "). rewrite <- U. rewrite <- B1 at 1. rewrite <- B2 at 1. rewrite <- B3 at 1. rewrite <- !app_assoc.
    rewrite (cols_app 73 77 80), (cols_app 70 72 80), (cols_app 59 69 80), (cols_app 58 58 80), (cols_app 47 57 80),
    (cols_app 46 46 80), (cols_app 35 45 80), (cols_app 34 34 80), (cols_app 33 33 80) by lia. reflexivity. }
  destruct (streqb (cols 33 33 m) $"1") eqn:Q; injection SY as -> ->.
  - change (streqb $"ICRF_KM" $"WGS84") with false. change (streqb $"ICRF_KM" $"ICRF_AU") with false. change (streqb $"ICRF_KM" $"ICRF_KM") with true.
    cbv iota. rewrite V1. cbn [rbind]. rewrite V2. cbn [rbind]. rewrite V3. cbn [rbind].
    refine (f_equal (fun z => Ok [l; z]) (W "1"%char _)). now apply streqb_eq in Q.
  - change (streqb $"ICRF_AU" $"WGS84") with false. change (streqb $"ICRF_AU" $"ICRF_AU") with true.
    cbv iota. rewrite V1. cbn [rbind]. rewrite V2. cbn [rbind]. rewrite V3. cbn [rbind].
    refine (f_equal (fun z => Ok [l; z]) (W "2"%char _)).
    destruct (first_col 33 34 m satellite_layout $"12" M G' ltac:(lia) ltac:(lia) ltac:(lia) eq_refl) as (c & SC & _ & EC). rewrite EC in *.
    apply in_kinds in SC. destruct SC as [<-|[<-|[]]]; [discriminate Q|reflexivity].
Qed.

Lemma strip_left a u : tidy u -> strip (spaces a ++ u) = u.
Proof. intros T. rewrite <- (app_nil_r u) at 1. change (@nil ascii) with (spaces 0). now apply strip_pad'. Qed.
Lemma rover_prints o l m a b q u : ~ In nl l -> ~ In nl m -> decode80 l = Ok a -> decode80 m = Ok b -> is_kind "0" a = false -> is_kind "0" b = false ->
  kind_is "V" l -> kind_is "v" m -> optical_kept l -> agree 1 14 l m -> agree 16 32 l m -> agree 72 80 l m ->
  placed 3 (cols 35 44 m) -> placed 3 (cols 46 55 m) -> cols 57 61 m = spaces q ++ u -> tidy u -> u <> [] -> prints o $"optical" [l; m] (joined a b).
Proof.
  intros NL NM HA HB ZA ZB KL KM O A1 A2 A3 B1 B2 B3 TU NU xs R. apply decode_iff in HA; [|exact NL]. apply decode_iff in HB; [|exact NM].
  assert (In "V"%char $"A PeCBTMcEOHNnSVX") as I by (vm_compute; tauto).
  destruct (decodes_optical l a _ HA ZA KL I) as (_ & F & t & p & perm & prov & trk & ra & pra & de & pde & AC & RA & DE & EA).
  assert (is_kind "v" b = true) as KB.
  { destruct HB; try discriminate ZB; unfold is_kind; try (change (text_of _ $"code") with (cols 15 15 m); rewrite KM; reflexivity). rewrite H in KM. discriminate KM. }
  destruct (decodes_v m b HB KB) as (G & t' & p' & perm' & prov' & trk' & _ & EB).
  assert (length l = 80) as L by now apply len80. pose proof G as G'. apply laid_out_fitp in G'. assert (length m = 80) as M by now apply lay80 in G'.
  set (d := joined a b) in *.
  assert (d = updated [($"sys", $"WGS84"); ($"ctr", $"399"); ($"pos1", cols 35 44 m); ($"pos2", cols 46 55 m); ($"pos3", cols 57 61 m)] a) as ED.
  { unfold d, joined. assert (is_kind "R" a = false) as ->. { rewrite EA. unfold is_kind. change (text_of _ $"code") with (cols 15 15 l). rewrite KL. reflexivity. } rewrite EB. reflexivity. }
  assert (text_of d $"code" = $"V") as CC. { rewrite ED, text_updated by reflexivity. rewrite EA. exact KL. }
  assert (text_of d $"sys" = $"WGS84" /\ text_of d $"pos1" = cols 35 44 m /\ text_of d $"pos2" = cols 46 55 m /\ text_of d $"pos3" = cols 57 61 m) as (T0 & T1 & T2 & T3) by (rewrite ED, EA; repeat split; reflexivity).
  assert (strip (cols 57 61 m) = u) as S3 by (rewrite B3; now apply strip_left).
  destruct (not_left_out d _ CC I) as [L1 L2]. { intros _. rewrite T3. unfold blank. rewrite S3. destruct u; [congruence|reflexivity]. }
  destruct (row_optical d xs L1 L2 R) as (pg & rf & PG & RF & ->).
  eexists. split; [reflexivity|]. split; [reflexivity|].
  change (print_record o (xtag (element $"optical" ofields (optical_text pg rf d)), subDict_of (element $"optical" ofields (optical_text pg rf d))))
    with (printOpticalLine o (subDict_of (element $"optical" ofields (optical_text pg rf d)))).
  destruct (placed_back 3 (cols 35 44 m) 11 B1) as [X1 U1]; [rewrite cols_length; lia..|].
  destruct (placed_back 3 (cols 46 55 m) 11 B2) as [X2 U2]; [rewrite cols_length; lia..|].
  rewrite cols_length in U1, U2 by lia.
  destruct (code_pair pg rf d "V" $"WGS84" CC T0) as (C1 & C2 & C3); [left; auto|rewrite T1; exact X1|].
  assert (source l d t p perm prov trk ra pra de pde) as SO. { rewrite ED, EA. apply source_updated; [apply source_line|reflexivity]. }
  rewrite (optical_back o l d t p perm prov trk ra pra de pde pg rf SO NL F AC RA DE O PG RF) by (rewrite C1; now rewrite KL).
  set (D := subDict_of _) in *. unfold optical_more. rewrite C2, C3. cbn [rbind].
  assert (kget $"pos1" D = Ok (strip (cols 35 44 m)) /\ kget $"pos2" D = Ok (strip (cols 46 55 m)) /\ kget $"pos3" D = Ok u) as (D1 & D2 & D3).
  { unfold kget, D. rewrite !oget by (vm_compute; tauto). unfold shown.
    change (optical_text pg rf d $"pos1") with (text_of d $"pos1"). change (optical_text pg rf d $"pos2") with (text_of d $"pos2"). change (optical_text pg rf d $"pos3") with (text_of d $"pos3").
    rewrite T1, T2, T3, S3. destruct X1 as [_ X1], X2 as [_ X2]. repeat split.
    - destruct (strip (cols 35 44 m)); [congruence|reflexivity].
    - destruct (strip (cols 46 55 m)); [congruence|reflexivity].
    - destruct u; [congruence|reflexivity]. }
  change (streqb $"WGS84" $"WGS84") with true. cbv iota. rewrite D1, D2, D3. cbn [rbind].
  change 11%Z with (Z.of_nat 11). change 4%Z with (Z.of_nat 4). rewrite U1. cbn [rbind]. rewrite U2. cbn [rbind].
  refine (f_equal (fun z => Ok [l; z]) _).
  change (spaces (11 - (44 - 35 + 1))) with ($" "). change (spaces (11 - (55 - 46 + 1))) with ($" ").
  rewrite !(firstn_all2 (n := 11)) by (rewrite app_length, cols_length by lia; cbn; lia).
  assert (padl 5 u = cols 57 61 m) as ->.
  { rewrite B3. unfold padl. assert (length (cols 57 61 m) = 5) as L5 by (rewrite cols_length; lia). rewrite B3, app_length in L5. unfold spaces in *. rewrite repeat_length in L5.
    f_equal. f_equal. lia. }
  apply (second_head l m L M A1 A2 "v"); [exact KM|].
  rewrite (agree_sub 72 80 73 77 l m L M A3), (agree_sub 72 80 78 80 l m L M A3), (agree_sub 72 80 72 72 l m L M A3) by lia.
  assert (cols 62 71 m = spaces 10) as Bl by (apply (blanks_at 62 71 m rover_layout); try lia; auto; fclass G').
  assert (cols 34 34 m = $" " /\ cols 45 45 m = $" " /\ cols 56 56 m = $" ") as (Z1 & Z2 & Z3).
  { repeat split; [apply (blanks_at 34 34 m rover_layout)|apply (blanks_at 45 45 m rover_layout)|apply (blanks_at 56 56 m rover_layout)]; try lia; auto; fclass G'. }
  assert (cols 33 33 m = $"1") as Z0.
  { destruct (first_col 33 34 m rover_layout $"1" M G' ltac:(lia) ltac:(lia) ltac:(lia) eq_refl) as (c & SC & _ & EC). rewrite EC. apply in_kinds in SC. destruct SC as [<-|[]]. reflexivity. }
  change ($" " ++ $"         " ++ cols 72 72 m ++ cols 73 77 m ++ cols 78 80 m) with (spaces 10 ++ cols 72 72 m ++ cols 73 77 m ++ cols 78 80 m). rewrite <- Bl.
  change ($"1 ") with ($"1" ++ $" "). rewrite <- Z0. rewrite <- Z1 at 1. rewrite <- Z2 at 1. rewrite <- Z3 at 1. rewrite <- !app_assoc.
  rewrite (cols_app 73 77 80), (cols_app 72 72 80), (cols_app 62 71 80), (cols_app 57 61 80), (cols_app 56 56 80), (cols_app 46 55 80),
    (cols_app 45 45 80), (cols_app 35 44 80), (cols_app 34 34 80), (cols_app 33 33 80) by lia. reflexivity.
Qed.
