(** Lemmas about Back80Spec, part 9: radar records. *)
From Verif Require PropsPack LineProofs3.
From Verif Require Import PyStrProofs JustSpec JustProofs AdesMasterTables FmtRe.
From Verif Require Import XmlToMpc80 Mpc80 Mpc80Spec Line80Spec LineProofs1 PackSpec DocSpec DocProofs2 DocProofs6 Mpc80Proofs1 Mpc80Proofs4 Mpc80Proofs11 Mpc80Proofs12.
From Verif Require Import Back80Spec Back80Proofs1 Back80Proofs2 Back80Proofs3 Back80Proofs4 Back80Proofs5 Back80Proofs6 Back80Proofs7 Back80Proofs8.
From Verif Require Import SexSpec.
From Verif Require Import Mpc80 Mpc80Spec Back80Spec.
Local Open Scope nat_scope.

Definition or_default (df v : str) : str := match strip v with [] => df | w => w end.
Lemma pointed_back n w : forallb numeric w = true -> points w = 0 -> n <= length w ->
  let W := firstn n w ++ $"." ++ skipn n w in
  texty (strip W) /\ exists r, padD (strip W) (Z.of_nat (S (length w))) (Z.of_nat (S n)) = Ok r /\ drop_at n r = w.
Proof.
  intros H P L W. assert (length W = S (length w)) as LW. { unfold W. rewrite !app_length, firstn_length, skipn_length. cbn. lia. }
  destruct (placed_back n W (S (length w)) (pointed n w H P L) ltac:(lia) ltac:(lia)) as [T E]. split; [exact T|].
  exists (W ++ spaces (S (length w) - length W)). split; [exact E|]. unfold W at 1. rewrite drop_pointed by exact L.
  rewrite LW, Nat.sub_diag. apply app_nil_r.
Qed.
Lemma implied_back n w r0 : forallb numeric w = true -> points w = 0 -> n <= length w ->
  padD (spaces (length w)) (Z.of_nat (S (length w))) (Z.of_nat (S n)) = Ok r0 -> drop_at n r0 = spaces (length w) ->
  exists r, padD (or_default (spaces (length w)) (implied_point n w)) (Z.of_nat (S (length w))) (Z.of_nat (S n)) = Ok r /\ drop_at n r = w.
Proof.
  intros H P L R D. unfold implied_point. destruct (streqb w (spaces (length w))) eqn:E.
  - apply streqb_eq in E. exists r0. unfold or_default. change (strip []) with (@nil ascii). split; [exact R|congruence].
  - destruct (pointed_back n w H P L) as [T K]. unfold or_default. destruct (strip _) eqn:Z; [destruct T; congruence|exact K].
Qed.
Lemma six_decimals y m d k N l : (1 <= k <= 6) -> (0 <= N < 10 ^ Z.of_nat k)%Z -> length l = 80 -> cols 16 32 l = date_text y m d k N -> cols 32 32 l <> $" " -> k = 6.
Proof.
  intros K RN L E B. destruct (Nat.eq_dec k 6) as [|Ne]; [assumption|]. exfalso. apply B.
  rewrite <- (cols_app 16 31 32) in E by lia.
  assert (exists q, date_text y m d k N = q ++ $" ") as (q & Q).
  { unfold date_text, padr. assert (length (SexSpec.num k N) = k) as LN by (apply LineProofs3.num_len; [lia|exact RN]). rewrite LN.
    replace (6 - k) with ((6 - k - 1) + 1) by lia. unfold spaces. rewrite repeat_app.
    exists (dec y ++ $" " ++ SexSpec.num 2 m ++ $" " ++ SexSpec.num 2 d ++ $"." ++ SexSpec.num k N ++ repeat " "%char (6 - k - 1)). rewrite <- !app_assoc. reflexivity. }
  rewrite Q in E. destruct (nth_cols 31 l) as (c & _ & C); [lia|]. rewrite C in *. now apply app_inj_tail in E as [_ ->].
Qed.

Lemma radar_prints o l m a b : ~ In nl l -> ~ In nl m -> decode80 l = Ok a -> decode80 m = Ok b -> is_kind "0" a = false -> is_kind "0" b = false ->
  kind_is "R" l -> kind_is "r" m -> radar_kept l m -> agree 1 12 l m -> agree 16 32 l m -> agree 69 80 l m -> prints o $"radar" [l; m] (joined a b).
Proof.
  intros NL NM HA HB ZA ZB KL KM O A1 A2 A3 xs R. apply decode_iff in HA; [|exact NL]. apply decode_iff in HB; [|exact NM].
  assert (is_kind "R" a = true) as KA.
  { destruct HA; try discriminate ZA; unfold is_kind; try (change (text_of _ $"code") with (cols 15 15 l); rewrite KL; reflexivity). rewrite H in KL. discriminate KL. }
  assert (is_kind "r" b = true) as KB.
  { destruct HB; try discriminate ZB; unfold is_kind; try (change (text_of _ $"code") with (cols 15 15 m); rewrite KM; reflexivity). rewrite H in KM. discriminate KM. }
  destruct (decodes_R l a HA KA) as (F & t & p & perm & prov & trk & shift & _ & (DT & _ & UN) & SH & EA).
  destruct (decodes_r m b HB KB) as (G & t' & p' & perm' & prov' & trk' & _ & _ & EB).
  apply laid_out_fitp in F, G. assert (length l = 80) as L by now apply lay80 in F. assert (length m = 80) as M by now apply lay80 in G.
  destruct O as [K1 [K2 K2'] K3 K4 K5 [K6 K6'] [K7 K7'] K8 (K9 & K9' & K9'') K10].
  destruct (date_back (cols 16 32 l) true t p ltac:(rewrite cols_length; lia) DT) as (T1 & _ & _ & T4 & (y & mo & dd & k & N & _ & KK & RN & EW & EP)).
  assert (k = 6) as -> by (exact (six_decimals y mo dd k N l KK RN L EW K3)). change (6 - Z.of_nat 6)%Z with 0%Z in EP. change (10 ^ 0)%Z with 1%Z in EP. subst p. change (prec_fl (PInt 1)) with (of_Z 1) in T4.
  set (d := joined a b) in *.
  assert (ED : d = updated [($"sc", cols 33 33 m); ($"com", if streqb (cols 33 33 m) $"S" then $"0" else $"1");
             ($"rmsDelay", implied_point 10 (cols 34 47 m)); ($"rmsDoppler", implied_point 11 (cols 48 62 m));
             ($"frq continuation", cols 63 68 m); ($"rcv", cols 78 80 m);
             ($"doppler", shift); ($"ref", cols 72 77 l)] a).
  { unfold d, joined. rewrite KA, EA, EB. reflexivity. }
  assert (is_kind "R" d = true /\ left_out d = false) as [R1 R2].
  { assert (text_of d $"code" = $"R") as CC. { rewrite ED, text_updated by reflexivity. rewrite EA. exact KL. }
    unfold is_kind, left_out, is_kind. rewrite CC. split; reflexivity. }
  unfold row in R. rewrite R1, R2 in R. unfold checked in R. destruct (xml_valid _); [|discriminate R]. injection R as <-.
  eexists. split; [reflexivity|]. split; [reflexivity|].
  set (D := subDict_of (element $"radar" rfields (text_of d))).
  change (printRadarLine D = Ok [l; m]).
  assert (forall k, In k rcheck -> dget k D = shown (text_of d) k) as DG by (intros; now apply rget).
  assert (forall k df v, In k rcheck -> text_of d k = v -> hasKeyOrVal D k df = or_default df v) as HG.
  { intros q df v I E. rewrite (has_or D q (text_of d)) by now apply DG. now rewrite E. }
  assert (forall k v, In k rcheck -> text_of d k = v -> texty v -> dget k D = Some v) as TG.
  { intros q v I E T. rewrite DG by exact I. now apply shown_texty. }
  assert (packTupleID (dget $"permID" D, dget $"provID" D, dget $"trkSub" D) = Ok (cols 1 12 l)) as ID.
  { rewrite !DG by (vm_compute; tauto). unfold shown.
    replace (text_of d $"permID") with (text_or perm) by (rewrite ED, EA; reflexivity). replace (text_of d $"provID") with (text_or prov) by (rewrite ED, EA; reflexivity).
    replace (text_of d $"trkSub") with (text_or trk) by (rewrite ED, EA; reflexivity). rewrite !shown_seen.
    assert (nonl (cols 1 12 l)) as N12 by (intros Q; apply NL; unfold cols in Q; rewrite <- (firstn_skipn 12 l); apply in_or_app; left; exact Q).
    apply id_back; auto. apply PropsPack.C12_unpack_pack; auto. rewrite cols_length; lia. }
  assert (hasKeyOrVal D $"disc" $" " = $" " /\ hasKeyOrVal D $"notes" $" " = $" ") as [DC NT].
  { unfold hasKeyOrVal, D. rewrite !element_get, (proj1 (proj2 rcheck_ok)), (proj2 (proj2 rcheck_ok)). auto. }
  assert (dget $"obsTime" D = Some t) as OT by (apply TG; [vm_compute; tauto|rewrite ED, EA; reflexivity|exact T1]).
  assert (texty (cols 69 71 l)) as X1 by (split; [exact K8|intros Q; apply (f_equal (@length ascii)) in Q; rewrite cols_length in Q by lia; discriminate Q]).
  assert (texty (cols 78 80 l)) as X2 by (split; [exact K10|intros Q; apply (f_equal (@length ascii)) in Q; rewrite cols_length in Q by lia; discriminate Q]).
  assert (texty (cols 73 77 l)) as X3 by (split; [exact K9'|intros Q; apply (f_equal (@length ascii)) in Q; rewrite cols_length in Q by lia; discriminate Q]).
  assert (dget $"trx" D = Some (cols 69 71 l)) as TR by (apply TG; [vm_compute; tauto|rewrite ED, EA; reflexivity|exact X1]).
  assert (dget $"rcv" D = Some (cols 78 80 l)) as RC.
  { apply TG; [vm_compute; tauto| |exact X2]. rewrite (agree_sub 69 80 78 80 l m L M A3) by lia. rewrite ED, EA. reflexivity. }
  assert (dget $"ref" D = Some (cols 73 77 l)) as RF.
  { rewrite DG by (vm_compute; tauto). unfold shown. replace (text_of d $"ref") with (cols 72 77 l) by (rewrite ED, EA; reflexivity).
    rewrite <- (cols_app 72 72 77) by lia. rewrite K9. destruct X3 as [X3 X3'].
    assert (strip ($" " ++ cols 73 77 l) = cols 73 77 l) as -> by (apply (strip_left 1); exact X3). destruct (cols 73 77 l); [congruence|reflexivity]. }
  assert (exists r, packRef (hasKeyOrVal D $"ref" $" ") = Ok r) as (rr & PR).
  { unfold hasKeyOrVal. rewrite RF. unfold packRef. change (slice 0 3 (cols 73 77 l)) with (firstn 3 (cols 73 77 l)).
    destruct (streqb (firstn 3 (cols 73 77 l)) $"MPC") eqn:Q1; [exfalso; apply streqb_eq in Q1; apply K9''; left; auto|].
    destruct (streqb (firstn 3 (cols 73 77 l)) $"MPS") eqn:Q2; [exfalso; apply streqb_eq in Q2; apply K9''; right; left; auto|]. eexists. reflexivity. }
  assert (forallb numeric (cols 33 47 l) = true) as N1 by fclass F.
  assert (forallb numeric (cols 49 62 l) = true) as N2 by fclass F.
  assert (forallb numeric (cols 63 68 l) = true) as N3 by fclass F.
  assert (forallb numeric (cols 34 47 m) = true) as N4 by fclass G.
  assert (forallb numeric (cols 48 62 m) = true) as N5 by fclass G.
  assert (length (cols 33 47 l) = 15 /\ length (cols 63 68 l) = 6 /\ length (cols 34 47 m) = 14 /\ length (cols 48 62 m) = 15 /\ length (cols 49 62 l) = 14) as (L1 & L2 & L3 & L4 & L5)
    by (rewrite !cols_length by lia; auto).
  assert (exists r, padD (hasKeyOrVal D $"delay" (spaces 15)) 16 6 = Ok r /\ drop_at 5 r = cols 33 47 l) as (r1 & P1 & Q1).
  { rewrite (HG $"delay" _ (implied_point 5 (cols 33 47 l))) by (try (vm_compute; tauto); rewrite ED, EA; reflexivity).
    destruct (implied_back 5 (cols 33 47 l) (spaces 16) N1 K4 ltac:(lia)) as (r & P & Q); [rewrite L1; vm_compute; reflexivity..|]. rewrite L1 in P. exists r. auto. }
  assert (exists r, padD (hasKeyOrVal D $"rmsDelay" (spaces 14)) 15 11 = Ok r /\ drop_at 10 r = cols 34 47 m) as (r2 & P2 & Q2).
  { rewrite (HG $"rmsDelay" _ (implied_point 10 (cols 34 47 m))) by (try (vm_compute; tauto); rewrite ED, EA; reflexivity).
    destruct (implied_back 10 (cols 34 47 m) (spaces 15) N4 K7 ltac:(lia)) as (r & P & Q); [rewrite L3; vm_compute; reflexivity..|]. rewrite L3 in P. exists r. auto. }
  assert (exists r, padD (hasKeyOrVal D $"rmsDoppler" (spaces 15)) 16 12 = Ok r /\ drop_at 11 r = cols 48 62 m) as (r3 & P3 & Q3).
  { rewrite (HG $"rmsDoppler" _ (implied_point 11 (cols 48 62 m))) by (try (vm_compute; tauto); rewrite ED, EA; reflexivity).
    destruct (implied_back 11 (cols 48 62 m) (spaces 16) N5 K7' ltac:(lia)) as (r & P & Q); [rewrite L4; vm_compute; reflexivity..|]. rewrite L4 in P. exists r. auto. }
  assert (exists r, padD (hasKeyOrVal D $"frq" (spaces 7)) 7 6 = Ok r /\ drop_at 5 r = cols 63 68 l) as (r4 & P4 & Q4).
  { rewrite (HG $"frq" _ (firstn 5 (cols 63 68 l) ++ $"." ++ skipn 5 (cols 63 68 l))) by (try (vm_compute; tauto); rewrite ED, EA; reflexivity).
    destruct (pointed_back 5 (cols 63 68 l) N3 K6 ltac:(lia)) as (T & r & P & Q). rewrite L2 in P. exists r. split; [|exact Q].
    unfold or_default. destruct (strip _) eqn:Z; [destruct T; congruence|exact P]. }
  assert (exists r, unPackSigned (hasKeyOrVal D $"doppler" (spaces 15)) 16 12 = Ok r /\ drop_at 11 r = cols 48 62 l) as (r5 & P5 & Q5).
  { rewrite (HG $"doppler" _ shift) by (try (vm_compute; tauto); rewrite ED, EA; reflexivity).
    unfold shift_of in SH. destruct K5 as [K5|[K5 K5']].
    - rewrite K5 in SH. change (streqb (spaces 15) (spaces 15)) with true in SH. cbv iota in SH. subst shift. exists (spaces 16). rewrite K5. vm_compute. auto.
    - destruct (first_col 48 62 l radar1_layout $"+- " L F ltac:(lia) ltac:(lia) ltac:(lia) eq_refl) as (c & SC & EC & EC').
      assert (one_of $"+-" c = true) as SC'.
      { rewrite EC' in K5'. apply in_kinds in SC. destruct SC as [<-|[<-|[<-|[]]]]; [reflexivity|reflexivity|exfalso; now apply K5']. }
      assert (streqb (cols 48 62 l) (spaces 15) = false) as SB.
      { apply Bool.not_true_is_false. intros Q. apply streqb_eq in Q. rewrite Q in EC. injection EC as <- _. vm_compute in SC'. discriminate SC'. }
      rewrite SB in SH. unfold implied_point in SH. assert (length (cols 48 62 l) = 15) as L6 by (rewrite cols_length; lia).
      rewrite L6, SB in SH. rewrite EC in SH, K5 |- *.
      assert (points (cols 49 62 l) = 0) as PZ.
      { unfold digits_only, points in *. cbn [filter] in K5. destruct (sign_dark c SC') as (_ & SG & _ & _). destruct (ceqb c ".") eqn:Q; [apply ceqb_eq in Q; subst c; discriminate SG|exact K5]. }
      destruct (shift_back c (cols 49 62 l) SC' N2 PZ L5) as [U V].
      change (firstn 11 (c :: cols 49 62 l) ++ $"." ++ skipn 11 (c :: cols 49 62 l)) with (c :: firstn 10 (cols 49 62 l) ++ $"." ++ skipn 10 (cols 49 62 l)) in SH.
      rewrite U in SH. injection SH as <-.
      destruct (sign_dark c SC') as (DK & _ & _ & _). pose proof (signed_texty c (firstn 10 (cols 49 62 l) ++ $"." ++ skipn 10 (cols 49 62 l)) DK) as T.
      unfold or_default. rewrite (texty_no _ T). rewrite V. eexists. split; [reflexivity|].
      change (c :: firstn 10 (cols 49 62 l) ++ $"." ++ skipn 10 (cols 49 62 l)) with (firstn 11 (c :: cols 49 62 l) ++ $"." ++ skipn 11 (c :: cols 49 62 l)).
      pose proof (drop_pointed 11 (c :: cols 49 62 l) [] ltac:(cbn [length]; lia)) as DP. rewrite !app_nil_r in DP. exact DP. }
  assert (exists s, hasKeyOrVal D $"com" $"0" = s /\ (if streqb s $"1" then Some $"C" else if streqb s $"0" then Some $"S" else None) = Some (cols 33 33 m)) as (s & E1 & E2).
  { eexists. split; [reflexivity|]. rewrite (HG $"com" _ (if streqb (cols 33 33 m) $"S" then $"0" else $"1")) by (try (vm_compute; tauto); rewrite ED, EA; reflexivity).
    destruct (first_col 33 34 m radar2_layout $"SC" M G ltac:(lia) ltac:(lia) ltac:(lia) eq_refl) as (c & SC & _ & EC). rewrite EC in *.
    apply in_kinds in SC. destruct SC as [<-|[<-|[]]]; reflexivity. }
  unfold printRadarLine, kget. rewrite ID. cbn [rbind]. cbv zeta. rewrite DC, NT, OT. cbn [rbind]. rewrite T4. cbn [rbind]. rewrite PR. cbn [rbind].
  rewrite P5. cbn [rbind]. rewrite P3. cbn [rbind]. rewrite P1. cbn [rbind]. rewrite P2. cbn [rbind]. rewrite P4. cbn [rbind]. rewrite TR, RF, RC. cbn [rbind].
  rewrite Q1, Q2, Q3, Q4, Q5, E1, E2. cbn [rbind].
  assert (cols 1 12 l ++ $" " ++ $" " ++ $"R" ++ cols 16 32 l ++ cols 33 47 l ++ cols 48 62 l ++ cols 63 68 l ++ cols 69 71 l ++ $" " ++ cols 73 77 l ++ cols 78 80 l = l) as ->.
  { change ($" " ++ $" " ++ $"R" ++ ?x) with (spaces 2 ++ $"R" ++ x). rewrite <- K2. rewrite <- K9. unfold kind_is in KL. change ($"R") with ["R"%char]. rewrite <- KL.
    rewrite (cols_app 73 77 80), (cols_app 72 72 80), (cols_app 69 71 80), (cols_app 63 68 80), (cols_app 48 62 80), (cols_app 33 47 80), (cols_app 16 32 80), (cols_app 15 15 80), (cols_app 13 14 80), (cols_app 1 12 80) by lia.
    now apply Mpc80Proofs11.whole. }
  assert (cols 1 12 l ++ $" " ++ $" " ++ $"r" ++ cols 16 32 l ++ cols 33 33 m ++ cols 34 47 m ++ cols 48 62 m ++ $"      " ++ cols 69 71 l ++ $" " ++ cols 73 77 l ++ cols 78 80 l = m) as ->; [|reflexivity].
  { change ($" " ++ $" " ++ $"r" ++ ?x) with (spaces 2 ++ $"r" ++ x). rewrite <- K2'. rewrite <- K9. rewrite (agree_sub 69 80 69 71 l m L M A3), (agree_sub 69 80 72 72 l m L M A3), (agree_sub 69 80 73 77 l m L M A3), (agree_sub 69 80 78 80 l m L M A3) by lia. rewrite A1, A2.
    unfold kind_is in KM. change ($"r") with ["r"%char]. rewrite <- KM. change ($"      ") with (spaces 6). rewrite <- K6'.
    rewrite (cols_app 73 77 80), (cols_app 72 72 80), (cols_app 69 71 80), (cols_app 63 68 80), (cols_app 48 62 80), (cols_app 34 47 80), (cols_app 33 33 80), (cols_app 16 32 80), (cols_app 15 15 80), (cols_app 13 14 80), (cols_app 1 12 80) by lia.
    now apply Mpc80Proofs11.whole. }
Qed.
