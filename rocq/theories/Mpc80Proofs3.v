From Verif Require Import FmtRe PyStrProofs PackProofs13 PackProofs14.
From Verif Require Import Mpc80.
From Verif Require Export Mpc80Proofs2.
Local Open Scope nat_scope.

(** * decode_checks *)
Definition iapp (a b : item) : item := @app (str * option str) a b.
Definition tail_checks (l : str) (D : item) : res item :=
  if negb (sin (cols 14 14 l) (if smem (cols 78 80 l) programCodeSites then validProgramCodes else validNotes))
  then Err RuntimeError
  else do (pp, trk) <- unpackPackedID (cols 1 12 l);
       let '(perm, prov) := pp in
       Ok (iapp D (iapp (texts [($"astCat", cols 72 72 l)]) (designation perm prov trk))).

Lemma sin1 c s : sin [c] s = cmem c s.
Proof. unfold sin, cmem. now rewrite sfind1. Qed.
Lemma note_any stn c : cmem c (if smem stn programCodeSites then validProgramCodes else validNotes) = true -> cmem c validProgramCodes = true.
Proof.
  destruct (smem stn programCodeSites); intros H; [exact H|].
  assert (forall c, implb (cmem c validNotes) (cmem c validProgramCodes) = true) as A by (apply forall_ascii; vm_compute; reflexivity).
  specialize (A c). now rewrite H in A.
Qed.
Lemma chat_cols l : length l = 80 -> chat (cols 72 77 l) 0 = Ok (hd " "%char (cols 72 72 l)) /\ cols 72 72 l = [hd " "%char (cols 72 72 l)].
Proof.
  intros L. destruct (nth_cols 71 l) as (c & N & C); [lia|]. rewrite C. cbn [hd]. split; auto.
  rewrite <- (cols_app 72 72 77 l) by lia. rewrite C. reflexivity.
Qed.
Lemma code_ok ps kinds l : length l = 80 -> fitp ps l = true -> nth_error ps 14 = Some (one_of kinds) ->
  forallb (fun c => implb (cmem c kinds) (cmem c validCodes)) allascii = true -> sin (cols 15 15 l) validCodes = true.
Proof.
  intros L F N A. destruct (kind_of _ _ _ F N) as (c & H1 & H2). destruct (nth_cols 14 l) as (c' & N' & C); [lia|].
  rewrite H1 in N'. injection N' as <-. rewrite C, sin1. pose proof (forall_ascii _ A c) as X. cbn in X. now rewrite H2 in X.
Qed.
Ltac look K v := match goal with |- context [iget K ?d] => change (iget K d) with (@Ok str v) end; cbn [rbind].
Ltac tailtac l L CK :=
  look $"code" (cols 15 15 l); look $"stn" (cols 78 80 l); look $"notes" (cols 14 14 l);
  rewrite CK; cbn [negb]; unfold tail_checks;
  destruct (nth_cols 13 l) as (nc & Nn & Nc); [lia|]; rewrite Nc, !sin1;
  destruct (cmem nc (if smem (cols 78 80 l) programCodeSites then validProgramCodes else validNotes)) eqn:E; cbn [negb]; [|reflexivity];
  rewrite (note_any _ _ E); cbn [negb];
  look $"packedref" (cols 72 77 l);
  destruct (chat_cols l L) as [Ch1 Ch2]; rewrite Ch1; cbn [rbind]; rewrite <- Ch2; look $"totalid" (cols 1 12 l);
  destruct (unpackPackedID (cols 1 12 l)) as [[[perm prov] trk]|e]; cbn [rbind]; reflexivity.

Lemma optical_checks l t p ra pra de pde : length l = 80 -> sin (cols 15 15 l) validCodes = true ->
  checkDate (cols 16 32 l) false = Ok (t, p) ->
  decode_checks (optical_dict l t p ra pra de pde) = tail_checks l (optical_dict l t p ra pra de pde).
Proof.
  intros L CK D. unfold decode_checks.
  match goal with |- context [dget $"trx" ?d] => change (dget $"trx" d) with (@None (option str)) end.
  unfold do_checkDate. look $"date" (cols 16 32 l). rewrite D. cbn [rbind].
  tailtac l L CK.
Qed.
Lemma radar1_checks l shift : length l = 80 -> sin (cols 15 15 l) validCodes = true ->
  decode_checks (radar1_dict l shift) =
  do (t, p) <- checkDate (cols 16 32 l) true; tail_checks l (iapp (radar1_dict l shift) (texts (time_fields t p))).
Proof.
  intros L CK. unfold decode_checks.
  match goal with |- context [dget $"trx" ?d] => change (dget $"trx" d) with (Some (Some (cols 69 71 l))) end.
  unfold do_checkDate. look $"date" (cols 16 32 l). destruct (checkDate (cols 16 32 l) true) as [[t p]|e]; cbn [rbind]; [|reflexivity].
  tailtac l L CK.
Qed.
Lemma radar2_checks l : length l = 80 -> sin (cols 15 15 l) validCodes = true ->
  decode_checks (radar2_dict l) =
  do (t, p) <- checkDate (cols 16 32 l) true; tail_checks l (iapp (radar2_dict l) (texts (time_fields t p))).
Proof.
  intros L CK. unfold decode_checks.
  match goal with |- context [dget $"trx" ?d] => change (dget $"trx" d) with (Some (Some (cols 69 71 l))) end.
  unfold do_checkDate. look $"date" (cols 16 32 l). destruct (checkDate (cols 16 32 l) true) as [[t p]|e]; cbn [rbind]; [|reflexivity].
  tailtac l L CK.
Qed.
Lemma satellite_checks l x y z sys : length l = 80 -> sin (cols 15 15 l) validCodes = true ->
  decode_checks (satellite_dict l x y z sys) =
  do (t, p) <- checkDate (cols 16 32 l) false; tail_checks l (iapp (satellite_dict l x y z sys) (texts (time_fields t p))).
Proof.
  intros L CK. unfold decode_checks.
  match goal with |- context [dget $"trx" ?d] => change (dget $"trx" d) with (@None (option str)) end.
  unfold do_checkDate. look $"date" (cols 16 32 l). destruct (checkDate (cols 16 32 l) false) as [[t p]|e]; cbn [rbind]; [|reflexivity].
  tailtac l L CK.
Qed.
Lemma rover_checks l : length l = 80 -> sin (cols 15 15 l) validCodes = true ->
  decode_checks (rover_dict l) =
  do (t, p) <- checkDate (cols 16 32 l) false; tail_checks l (iapp (rover_dict l) (texts (time_fields t p))).
Proof.
  intros L CK. unfold decode_checks.
  match goal with |- context [dget $"trx" ?d] => change (dget $"trx" d) with (@None (option str)) end.
  unfold do_checkDate. look $"date" (cols 16 32 l). destruct (checkDate (cols 16 32 l) false) as [[t p]|e]; cbn [rbind]; [|reflexivity].
  tailtac l L CK.
Qed.

(** * The satellite's positions *)
Lemma misplaced_true w v dp : misplaced w v dp = Ok false <-> unPackSigned v 11 dp = Ok w.
Proof.
  unfold misplaced. destruct (unPackSigned v 11 dp) as [u|e]; cbn [rbind].
  - destruct (streqb w u) eqn:E; cbn [negb].
    + apply streqb_eq in E as ->. split; auto.
    + split; intros H; [congruence|]. injection H as ->. rewrite streqb_refl in E. discriminate.
  - split; congruence.
Qed.

