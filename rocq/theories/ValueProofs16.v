(** Lemmas about ObsSpec: the observations of a file. *)
From Verif Require Import PyStrProofs PackSpec AdesMasterTables FileLines Back80Spec Back80Proofs6 Back80Proofs7 Back80Proofs8 Back80Proofs10.
From Verif Require Import Mpc80 Mpc80Spec Mpc80Proofs4 Mpc80Proofs11 Mpc80Proofs12 DocSpec DocProofs2 DocProofs6 ValidSpec RecordSpec.
From Verif Require Import ValueSpec ObsSpec XsdFiles ValueProofs1 ValueProofs11 ValueProofs15.
From Verif Require PropsMpc80 RecordProofs10 TablesProofs.
From Verif Require Import ValueProofs8.
From Verif Require Import PropsDoc Back80Spec Mpc80Spec.
Local Open Scope nat_scope.

Lemma yields_line_x l d c : ~ In nl l -> data_line l d -> kind_is c l -> In c $"A PeCBTMcEOHNnXx" -> yields [l] d.
Proof.
  intros NL D K I rest. rewrite read_app. unfold read at 1. cbn [flat_map]. rewrite (dl_read _ _ D NL). cbn [app records].
  assert (first_line d = false /\ second_line d = false) as [E1 E2].
  { unfold first_line, second_line, is_kind. rewrite (dl_code _ _ D), K.
    clear - I. vm_compute in I. repeat (destruct I as [<-|I]; [split; vm_compute; reflexivity|]). destruct I. }
  rewrite E1, E2. destruct (records (read rest)). reflexivity.
Qed.
Lemma rover_height m b : ~ In nl m -> decode80 m = Ok b -> is_kind "0" b = false -> cols 15 15 m = $"v" -> text_of b $"pos3" = cols 57 61 m.
Proof.
  intros NM HB ZB KM. apply (PropsMpc80.C26_decode m b NM) in HB. assert (is_kind "v" b = true) as KB.
  { destruct HB; try discriminate ZB; unfold is_kind; try (change (text_of _ $"code") with (cols 15 15 m); rewrite KM; reflexivity). rewrite H in KM. discriminate KM. }
  destruct (decodes_v m b HB KB) as (G0 & t' & p' & perm' & prov' & trk' & _ & EB). rewrite EB. reflexivity.
Qed.
(** what the theorems say of one observation *)
Record seen_as (nosplit : bool) (ch : list str) (d : item) : Prop := {
  s_yields : yields ch d; s_unsplit : nosplit = false -> unsplit ch; s_data : header d = false; s_out : left_out d = omitted ch;
  s_radar : is_kind "R" d = by_radar ch; s_len : Forall (fun l => length l <= 80) ch;
  s_fine : forall F, reads_values F -> left_out d = false -> row optical_fields radar_fields d <> None ->
    (record_fine F general_xsd optical_fields radar_fields d <-> taken ch) }.
Lemma row_optical d : left_out d = false -> is_kind "R" d = false -> row optical_fields radar_fields d <> None -> exists p r, program d = Ok p /\ reference d = Ok r.
Proof.
  intros L R N. unfold row in N. rewrite L, R in N. destruct (program d) as [p|]; [|now elim N]. destruct (reference d) as [r|]; [|now elim N]. exists p, r. auto.
Qed.
Lemma fine_optical F d p r : is_kind "R" d = false -> program d = Ok p -> reference d = Ok r ->
  (record_fine F general_xsd optical_fields radar_fields d <-> fields_fine F general_xsd $"optical" optical_fields (optical_text p r d)).
Proof.
  intros R P Q. unfold record_fine. rewrite R. split; [|intro H; exists p, r; auto].
  intros (p' & r' & P' & Q' & H). rewrite P in P'. rewrite Q in Q'. apply ok_inj in P', Q'. now subst.
Qed.
Lemma obs_seen nosplit ch : observation ch -> Forall plain_line ch -> whole nosplit ch -> exists d, seen_as nosplit ch d.
Proof.
  intros H P W. destruct H as [l c (a & HA & ZA) K I|l m c c' (a & HA & ZA) (b & HB & ZB) K K' I A1 A2 A3 A4].
  - apply Forall_inv in P as [NL _]. pose proof (data_lines l a c NL HA ZA K) as D. exists a.
    assert (is_kind "R" a = false /\ is_kind "V" a = false) as [NR NV].
    { unfold is_kind. rewrite (dl_code _ _ D), K. clear -I. vm_compute in I. repeat (destruct I as [<-|I]; [split; vm_compute; reflexivity|]). destruct I. }
    assert (left_out a = streqb (cols 15 15 l) $"x") as LO by (unfold left_out; rewrite NV; cbn [andb]; rewrite orb_false_r; unfold is_kind; now rewrite (dl_code _ _ D)).
    constructor.
    + exact (yields_line_x l a c NL D K I).
    + intros _. apply (unsplit_line l a c D K). intros ->. clear -I. vm_compute in I. intuition discriminate.
    + exact ZA.
    + exact LO.
    + unfold is_kind, by_radar. now rewrite (dl_code _ _ D).
    + constructor; [rewrite (dl_len _ _ D); lia|constructor].
    + intros F (RT & RD & RI & RM) L N. destruct (row_optical a L NR N) as (p & r & EP & ER). rewrite (fine_optical F a p r NR EP ER).
      apply (line_values F RT RD RM l a c p r NL HA ZA K); [|exact EP|exact ER].
      rewrite LO, K in L. apply in_app_or with (l := $"A PeCBTMcEOHNnX") (m := $"x") in I as [I|[<-|[]]]; [exact I|discriminate L].
  - pose proof (Forall_inv P) as [NL _]. pose proof (Forall_inv (Forall_inv_tail P)) as [NM _].
    pose proof (data_lines l a _ NL HA ZA K) as D. pose proof (data_lines m b _ NM HB ZB K') as D'. exists (joined a b).
    assert (forall k, is_kind k a = streqb [c] $k) as KA by (intro k; unfold is_kind; now rewrite (dl_code _ _ D), K).
    assert (text_of (joined a b) $"code" = [c]) as CJ.
    { unfold joined. destruct (is_kind "R" a); rewrite text_updated by reflexivity; now rewrite (dl_code _ _ D), K. }
    assert (length l <= 80 /\ length m <= 80) as [LL LM] by (rewrite (dl_len _ _ D), (dl_len _ _ D'); lia).
    assert (header (joined a b) = false) as HD by (unfold header, is_kind; rewrite CJ; destruct I as [I|[I|[I|[]]]]; injection I as <- <-; reflexivity).
    assert (left_out (joined a b) = omitted [l; m]) as LO.
    { unfold left_out, is_kind, omitted. rewrite CJ, K. destruct I as [I|[I|[I|[]]]]; injection I as <- <-; try reflexivity.
      change (streqb ["V"%char] $"V") with true. change (streqb ["V"%char] $"x") with false. cbn [orb andb]. unfold joined. rewrite KA.
      change (streqb ["V"%char] $"R") with false. cbv iota. rewrite (rover_height m b NM HB ZB K') || idtac.
      change (text_of (updated (map (fun k : str => (k, text_of b k)) [$ "sys"; $ "ctr"; $ "pos1"; $ "pos2"; $ "pos3"]) a) $ "pos3") with (text_of (iset $"pos3" (text_of b $"pos3") (iset $"pos2" (text_of b $"pos2") (iset $"pos1" (text_of b $"pos1") (iset $"ctr" (text_of b $"ctr") (iset $"sys" (text_of b $"sys") a))))) $"pos3").
      unfold text_of at 1, iset at 1. rewrite TablesProofs.dget_dset_eq. now rewrite (rover_height m b NM HB ZB K'). }
    constructor; [exact (yields_pair l m a b c c' NL NM D D' K K' I A1 A2 A3 A4)| |exact HD|exact LO|unfold is_kind, by_radar; rewrite CJ; cbn [hd]; now rewrite K|constructor; [exact LL|constructor; [exact LM|constructor]]|].
    + intros ->. destruct I as [I|[I|[I|[]]]]; injection I as <- <-.
      * apply (unsplit_radar l m a D K K'). destruct W as [W|W]; [discriminate W|]. apply Forall_inv in W. apply W. exact K.
      * change [l; m] with ([l] ++ [m]). apply unsplit_app; [apply (unsplit_line l a "S" D K); discriminate|apply (unsplit_line m b "s" D' K'); discriminate].
      * change [l; m] with ([l] ++ [m]). apply unsplit_app; [apply (unsplit_line l a "V" D K); discriminate|apply (unsplit_line m b "v" D' K'); discriminate].
    + intros F (RT & RD & RI & RM) L N. unfold taken. rewrite !K.
      assert (is_kind "R" (joined a b) = streqb [c] $"R") as RJ by (unfold is_kind; now rewrite CJ).
      destruct I as [I|[I|[I|[]]]]; injection I as <- <-.
      * unfold record_fine. rewrite RJ. exact (radar_values F RT RD RI RM l m a b NL NM HA HB ZA ZB K K').
      * destruct (row_optical _ L RJ N) as (p & r & EP & ER). rewrite (fine_optical F _ p r RJ EP ER). exact (satellite_values F RT RD RI RM l m a b p r NL NM HA HB ZA ZB K K' EP ER).
      * destruct (row_optical _ L RJ N) as (p & r & EP & ER). rewrite (fine_optical F _ p r RJ EP ER). exact (rover_values F RT RD RI RM l m a b p r NL NM HA HB ZA ZB K K' EP ER).
Qed.
