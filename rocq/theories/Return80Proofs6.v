(** Lemmas of C50, part 6: what comes back from a line. *)
From Verif Require Import SchemaSpec PyStrProofs AdesMasterTables Schema XsdSpec SchemaSpec XsdFiles ValueSpec IdProofs5 RoundSpec RoundProofs2 RecordProofs1.
From Verif Require Import PyFloat SexVals XmlToMpc80 JustSpec JustProofs Line80Spec LineProofs1 PropsMpc80 DocProofs1 DocProofs3 ValueProofs9.
From Verif Require Import Mpc80 Mpc80Spec Mpc80Proofs1 Mpc80Proofs11 PackSpec DocSpec Back80Spec Back80Proofs4 Back80Proofs5 Back80Proofs6 Back80Proofs7 Back80Proofs10 SexSpec Print80Spec Submit80Spec Submit80Proofs5 Return80Spec Return80Proofs1 Return80Proofs2 Return80Proofs3 Return80Proofs4 Return80Proofs5.
From Verif Require Import Mpc80Spec DocSpec.
Local Open Scope nat_scope.

Lemma disc_strip s : In s [$" "; $"*"; $"+"] -> strip s = if streqb s $" " then [] else s.
Proof. intros [<-|[<-|[<-|[]]]]; vm_compute; reflexivity. Qed.
Lemma an_band b : forallb alnum_ b = true -> b <> [] -> strip (band_letter b) = band_letter b /\ band_letter b <> [].
Proof.
  intros A N. assert (forallb alnum_ (band_letter b) = true /\ band_letter b <> []) as (A' & N').
  { unfold band_letter. destruct b as [|x [|y s]]; [now destruct N| |]; cbn [forallb] in A; apply andb_true_iff in A as [A1 A2].
    - destruct (smem _ _); cbn [firstn forallb]; rewrite A1; split; (reflexivity || discriminate).
    - apply andb_true_iff in A2 as [A2 _]. destruct (smem _ _); cbn [firstn forallb]; rewrite ?A1, ?A2; split; (reflexivity || discriminate). }
  split; [now apply an_strip|exact N'].
Qed.
Definition rest_fields : list str := Eval vm_compute in filter (fun x => negb (smem x (map lit returned_fields))) ofields.
Lemma rest_split x : smem x ofields = true -> In x (map lit returned_fields) \/ In x rest_fields.
Proof.
  intro I. destruct (smem x (map lit returned_fields)) eqn:E; [left; now apply smem_iff|right].
  assert (rest_fields = filter (fun x => negb (smem x (map lit returned_fields))) ofields) as -> by (vm_compute; reflexivity). apply filter_In. split; [now apply smem_iff|now rewrite E].
Qed.
Lemma in_fields x : In x (map lit returned_fields) -> smem x ofields = true.
Proof. intro I. vm_compute in I. repeat (destruct I as [<-|I]; [vm_compute; reflexivity|]). destruct I. Qed.
Lemma modes_strip : forallb (fun c => streqb (strip (mode_of [c])) (mode_of [c])) $"PeCBTMcEOHNn SV" = true. Proof. vm_compute. reflexivity. Qed.

Lemma strip_mode c : In c $"PeCBTMcEOHNn SV" -> strip (mode_of [c]) = mode_of [c].
Proof. intro I. pose proof modes_strip as M. rewrite forallb_forall in M. specialize (M c I). now apply streqb_eq in M. Qed.
Section Line.
Variable F : derivation -> str -> Prop.
Variable RV : reads_values F.
Variable r : xml.
Hypothesis V : valid F submit_xsd r.
Variable o : opts80.
Hypothesis So : standard o.
Hypothesis Tg : In (xtag r) [$"optical"; $"occultation"].
Variables l id c date ra de mag : str.
Variables i j k : nat.
Variables q q' : Q.
Hypothesis PA : parts r o l id c date ra de mag i j k q q'.
Hypothesis LG : legible l.
Variables t ra' de' : str.
Variables perm prov trk : option str.
Variables qr qd : Q.
Hypothesis UN : unpackPackedID id = Ok (perm, prov, trk).
Hypothesis T1 : strip t = t. Hypothesis T2 : near_time i (rec_value r $"obsTime") t.
Hypothesis R1 : strip ra' = ra'. Hypothesis R2 : decimal_value ra' qr. Hypothesis R3 : (Qabs (qr - q) <= (86 # 100) / inject_Z (10 ^ Z.of_nat j) * (1 # 240))%Q.
Hypothesis D1 : strip de' = de'. Hypothesis D2 : decimal_value de' qd. Hypothesis D3 : (Qabs (qd - q') <= (86 # 100) / inject_Z (10 ^ Z.of_nat k) * (1 # 3600))%Q.
Let d := dd l i j k t ra' de' perm prov trk.
Let CO := cols_are r o l id c date ra de mag i j k q q' PA.
Variable pg : str.
Variable dj : item.
Hypothesis SD : forall x, smem x locs = false -> text_of dj x = text_of d x.
Hypothesis LF : forall x, smem x locs = true -> fine (text_of dj x).
Hypothesis LD : if located r
    then strip (text_of dj $"sys") = rec_value r $"sys" /\ strip (text_of dj $"ctr") = $"399" /\
      forall x, In x ["pos1"; "pos2"; "pos3"]%string -> strip (text_of dj $x) = position_back (rec_value r $"sys") (rec_value r $x)
    else forall x, In x location_fields -> text_of dj $x = [].
Hypothesis P1 : program dj = Ok pg.
Hypothesis P2 : strip pg = pg.
Let e := element $"optical" ofields (optical_text pg (spaces 5) dj).
Lemma same_optical x : smem x locs = false -> optical_text pg (spaces 5) dj x = optical_text pg (spaces 5) d x.
Proof.
  intro N. unfold optical_text, has_programs, is_kind. rewrite (SD x N), (SD $"code"), (SD $"astCat"), (SD $"mag"), (SD $"band"), (SD $"notes"), (SD $"stn") by (vm_compute; reflexivity). reflexivity.
Qed.
Lemma val x : In $x (map lit returned_fields) /\ smem $x locs = false -> rec_value e $x = strip (optical_text pg (spaces 5) d $x).
Proof. intros (I & N). unfold e. rewrite element_value, (in_fields _ I), (same_optical _ N). reflexivity. Qed.
Lemma val_loc x : In x location_fields -> rec_value e $x = strip (text_of dj $x).
Proof. intro I. unfold e. rewrite element_value. repeat (destruct I as [<-|I]; [reflexivity|]). destruct I. Qed.
Lemma is_field x : In x returned_fields -> In $x (map lit returned_fields). Proof. apply in_map. Qed.
Ltac fld := split; [apply is_field; unfold returned_fields; cbn [In]; tauto|vm_compute; reflexivity].
Lemma mag_is : strip (cols 66 70 l) = firstn (5 - (2 - length (before_point (rec_value r $"mag")))) (rec_value r $"mag").
Proof.
  rewrite (co_mag _ _ _ _ _ _ _ _ CO). exact (proj1 (proj2 (mag_columns _ _ (pa_mag _ _ _ _ _ _ _ _ _ _ _ _ _ _ PA) (mag_dark F RV r V Tg)))).
Qed.
Lemma mag_blank : blank (cols 66 70 l) = match rec_value r $"mag" with [] => true | _ => false end.
Proof.
  unfold blank. rewrite mag_is. destruct (rec_value r $"mag") as [|x s]; [destruct (5 - (2 - length (before_point []))); reflexivity|].
  destruct (5 - (2 - length (before_point (x :: s)))) eqn:E; [lia|]. reflexivity.
Qed.
Lemma comes_back : returned o r e l.
Proof.
  constructor.
  - reflexivity.
  - exists perm, prov, trk. rewrite (co_id _ _ _ _ _ _ _ _ CO). split; [exact UN|].
    rewrite !val by fld.
    change (optical_text pg (spaces 5) d $"permID") with (text_of d $"permID"). change (optical_text pg (spaces 5) d $"provID") with (text_of d $"provID"). change (optical_text pg (spaces 5) d $"trkSub") with (text_of d $"trkSub").
    unfold text. destruct perm, prov, trk; repeat split; reflexivity.
  - intros x [<-|[<-|[]]]; rewrite val by fld.
    + change (optical_text pg (spaces 5) d $"stn") with (cols 78 80 l). rewrite (co_st _ _ _ _ _ _ _ _ CO). apply an_strip. exact (stn_an F RV r V Tg).
    + change (optical_text pg (spaces 5) d $"disc") with (cols 13 13 l). rewrite (co_disc _ _ _ _ _ _ _ _ CO). rewrite (dgiven r "disc"). destruct (disc_in F RV r V Tg) as [-> |[-> | ->]]; vm_compute; reflexivity.
  - rewrite val by fld. change (optical_text pg (spaces 5) d $"mode") with (mode_of (cols 15 15 l)). rewrite (co_c _ _ _ _ _ _ _ _ CO). destruct (code_is r o l id c date ra de mag i j k q q' PA) as (y & -> & I & E). rewrite <- E. now apply strip_mode.
  - destruct (located r).
    + destruct LD as (H1 & H2 & H3). rewrite !val_loc by (unfold location_fields; cbn [In]; tauto). split; [exact H1|]. split; [exact H2|]. intros x I. rewrite val_loc; [now apply H3|]. unfold location_fields. cbn [In] in *. tauto.
    + intros x I. now rewrite (val_loc x I), (LD x I).
  - exists i, j, k. split; [exact (pa_places _ _ _ _ _ _ _ _ _ _ _ _ _ _ PA)|]. rewrite !val by fld.
    change (optical_text pg (spaces 5) d $"obsTime") with t. change (optical_text pg (spaces 5) d $"ra") with ra'. change (optical_text pg (spaces 5) d $"dec") with de'. rewrite T1, R1, D1.
    split; [exact T2|]. split; [exists q, qr|exists q', qd].
    + split; [exact (pa_q _ _ _ _ _ _ _ _ _ _ _ _ _ _ PA)|]. split; [exact R2|exact R3].
    + split; [exact (pa_q' _ _ _ _ _ _ _ _ _ _ _ _ _ _ PA)|]. split; [exact D2|exact D3].
  - rewrite val by fld. change (optical_text pg (spaces 5) d $"astCat") with (catalogue (cols 72 72 l)). rewrite (co_ct _ _ _ _ _ _ _ _ CO).
    destruct (cat_letter (rec_value r $"astCat")) as (z & -> & Iz). exact (proj1 (proj1 (cat_back z Iz))).
  - rewrite val by fld. change (optical_text pg (spaces 5) d $"mag") with (cols 66 70 l). exact mag_is.
  - rewrite val by fld. change (optical_text pg (spaces 5) d $"band") with (if blank (cols 66 70 l) then [] else if blank (cols 71 71 l) then $"UNK" else cols 71 71 l).
    rewrite mag_blank. destruct (rec_value r $"mag") as [|x s] eqn:M.
    + apply (proj1 (mag_band F RV r V Tg)) in M. rewrite M. vm_compute. reflexivity.
    + assert (rec_value r $"band" <> []) as B by (intro B; apply (proj2 (mag_band F RV r V Tg)) in B; rewrite M in B; discriminate B).
      rewrite (co_bd _ _ _ _ _ _ _ _ CO), (dgiven r "band"). destruct (an_band _ (band_an F RV r V Tg) B) as (E & N).
      assert (match rec_value r $"band" with [] => $" " | _ => rec_value r $"band" end = rec_value r $"band") as Q by (destruct (rec_value r $"band"); [now destruct B|reflexivity]).
      destruct (rec_value r $"band") as [|y b] eqn:Y; [now destruct B|]. unfold blank. rewrite E. destruct (band_letter (y :: b)) eqn:Z; [now destruct N|]. exact E.
  - cbv zeta. rewrite !val by fld. destruct (program_is F RV r V o Tg l id c date ra de mag i j k q q' PA LG t ra' de' perm prov trk dj SD) as (pg' & P & _ & _ & H). rewrite P1 in P. injection P as <-.
    change (optical_text pg (spaces 5) d $"prog") with pg. change (optical_text pg (spaces 5) d $"notes") with (if smem (cols 78 80 l) programCodeSites then [] else cols 14 14 l).
    rewrite P2, (co_st _ _ _ _ _ _ _ _ CO), (co_nt _ _ _ _ _ _ _ _ CO), nt_is. cbv zeta in H. destruct (smem (rec_value r $"stn") programCodeSites).
    + split; [reflexivity|exact H].
    + split; [|exact H]. destruct (firstn 1 (rec_value r $"notes")) as [|x s] eqn:N; [vm_compute; reflexivity|]. destruct (nt_dark F RV r V Tg x s N) as (Dk & ->). apply one_strip. exact Dk.
  - rewrite !val by fld. change (optical_text pg (spaces 5) d $"precTime") with (prec_str (PInt (10 ^ (6 - Z.of_nat i)))). change (optical_text pg (spaces 5) d $"precRA") with (prec_str (PTen j)). change (optical_text pg (spaces 5) d $"precDec") with (prec_str (PTen k)).
    destruct (pa_places _ _ _ _ _ _ _ _ _ _ _ _ _ _ PA) as [(E & -> & -> & ->)|(E & -> & -> & ->)]; destruct So as [(S1 & S2 & S3)|(S1 & S2 & S3)]; rewrite E in S1; try discriminate S1; rewrite E, S2, S3; vm_compute; tauto.
  - rewrite val by fld. vm_compute. reflexivity.
  - intros x N. unfold e in N. rewrite element_value in N. destruct (smem x ofields) eqn:I; [|now destruct N]. destruct (rest_split x I) as [J|J]; [exact J|exfalso; apply N; clear N I].
    rewrite same_optical by (unfold rest_fields in J; clear - J; repeat (destruct J as [<-|J]; [vm_compute; reflexivity|]); destruct J).
    destruct (code_is r o l id c date ra de mag i j k q q' PA) as (y & Ey & Iy & _). pose proof (co_c _ _ _ _ _ _ _ _ CO) as Cc.
    assert (is_kind "X" d = false /\ is_kind "A" d = false) as (E1 & E2).
    { unfold is_kind. change (text_of d $"code") with (cols 15 15 l). rewrite Cc, Ey. clear - Iy. vm_compute in Iy. repeat (destruct Iy as [<-|Iy]; [vm_compute; tauto|]). destruct Iy. }
    unfold rest_fields in J. cbn [In] in J.
    repeat (destruct J as [<-|J]; [solve [vm_compute; reflexivity | match goal with |- strip ?z = _ => first [change z with (if is_kind "X" d then $"X" else []); rewrite E1|change z with (if is_kind "A" d then $"B1950.0" else []); rewrite E2]; reflexivity end]|]).
    destruct J.
Qed.
End Line.
