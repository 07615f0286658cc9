(** C49: which valid submissions can be written in 80 columns, and what the lines
    then say.  Vocabulary: Submit80Spec.v. *)
From Verif Require Import PyStrProofs AdesMasterTables XsdMatch2 Submit80Proofs4 Submit80Proofs5 Submit80Proofs6 IdProofs5.
From Verif Require Import Schema XsdSpec SchemaSpec XsdPattern XsdFiles PropsPrint PropsValue ValueSpec Mpc80 Mpc80Spec PyFloat SexVals XmlToMpc80 PsvSpec2 LayoutSpec Print80Spec Submit80Spec.
Local Open Scope nat_scope.

(** A valid optical or occultation record whose time is not within a leap second is
    written exactly when it has a designation that can be packed, a position as its
    station calls for, and a mode or system of coordinates with a code. *)
Theorem C49_record F o r : reads_values F -> standard o -> valid F submit_xsd r ->
  In (xtag r) [$"optical"; $"occultation"] -> plain_time (rec_value r $"obsTime") ->
  ((exists ls, record80 o r ls) <-> identified r /\ placed r /\ coded r).
Proof. intros RV So V T P. exact (lines_iff F RV r V o So T P). Qed.
(** Nothing is written for offsets, and no valid submission of radar data is written. *)
Theorem C49_offset o r ls : xtag r = $"offset" -> (record80 o r ls <-> ls = []).
Proof. exact (offset_lines o r ls). Qed.
Theorem C49_radar F o r ls : valid F submit_xsd r -> xtag r = $"radar" -> ~ record80 o r ls.
Proof. exact (no_radar F o r ls). Qed.
(** A valid submission is written exactly when all its records are. *)
Theorem C49_document F o t : reads_values F -> standard o -> valid F submit_xsd t -> xtag t = $"ades" ->
  (forall r, In r (observations t) -> plain_time (rec_value r $"obsTime")) ->
  ((exists ls, xmltompc80col_lines ades_tables o t = Ok ls) <-> forall r, In r (observations t) -> writable r).
Proof. intros RV So V T P. exact (document80 F RV o So t V T P). Qed.
(** When station, name and height fit, all lines have 80 columns and the first shows
    the time, the right ascension and the declination up to 0.52 of the last digit. *)
Theorem C49_columns F o r ls : reads_values F -> standard o -> valid F submit_xsd r ->
  In (xtag r) [$"optical"; $"occultation"] -> plain_time (rec_value r $"obsTime") -> fitting r -> record80 o r ls ->
  (forall l, In l ls -> length l = 80) /\
  exists l rest i j k q q', ls = l :: rest /\ places o i j k /\ shows_time i (cols 16 32 l) (rec_value r $"obsTime") /\
    decimal_value (ra_of r) q /\ shows_ra j (cols 33 44 l) q /\ decimal_value (dec_of r) q' /\ shows_dec k (cols 45 56 l) q'.
Proof. intros RV So V T P Fi. exact (columns F RV r V o So T P Fi ls). Qed.

(** * Examples, and what is not so *)
Lemma standard_default : standard opts_default. Proof. left. repeat split. Qed.
Lemma standard_low : standard opts_lowPrec. Proof. right. repeat split. Qed.
Definition obs (id : list xml) (mode stn : string) (place : list xml) (time ra : string) (rest : list xml) : xml :=
  el "optical" (id ++ [lf "mode" mode; lf "stn" stn] ++ place ++ [lf "obsTime" time; lf "ra" ra; lf "dec" "-1.25"; lf "astCat" "Gaia2"] ++ rest).
Definition in_orbit (sys p1 : string) : list xml := [lf "sys" sys; lf "ctr" "399"; lf "pos1" p1; lf "pos2" "-2.5"; lf "pos3" "10"].
Definition eros : list xml := [lf "permID" "433"].
Definition obs1 : xml := obs eros "CCD" "I41" [] "2017-01-01T12:00:00Z" "15.5" [lf "mag" "18.5"; lf "band" "Vj"].
Definition obs2 : xml := obs eros "CCD" "C51" (in_orbit "ICRF_KM" "1234.5") "2017-01-01T12:00:00.5Z" "359.9999999" [].
Definition sub (rs : list xml) : xml := Elem $"ades" [($"version", $"2022")] [] [el "obsBlock" [el "obsContext" [el "observatory" [lf "mpcCode" "I41"]; el "submitter" [lf "name" "A. Bee"]; el "measurers" [lf "name" "A. Bee"];
  el "telescope" [lf "design" "reflector"; lf "aperture" "1.0"; lf "detector" "CCD"]]; el "obsData" rs]].
Lemma example_valid : valid reading submit_xsd obs1 /\ valid reading submit_xsd obs2 /\ valid reading submit_xsd (sub [obs1; obs2]).
Proof. do 2 (split; [apply valid_values; vm_compute; reflexivity|]). apply valid_values; vm_compute; reflexivity. Qed.
Lemma plain_noon f t : forallb isdig f = true -> (length f <= 6) -> t = iso_time 2017 1 1 43200 f -> plain_time t.
Proof. intros D L ->. exists 2017%Z, 1%Z, 1%Z, 43200%Z, f. split; [repeat split; vm_compute; intro X; discriminate X|]. split; [split; [intro X; discriminate X|reflexivity]|]. now repeat split. Qed.
Lemma plain_examples : forall r, In r [obs1; obs2] -> plain_time (rec_value r $"obsTime").
Proof.
  intros r [<-|[<-|[]]]; [apply (plain_noon [])|apply (plain_noon $"5")]; try (vm_compute; reflexivity); apply Nat.leb_le; vm_compute; reflexivity.
Qed.
Lemma fitting_examples : fitting obs1 /\ fitting obs2.
Proof. split; (split; [split; [vm_compute; reflexivity|vm_compute; intro X; discriminate X]|apply Nat.leb_le; vm_compute; reflexivity|intros _; apply Nat.leb_le; vm_compute; reflexivity]). Qed.
Example C49_example :
  (forall r, In r (observations (sub [obs1; obs2])) -> plain_time (rec_value r $"obsTime") /\ fitting r) /\
  record80 opts_default obs1 [$"00433         C2017 01 01.50000001 02 00.000-01 15 00.00         18.5 VV     I41"] /\
  record80 opts_lowPrec obs2 [$"00433         S2017 01 01.50001 23 59 60.00 -01 15 00.0                V     C51"; $"00433         s2017 01 01.50001 1 + 1234.5    -    2.5    +   10             C51"].
Proof.
  split.
  { intros r I. change (In r [obs1; obs2]) in I. split; [now apply plain_examples|]. destruct fitting_examples as [A B]. destruct I as [<-|[<-|[]]]; assumption. }
  split; apply print_optical; [left; reflexivity|vm_compute; reflexivity|left; reflexivity|vm_compute; reflexivity].
Qed.

(** designations, modes and systems that are valid but stop the conversion *)
Definition bad_records : list xml :=
  [obs [lf "trkSub" "a_b"] "CCD" "I41" [] "2017-01-01T12:00:00Z" "15.5" [];
   obs [lf "permID" "Mars 1"] "CCD" "I41" [] "2017-01-01T12:00:00Z" "15.5" [];
   obs eros "TDI" "I41" [] "2017-01-01T12:00:00Z" "15.5" [];
   obs eros "CCD" "C51" (in_orbit "ITRF" "1234.5") "2017-01-01T12:00:00Z" "15.5" [];
   obs eros "CCD" "275" [] "2017-01-01T12:00:00Z" "15.5" [];
   obs eros "CCD" "I41" [] "2016-12-31T23:59:60Z" "15.5" [];
   el "radar" (eros ++ [lf "trx" "251"; lf "rcv" "251"; lf "obsTime" "2017-01-01T12:00:00Z"; lf "delay" "12.3456"; lf "rmsDelay" "1.2"; lf "frq" "8560"])].
Theorem C49_every_submission_refuted : forall r, In r bad_records -> valid reading submit_xsd (sub [r]) /\
  exists e, xmltompc80col_lines ades_tables opts_default (sub [r]) = Err e.
Proof.
  intros r I. split.
  - apply valid_values. revert r I. apply Forall_forall. repeat (constructor; [vm_compute; reflexivity|]). constructor.
  - revert r I. apply Forall_forall. repeat (constructor; [eexists; vm_compute; reflexivity|]). constructor.
Qed.
(** different submissions that are written alike: times almost a day apart, names,
    positions and magnitudes of which characters are cut off *)
Theorem C49_distinct_refuted : forall r r', In (r, r')
  [(obs [lf "trkSub" "abcdefgh"] "CCD" "I41" [] "2017-01-01T12:00:00Z" "15.5" [], obs [lf "trkSub" "xbcdefgh"] "CCD" "I41" [] "2017-01-01T12:00:00Z" "15.5" []);
   (obs eros "CCD" "I41" [] "2017-01-01T00:00:00Z" "15.5" [], obs eros "CCD" "I41" [] "2017-01-01T23:59:59.99Z" "15.5" []);
   (obs eros "CCD" "C51" (in_orbit "ICRF_KM" "1234567890.5") "2017-01-01T12:00:00Z" "15.5" [], obs eros "CCD" "C51" (in_orbit "ICRF_KM" "12345678901.5") "2017-01-01T12:00:00Z" "15.5" []);
   (obs eros "CCD" "I41" [] "2017-01-01T12:00:00Z" "15.5" [lf "mag" "18.512"; lf "band" "V"], obs eros "CCD" "I41" [] "2017-01-01T12:00:00Z" "15.5" [lf "mag" "18.519"; lf "band" "V"])] ->
  r <> r' /\ valid reading submit_xsd (sub [r]) /\ valid reading submit_xsd (sub [r']) /\
  exists ls, xmltompc80col_lines ades_tables opts_default (sub [r]) = Ok ls /\ xmltompc80col_lines ades_tables opts_default (sub [r']) = Ok ls.
Proof.
  intros r r' [E|[E|[E|[E|[]]]]]; apply pair_equal_spec in E as [<- <-];
  (split; [intro X; apply (f_equal (fun x => concat (map xtext (xkids x)))) in X; apply (proj2 (streqb_eq _ _)) in X; vm_compute in X; discriminate X|]);
  (split; [apply valid_values; vm_compute; reflexivity|]); (split; [apply valid_values; vm_compute; reflexivity|]);
  (eexists; split; vm_compute; reflexivity).
Qed.
Print Assumptions C49_record.
Print Assumptions C49_offset.
Print Assumptions C49_radar.
Print Assumptions C49_document.
Print Assumptions C49_columns.
Print Assumptions C49_every_submission_refuted.
Print Assumptions C49_distinct_refuted.
