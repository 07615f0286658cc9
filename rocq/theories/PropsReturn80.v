(** C50: what comes back when a valid submission is written in 80 columns and the lines
    are read again.  Vocabulary: Return80Spec.v. *)
From Verif Require Import PyStrProofs AdesMasterTables XsdMatch2 PackSpec PackProofs PropsPack Submit80Proofs3 Submit80Proofs4 IdProofs5.
From Verif Require Import Return80Proofs3 Return80Proofs4 Return80Proofs5 Return80Proofs9 Return80Proofs10 Return80Proofs11 Return80Blocks.
From Verif Require RecordProofs6 PropsRecord.
From Verif Require Import Schema XsdSpec SchemaSpec XsdPattern XsdFiles PropsPrint PropsValue ValueSpec Mpc80 Mpc80Spec DocSpec PyFloat SexVals XmlToMpc80 PsvSpec2 LayoutSpec Print80Spec Submit80Spec PropsSubmit80 JustSpec Line80Spec FileLines Back80Spec SexSpec Return80Spec.
Local Open Scope nat_scope.
Local Open Scope string_scope.
Local Open Scope list_scope.

(** Columns 1-12 are the packed designation. *)
Theorem C50_name F o r l m : reads_values F -> standard o -> valid F submit_xsd r -> returnable r -> record80 o r (l :: m) ->
  packTupleID (text_if r "permID", text_if r "provID", text_if r "trkSub") = Ok (cols 1 12 l).
Proof.
  intros RV So V [Tg PT Fi NA SF] H. destruct (line_parts F RV r V o So Tg PT Fi NA l m H) as (id & c & date & ra & de & mag & i & j & k & q & q' & PA & _).
  rewrite (pa_id _ _ _ _ _ _ _ _ _ _ _ _ _ _ PA). f_equal. now destruct (cols_are r o l id c date ra de mag i j k q q' PA) as [-> _].
Qed.
(** Exactly the legible lines are read again. *)
Theorem C50_read F o r l m : reads_values F -> standard o -> valid F submit_xsd r -> returnable r -> record80 o r (l :: m) ->
  (decodable l <-> legible l) /\ (~ legible l -> decode80 l = Err RuntimeError).
Proof.
  intros RV So V O H. destruct (line_back F RV o So r l m V O H) as (A & [(L & _)|(_ & B & _)]); (split; [exact A|]); [intro N; now elim N|intros _; exact B].
Qed.
(** The document made from a legible line has one element, which says the same up to the
    precision of the columns; the document made from another line has none. *)
Theorem C50_returned F o r l m nosplit : reads_values F -> standard o -> valid F submit_xsd r -> returnable r -> record80 o r (l :: m) ->
  (legible l -> exists e, mpc80coltoxml ades_tables nosplit (file (l :: m)) = Written (ades [e]) /\ returned o r e l) /\
  (~ legible l -> mpc80coltoxml ades_tables nosplit (file (l :: m)) = Written (ades [])).
Proof.
  intros RV So V O H. destruct (list_back F RV o So [r] [l :: m]) as (es & C & G & _); [constructor; [exact H|constructor]|intros r' [<-|[]]; split; [exact V|right; exact O]|].
  cbn [concat] in C, G. rewrite app_nil_r in C, G. apply (rows_document nosplit) in G. rewrite G.
  assert (xtag r <> $"offset") as NT. { destruct O as [[T|[T|[]]] _ _ _ _]; rewrite <- T; discriminate. }
  remember [r] as rs eqn:Er. remember (l :: m) as lm eqn:El.
  destruct C as [|r0 rs l0 m0 ls e0 es0 H0 LG RT C'|r0 rs l0 m0 ls es0 H0 LG C'|r0 rs ls es0 TO C']; [discriminate Er|injection Er as -> ->; injection El as -> _; inversion C'; subst..|].
  - split; [intros _; exists e0; now split|]. intro N. now elim N.
  - split; [intro N; now elim LG|]. intros _. reflexivity.
  - injection Er as -> _. now elim NT.
Qed.
Lemma strip_dec n : (0 <= n)%Z -> strip (dec n) = dec n.
Proof.
  intro H. apply alnum_strip; [now apply dec_ne|]. pose proof (dec_alldig n H) as A. unfold alldig in A. rewrite forallb_forall in *. intros c I. specialize (A c I). clear I.
  revert c A. apply imp_ascii. vm_compute. reflexivity.
Qed.
(** A minor planet keeps its number. *)
Theorem C50_number F o r l m n : reads_values F -> standard o -> valid F submit_xsd r -> returnable r -> record80 o r (l :: m) ->
  (1 <= n <= 15396335)%Z -> rec_value r $"permID" = dec n -> rec_value r $"provID" = [] -> legible l ->
  exists e, returned o r e l /\ rec_value e $"permID" = dec n /\ rec_value e $"provID" = [] /\ rec_value e $"trkSub" = [].
Proof.
  intros RV So V O H Hn P Q L. pose proof (C50_name F o r l m RV So V O H) as N. destruct (C50_returned F o r l m true RV So V O H) as [R _]. destruct (R L) as (e & _ & RT). exists e. split; [exact RT|].
  destruct (C02_round_trip n (text_if r "trkSub") Hn) as (w & W & _ & U).
  assert (text_if r "permID" = Some (dec n) /\ text_if r "provID" = None) as [E1 E2].
  { unfold text_if. rewrite P, Q. split; [|reflexivity]. assert (dec n <> []) by (apply dec_ne; lia). now destruct (dec n). }
  rewrite E1, E2, W in N. injection N as ->. destruct (rt_name _ _ _ _ RT) as (p & v & t & U' & -> & -> & ->). rewrite U in U'. injection U' as <- <- <-.
  split; [apply strip_dec; lia|]. split; reflexivity.
Qed.
(** Documents without header lines: the records of the legible lines come back, in order. *)
Theorem C50_document F o t ls nosplit : reads_values F -> standard o -> o_noHeader o = true -> valid F submit_xsd t -> xtag t = $"ades" ->
  (forall r, In r (observations t) -> xtag r = $"offset" \/ returnable r) -> xmltompc80col_lines ades_tables o t = Ok ls ->
  exists es, mpc80coltoxml ades_tables nosplit (file ls) = Written (ades es) /\ came_back o (observations t) ls es.
Proof. intros RV So. exact (document_back F RV o So nosplit t ls). Qed.

(** With header lines: one block for every block, with a header read from its header lines
    and the records of its legible lines, in order. *)
Theorem C50_blocks F o t ls nosplit : reads_values F -> standard o -> o_noHeader o = false -> valid F submit_xsd t -> xtag t = $"ades" ->
  (forall r, In r (observations t) -> xtag r = $"offset" \/ returnable r) ->
  (forall b, In b (xkids t) -> plain_header b /\ seen_block o b) -> xmltompc80col_lines ades_tables o t = Ok ls ->
  exists xs, mpc80coltoxml ades_tables nosplit (file ls) = Written (ades xs) /\ blocks_back o (xkids t) ls xs.
Proof. intros RV So. exact (document_headed F RV o So nosplit t ls). Qed.
(** In general: blocks of which nothing is read add their header lines to those of the next. *)
Theorem C50_merged F o t ls nosplit : reads_values F -> standard o -> o_noHeader o = false -> valid F submit_xsd t -> xtag t = $"ades" ->
  (forall r, In r (observations t) -> xtag r = $"offset" \/ returnable r) ->
  (forall b, In b (xkids t) -> plain_header b) -> xmltompc80col_lines ades_tables o t = Ok ls ->
  exists xs, mpc80coltoxml ades_tables nosplit (file ls) = Written (ades xs) /\ blocks_merged o [] (xkids t) ls xs.
Proof. intros RV So. exact (document_merged F RV o So nosplit t ls). Qed.
(** What is left of a header of a valid submission. *)
Theorem C50_header F b c d : valid F submit_xsd b -> xtag b = $"obsBlock" -> xkids b = [c; d] -> short_header b -> comma_free c ->
  DocSpec.context (map header_read (block_header80 b)) = kept_header c.
Proof.
  intros V T K SH CF. apply (RecordProofs6.obsBlock_valid F submit_xsd b) in V; [|right; now left|exact T]. destruct V as (_ & c' & d' & K' & Tc & Vc & Td & _).
  rewrite K in K'. injection K' as <- <-. exact (header_kept F b c d Vc Tc K Td SH CF).
Qed.

(** * Examples, and what is not so *)
Definition opts_plain : opts80 := {| o_precTime := o_precTime opts_default; o_precRA := o_precRA opts_default; o_precDec := o_precDec opts_default; o_noHeader := true |}.
Definition there_and_back (t : xml) : option xml :=
  match xmltompc80col_lines ades_tables opts_plain t with
  | Ok ls => match mpc80coltoxml ades_tables true (file ls) with Written x => Some x | _ => None end
  | Err _ => None
  end.
Definition at_noon (id : list xml) (mode stn ra : string) (rest : list xml) : xml := obs id mode stn [] "2017-01-01T12:00:00Z" ra rest.
(** the fields of the records that come back *)
Definition fields_back (t : xml) : option (list (str * list (str * str))) :=
  option_map (fun x => map (fun e => (xtag e, map (fun k => (xtag k, xtext k)) (xkids e))) (xkids x)) (there_and_back t).
Definition rec (tag : string) (kvs : list (string * string)) : str * list (str * str) := ($tag, map (fun kv => ($(fst kv), $(snd kv))) kvs).
Definition noon_fields : list (string * string) := [("obsTime", "2017-01-01T12:00:00.000Z"); ("ra", "15.500000"); ("dec", "-1.250000"); ("astCat", "Gaia2")]%string.
Definition precs : list (string * string) := [("subFmt", "M92"); ("precTime", "1"); ("precRA", "0.001"); ("precDec", "0.01")]%string.

Definition line1 : str := $"00433         C2017 01 01.50000001 02 00.000-01 15 00.00         18.5 VV     I41".
Lemma one_line_1 : returnable obs1.
Proof.
  split; [left; reflexivity| |exact (proj1 fitting_examples)|reflexivity|discriminate].
  apply (plain_noon []); [reflexivity|apply Nat.leb_le; reflexivity|vm_compute; reflexivity].
Qed.
Lemma legible_1 : legible line1.
Proof.
  split.
  - cbn. split; [reflexivity|]. intros x I. repeat (destruct I as [<-|I]; [reflexivity|]). destruct I.
  - eexists. vm_compute. reflexivity.
  - exists " "%char. split; [reflexivity|]. vm_compute. tauto.
  - assert (forallb (fun j => negb (streqb (cols 27 32 line1) (num 6 (625 * j)))) short_by_rounding = true) as A by (vm_compute; reflexivity).
    intros j I E. rewrite forallb_forall in A. specialize (A j I). rewrite (proj2 (streqb_eq _ _) E) in A. discriminate A.
  - vm_compute. discriminate.
  - vm_compute. discriminate.
Qed.
Example C50_example : valid reading submit_xsd (sub [obs1]) /\ standard opts_plain /\ returnable obs1 /\ legible line1 /\
  record80 opts_plain obs1 [line1] /\ xmltompc80col_lines ades_tables opts_plain (sub [obs1]) = Ok [line1] /\
  fields_back (sub [obs1]) = Some [rec "optical" ([("permID", "433"); ("mode", "CCD"); ("stn", "I41")] ++ noon_fields ++ [("mag", "18.5"); ("band", "V")] ++ precs)].
Proof.
  split; [apply valid_values; vm_compute; reflexivity|]. split; [left; repeat split|]. split; [exact one_line_1|]. split; [exact legible_1|].
  split; [apply print_optical; [left; reflexivity|vm_compute; reflexivity]|]. split; vm_compute; reflexivity.
Qed.

(** valid submissions that are written and of which nothing comes back: 60 seconds in the
    line, extended designations, hyphens in tracklets, notes that are not in the list *)
Definition lost_records : list xml :=
  [at_noon eros "CCD" "I41" "359.9999999" [];
   at_noon [lf "provID" "2026 CZ620"] "CCD" "I41" "15.5" [];
   at_noon [lf "trkSub" "P10-abc"] "CCD" "I41" "15.5" [];
   at_noon eros "CCD" "I41" "15.5" [lf "notes" "x"]].
Theorem C50_every_record_refuted : forall r, In r lost_records -> valid reading submit_xsd (sub [r]) /\
  (exists l, xmltompc80col_lines ades_tables opts_plain (sub [r]) = Ok [l]) /\ fields_back (sub [r]) = Some [].
Proof.
  intros r I. split; [|split].
  - apply valid_values. revert r I. apply Forall_forall. repeat (constructor; [vm_compute; reflexivity|]). constructor.
  - revert r I. apply Forall_forall. repeat (constructor; [eexists; vm_compute; reflexivity|]). constructor.
  - revert r I. apply Forall_forall. repeat (constructor; [vm_compute; reflexivity|]). constructor.
Qed.
(** what comes back as something else: tracklets that look packed or have eight characters,
    notes at the stations with programs, occultations *)
Definition changed : list (xml * (str * list (str * str))) :=
  [(at_noon [lf "trkSub" "K14A00A"] "CCD" "I41" "15.5" [], rec "optical" ([("provID", "2014 AA"); ("mode", "CCD"); ("stn", "I41")] ++ noon_fields ++ precs));
   (at_noon [lf "trkSub" "abcdefgh"] "CCD" "I41" "15.5" [], rec "optical" ([("trkSub", "bcdefgh"); ("mode", "CCD"); ("stn", "I41")] ++ noon_fields ++ precs));
   (at_noon eros "CCD" "703" "15.5" [lf "notes" "K"], rec "optical" ([("permID", "433"); ("mode", "CCD"); ("stn", "703"); ("prog", "0q")] ++ noon_fields ++ precs));
   (el "occultation" (eros ++ [lf "mode" "OCC"; lf "stn" "275"; lf "obsTime" "2017-01-01T12:00:00Z"; lf "raStar" "15.5"; lf "decStar" "-1.25"; lf "deltaRA" "0.1"; lf "deltaDec" "0.1"; lf "astCat" "Gaia2"]),
    rec "optical" ([("permID", "433"); ("mode", "OCC"); ("stn", "275")] ++ noon_fields ++ precs))].
Theorem C50_same_record_refuted : forall r f, In (r, f) changed -> valid reading submit_xsd (sub [r]) /\ fields_back (sub [r]) = Some [f].
Proof.
  intros r f I. split.
  - apply valid_values. revert I. cut (Forall (fun x => SchemaCheck.checks values_b submit_xsd 30 (sub [fst x]) = true) changed).
    { rewrite Forall_forall. intros H I. exact (H _ I). } repeat (constructor; [vm_compute; reflexivity|]). constructor.
  - revert I. cut (Forall (fun x => fields_back (sub [fst x]) = Some [snd x]) changed).
    { rewrite Forall_forall. intros H I. exact (H _ I). } repeat (constructor; [vm_compute; reflexivity|]). constructor.
Qed.
(** headers: a full one, and what comes back *)
Definition with_header (ks : list xml) : xml := Elem $"ades" [($"version", $"2022")] [] [el "obsBlock" [el "obsContext" ks; el "obsData" [obs1]]].
Definition head_back (t : xml) : option (list xml) :=
  match xmltompc80col_lines ades_tables opts_default t with
  | Ok ls => match mpc80coltoxml ades_tables true (file ls) with Written x => Some (flat_map (fun b => firstn 1 (xkids b)) (xkids x)) | _ => None end
  | Err _ => None
  end.
Definition who (n : string) : xml := lf "name" n.
Definition full_parts : list xml :=
  [el "observatory" [lf "mpcCode" "I41"; who "Palomar"]; el "submitter" [who "A. Bee"; lf "institution" "PTF"]; el "observers" [who "C. Dee"; who "E. Eff"]; el "measurers" [who "A. Bee"];
   el "telescope" [who "P48"; lf "design" "Schmidt"; lf "aperture" "1.2"; lf "detector" "CCD"]; el "comment" [lf "line" "clear"; lf "line" "calm"]].
Example C50_header_example :
  head_back (with_header full_parts) = Some [Elem $"obsContext" [] []
    [Elem $"observatory" [] [] [leaf $"mpcCode" $"I41"]; Elem $"submitter" [] [] [leaf $"name" $"A. Bee"; leaf $"institution" $" PTF"];
     Elem $"observers" [] [] [leaf $"name" $"C. Dee"; leaf $"name" $" E. Eff"]; Elem $"measurers" [] [] [leaf $"name" $"A. Bee"];
     Elem $"telescope" [] [] [leaf $"name" $"P48"; leaf $"design" $"Unknown"; leaf $"aperture" $"9999"; leaf $"detector" $"Unknown"];
     Elem $"comment" [] [] [leaf $"line" $"clear"; leaf $"line" $"calm"]]].
Proof. vm_compute. reflexivity. Qed.
Example C50_blocks_example : let t := with_header full_parts in let b := hd t (xkids t) in let c := hd b (xkids b) in
  valid reading submit_xsd t /\ xtag t = $"ades" /\ (forall r, In r (observations t) -> xtag r = $"offset" \/ returnable r) /\
  (forall b, In b (xkids t) -> plain_header b /\ seen_block opts_default b) /\ short_header b /\ comma_free c /\
  exists ls, xmltompc80col_lines ades_tables opts_default t = Ok ls /\ length ls = 8.
Proof.
  intros t b c. split; [apply valid_values; vm_compute; reflexivity|]. split; [reflexivity|]. split; [|split; [|split; [|split]]].
  - intros r [<-|[]]. right. exact one_line_1.
  - intros b' [<-|[]]. split.
    + cut (Forall (fun l => plain_line l /\ valid_text l = true) (block_header80 b)); [rewrite Forall_forall; intros H l I; exact (H l I)|].
      let x := eval vm_compute in (block_header80 b) in replace (block_header80 b) with x by (vm_compute; reflexivity).
      repeat constructor; try (vm_compute; reflexivity); vm_compute; intuition discriminate.
    + exists obs1, line1, []. split; [left; reflexivity|]. split; [discriminate|]. split; [apply print_optical; [left; reflexivity|vm_compute; reflexivity]|exact legible_1].
  - cut (forallb (fun l => Nat.leb (length l) 80) (block_header80 b) = true); [|vm_compute; reflexivity]. rewrite forallb_forall. intros H l I. apply Nat.leb_le. exact (H l I).
  - cut (forallb (fun k => forallb (fun x => negb (existsb (fun z => ceqb z ",") x)) (said [$"name"; $"institution"] k)) (xkids c) = true); [|vm_compute; reflexivity].
    rewrite forallb_forall. intros H k x I _ J K. specialize (H k I). rewrite forallb_forall in H. specialize (H x J). apply negb_true_iff in H.
    rewrite (proj2 (existsb_exists _ _)) in H; [discriminate H|]. exists ","%char. split; [exact K|reflexivity].
  - eexists. split; vm_compute; reflexivity.
Qed.
(** Not every header comes back: the parts of a submitter may stand in any order, and the
    institution is read as the name; a telescope need not have a name, and is lost, so that
    the document that comes back is not valid. *)
Definition swapped_parts : list xml :=
  [el "observatory" [lf "mpcCode" "I41"]; el "submitter" [lf "institution" "PTF"; who "A. Bee"]; el "measurers" [who "A. Bee"];
   el "telescope" [who "P48"; lf "design" "Schmidt"; lf "aperture" "1.2"; lf "detector" "CCD"]].
Theorem C50_same_header_refuted : valid reading submit_xsd (with_header swapped_parts) /\ exists c s,
  head_back (with_header swapped_parts) = Some [c] /\ In s (xkids c) /\ s = Elem $"submitter" [] [] [leaf $"name" $"PTF"; leaf $"institution" $" A. Bee"].
Proof.
  split; [apply valid_values; vm_compute; reflexivity|]. eexists _, _. split; [vm_compute; reflexivity|]. split; [right; left; reflexivity|]. vm_compute. reflexivity.
Qed.
Theorem C50_valid_again_refuted : valid reading submit_xsd (sub [obs1]) /\ exists ls x,
  xmltompc80col_lines ades_tables opts_default (sub [obs1]) = Ok ls /\ mpc80coltoxml ades_tables true (file ls) = Written x /\
  forall F, ~ valid F general_xsd x /\ ~ valid F submit_xsd x.
Proof.
  split; [apply valid_values; vm_compute; reflexivity|].
  assert (exists ls x b c d, xmltompc80col_lines ades_tables opts_default (sub [obs1]) = Ok ls /\ mpc80coltoxml ades_tables true (file ls) = Written x /\
    xtag x = $"ades" /\ xkids x = [b] /\ xtag b = $"obsBlock" /\ xkids b = [c; d] /\ xtag c = $"obsContext" /\ map xtag (xkids c) = [$"observatory"; $"submitter"; $"measurers"]) as (ls & x & b & c & d & H1 & H2 & Tx & Kx & Tb & Kb & Tc & Kc).
  { do 5 eexists. split; [vm_compute; reflexivity|]. split; [vm_compute; reflexivity|]. vm_compute. repeat split. }
  exists ls, x. split; [exact H1|]. split; [exact H2|]. intro F.
  assert (forall S, In S RecordProofs6.both -> ~ valid F S b) as N.
  { intros S I V. apply (RecordProofs6.obsBlock_valid F S b I Tb) in V as (_ & c' & d' & K' & _ & Vc & _). rewrite Kb in K'. injection K' as <- <-.
    apply (RecordProofs6.context_valid F S c I Tc) in Vc as (_ & _ & _ & M). specialize (M $"telescope"). rewrite Kc in M.
    destruct M as [M|[M|[M|[]]]]; [apply (in_map lit); vm_compute; tauto|discriminate M|discriminate M|discriminate M]. }
  split.
  - intro V. apply (PropsRecord.C41_ades_general F x Tx) in V as (_ & _ & _ & K). destruct (K b) as [_ Vb]; [rewrite Kx; now left|]. exact (N general_xsd (or_introl eq_refl) Vb).
  - intro V. apply (PropsRecord.C41_ades_submit F x Tx) in V as (_ & _ & _ & _ & K). destruct (K b) as [_ Vb]; [rewrite Kx; now left|]. exact (N submit_xsd (or_intror (or_introl eq_refl)) Vb).
Qed.
(** A record of a roving observer is written as two lines.  From station 247 both are read;
    from station 270 the second is refused, and the record that follows is lost with it. *)
Definition wgs (p1 p2 p3 : string) : list xml := [lf "sys" "WGS84"; lf "ctr" "399"; lf "pos1" p1; lf "pos2" p2; lf "pos3" p3].
Definition roving (s : string) : xml := obs eros "CCD" s (wgs "123.4567" "+12.34567" "123") "2017-01-01T12:00:00Z" "15.5" [].
Example C50_roving_example : valid reading submit_xsd (sub [roving "247"; obs1]) /\
  fields_back (sub [roving "247"; obs1]) = Some
    [rec "optical" ([("permID", "433"); ("mode", "CCD"); ("stn", "247"); ("sys", "WGS84"); ("ctr", "399"); ("pos1", "123.4567"); ("pos2", "+12.34567"); ("pos3", "123")] ++ noon_fields ++ precs);
     rec "optical" ([("permID", "433"); ("mode", "CCD"); ("stn", "I41")] ++ noon_fields ++ [("mag", "18.5"); ("band", "V")] ++ precs)].
Proof. split; [apply valid_values|]; vm_compute; reflexivity. Qed.
Definition craft (sys p1 p2 p3 : string) : xml :=
  obs eros "TDI" "C51" [lf "sys" sys; lf "ctr" "399"; lf "pos1" p1; lf "pos2" p2; lf "pos3" p3] "2017-01-01T12:00:00Z" "15.5" [].
Definition in_space : xml := craft "ICRF_AU" "0.12345" "-0.9876543" "+0.5".
Lemma returnable_two : returnable (roving "247") /\ returnable in_space.
Proof.
  split.
  - split; [left; reflexivity| |split; [split; [vm_compute; reflexivity|vm_compute; intro X; discriminate X]|apply Nat.leb_le; vm_compute; reflexivity|intros _; apply Nat.leb_le; vm_compute; reflexivity]|reflexivity|intros _].
    { apply (plain_noon []); [reflexivity|apply Nat.leb_le; reflexivity|vm_compute; reflexivity]. }
    split; [|split; intro X; vm_compute in X; discriminate X]. intros _. split; [vm_compute; reflexivity|]. intros x [<-|[<-|[]]]; apply Nat.leb_le; vm_compute; reflexivity.
  - split; [left; reflexivity| |split; [split; [vm_compute; reflexivity|vm_compute; intro X; discriminate X]|apply Nat.leb_le; vm_compute; reflexivity|intro X; vm_compute in X; discriminate X]|reflexivity|intros _].
    { apply (plain_noon []); [reflexivity|apply Nat.leb_le; reflexivity|vm_compute; reflexivity]. }
    split; [intro X; vm_compute in X; discriminate X|]. split; [intro X; vm_compute in X; discriminate X|]. intros _ x [<-|[<-|[<-|[]]]]; (split; apply Nat.leb_le; vm_compute; reflexivity).
Qed.
(** the hypotheses of the theorems above for records of two lines, and what comes back; the mode is lost *)
Example C50_two_lines_example : valid reading submit_xsd (sub [roving "247"; in_space]) /\ returnable (roving "247") /\ returnable in_space /\
  (exists l1 l2 l3 l4, xmltompc80col_lines ades_tables opts_plain (sub [roving "247"; in_space]) = Ok [l1; l2; l3; l4] /\ record80 opts_plain (roving "247") [l1; l2] /\ record80 opts_plain in_space [l3; l4]) /\
  fields_back (sub [roving "247"; in_space]) = Some
    [rec "optical" ([("permID", "433"); ("mode", "CCD"); ("stn", "247"); ("sys", "WGS84"); ("ctr", "399"); ("pos1", "123.4567"); ("pos2", "+12.34567"); ("pos3", "123")] ++ noon_fields ++ precs);
     rec "optical" ([("permID", "433"); ("mode", "CCD"); ("stn", "C51"); ("sys", "ICRF_AU"); ("ctr", "399"); ("pos1", "+0.12345"); ("pos2", "-0.9876543"); ("pos3", "+0.5")] ++ noon_fields ++ precs)].
Proof.
  split; [apply valid_values; vm_compute; reflexivity|]. split; [exact (proj1 returnable_two)|]. split; [exact (proj2 returnable_two)|]. split; [|vm_compute; reflexivity].
  do 4 eexists. split; [vm_compute; reflexivity|]. split; (apply print_optical; [left; reflexivity|vm_compute; reflexivity]).
Qed.
(** positions that are too long for their columns: cut off, or lost with the line they spoil *)
Theorem C50_same_position_refuted :
  valid reading submit_xsd (sub [craft "ICRF_KM" "12345.123456" "-5000.12" "+300.5"]) /\
  fields_back (sub [craft "ICRF_KM" "12345.123456" "-5000.12" "+300.5"]) = Some
    [rec "optical" ([("permID", "433"); ("mode", "CCD"); ("stn", "C51"); ("sys", "ICRF_KM"); ("ctr", "399"); ("pos1", "+12345.1234"); ("pos2", "-5000.12"); ("pos3", "+300.5")] ++ noon_fields ++ precs)] /\
  let r := obs eros "CCD" "247" (wgs "123.4567" "+12.3456789" "123") "2017-01-01T12:00:00Z" "15.5" [] in
  valid reading submit_xsd (sub [r]) /\ (exists l1 l2, xmltompc80col_lines ades_tables opts_plain (sub [r]) = Ok [l1; l2]) /\ fields_back (sub [r]) = Some [].
Proof.
  split; [apply valid_values; vm_compute; reflexivity|]. split; [vm_compute; reflexivity|]. cbv zeta.
  split; [apply valid_values; vm_compute; reflexivity|]. split; [do 2 eexists; vm_compute; reflexivity|vm_compute; reflexivity].
Qed.
Theorem C50_next_record_refuted : valid reading submit_xsd (sub [roving "270"; obs1]) /\
  (exists l1 l2 l3, xmltompc80col_lines ades_tables opts_plain (sub [roving "270"; obs1]) = Ok [l1; l2; l3] /\ legible l3) /\
  fields_back (sub [obs1]) <> Some [] /\ fields_back (sub [roving "270"; obs1]) = Some [].
Proof.
  split; [apply valid_values; vm_compute; reflexivity|]. split; [|split; vm_compute; [discriminate|reflexivity]].
  do 2 eexists. exists line1. split; [vm_compute; reflexivity|exact legible_1].
Qed.
(** Of the first of two blocks nothing is read; the records of the second come back under the
    header of the first, with the comments of both. *)
Definition short_parts (code who1 note : string) : list xml :=
  [el "observatory" [lf "mpcCode" code]; el "submitter" [who who1]; el "measurers" [who who1];
   el "telescope" [who "T1"; lf "design" "Schmidt"; lf "aperture" "1.2"; lf "detector" "CCD"]; el "comment" [lf "line" note]].
Definition two_blocks (r1 r2 : xml) : xml := Elem $"ades" [($"version", $"2022")] []
  [el "obsBlock" [el "obsContext" (short_parts "703" "A. Bee" "first"); el "obsData" [r1]];
   el "obsBlock" [el "obsContext" (short_parts "I41" "C. Dee" "second"); el "obsData" [r2]]].
Definition document_back (t : xml) : option (list xml) :=
  match xmltompc80col_lines ades_tables opts_default t with
  | Ok ls => match mpc80coltoxml ades_tables true (file ls) with Written x => Some (xkids x) | _ => None end
  | Err _ => None
  end.
Definition lost_one : xml := at_noon eros "CCD" "703" "359.9999999" [].
Theorem C50_whose_header_refuted : valid reading submit_xsd (two_blocks lost_one obs1) /\
  exists c e, document_back (two_blocks lost_one obs1) = Some [Elem $"obsBlock" [] [] [c; Elem $"obsData" [] [] [e]]] /\ rec_value e $"stn" = $"I41" /\
    c = Elem $"obsContext" [] [] [Elem $"observatory" [] [] [leaf $"mpcCode" $"703"]; Elem $"submitter" [] [] [leaf $"name" $"A. Bee"]; Elem $"measurers" [] [] [leaf $"name" $"A. Bee"];
      Elem $"telescope" [] [] [leaf $"name" $"T1"; leaf $"design" $"Unknown"; leaf $"aperture" $"9999"; leaf $"detector" $"Unknown"]; Elem $"comment" [] [] [leaf $"line" $"first"; leaf $"line" $"second"]].
Proof.
  split; [apply valid_values; vm_compute; reflexivity|]. do 2 eexists. split; [vm_compute; reflexivity|]. split; vm_compute; reflexivity.
Qed.
(** the hypotheses of C50_merged for these blocks *)
Lemma returnable_lost : returnable lost_one.
Proof.
  split; [left; reflexivity| |split; [split; [vm_compute; reflexivity|vm_compute; intro X; discriminate X]|apply Nat.leb_le; vm_compute; reflexivity|intro X; vm_compute in X; discriminate X]|reflexivity|discriminate].
  apply (plain_noon []); [reflexivity|apply Nat.leb_le; reflexivity|vm_compute; reflexivity].
Qed.
Example C50_merged_example : let t := two_blocks lost_one obs1 in
  (forall r, In r (observations t) -> xtag r = $"offset" \/ returnable r) /\ (forall b, In b (xkids t) -> plain_header b) /\ (exists ls, xmltompc80col_lines ades_tables opts_default t = Ok ls /\ length ls = 12) /\
  document_back (two_blocks lost_one lost_one) = Some [Elem $"obsBlock" [] [] [Elem $"obsContext" [] [] []]].
Proof.
  intro t. split; [|split; [|split]].
  - intros r [<-|[<-|[]]]; right; [exact returnable_lost|exact one_line_1].
  - cut (Forall (fun b => Forall (fun l => plain_line l /\ valid_text l = true) (block_header80 b)) (xkids t)).
    { rewrite Forall_forall. intros H b I l J. specialize (H b I). rewrite Forall_forall in H. exact (H l J). }
    unfold t, two_blocks. cbn [xkids]. repeat (constructor; [match goal with |- Forall _ (block_header80 ?b) => let x := eval vm_compute in (block_header80 b) in replace (block_header80 b) with x by (vm_compute; reflexivity) end;
      repeat (constructor; [split; [split; vm_compute; intuition discriminate|vm_compute; reflexivity]|]); constructor|]). constructor.
  - eexists. split; vm_compute; reflexivity.
  - vm_compute. reflexivity.
Qed.
(** Artificial satellites: the name stands at the right of columns 1-12, and is read as a
    packed designation (and the line skipped), as a tracklet, or as the keyword of a header line. *)
Theorem C50_artificial_refuted :
  (forall s, In s ["Gaia"; "Starlnk"; "COD 12345678"] -> valid reading submit_xsd (sub [at_noon [lf "artSat" s] "CCD" "I41" "15.5" []])) /\
  fields_back (sub [at_noon [lf "artSat" "Gaia"] "CCD" "I41" "15.5" []]) = Some [] /\
  fields_back (sub [at_noon [lf "artSat" "Starlnk"] "CCD" "I41" "15.5" []]) = Some [rec "optical" ([("trkSub", "Starlnk"); ("mode", "CCD"); ("stn", "I41")] ++ noon_fields ++ precs)] /\
  option_map xkids (there_and_back (sub [at_noon [lf "artSat" "COD 12345678"] "CCD" "I41" "15.5" []])) = Some [Elem $"obsBlock" [] [] [Elem $"obsContext" [] [] []]].
Proof.
  split; [|split; [|split]]; [|vm_compute; reflexivity..].
  intros s I. apply valid_values. destruct I as [<-|[<-|[<-|[]]]]; vm_compute; reflexivity.
Qed.
Print Assumptions C50_name.
Print Assumptions C50_read.
Print Assumptions C50_returned.
Print Assumptions C50_number.
Print Assumptions C50_document.
Print Assumptions C50_blocks.
Print Assumptions C50_header.
Print Assumptions C50_every_record_refuted.
Print Assumptions C50_same_record_refuted.
Print Assumptions C50_same_header_refuted.
Print Assumptions C50_valid_again_refuted.
Print Assumptions C50_same_position_refuted.
Print Assumptions C50_next_record_refuted.
Print Assumptions C50_merged.
Print Assumptions C50_whose_header_refuted.
Print Assumptions C50_artificial_refuted.
