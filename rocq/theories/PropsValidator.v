(** C46: the reports of the validators. *)
From Verif Require Import PyStrProofs SchemaProofs1 SchemaProofs2 SchemaProofs3 SchemaCheck MasterDocs XsdFiles.
From Verif Require Import SchemaSpec XsdSpec PropsSchema PropsHuman HumanProofs ValidatorSpec ValidatorProofs.
Local Open Scope nat_scope.

(** valall, valsubmit and valgeneral, for every master whose marks are the documented ones and
    whose submission unions are part of its general ones: a file that is not XML stops all of
    them; otherwise the reports agree, the two schemas of a pair give the same verdict, the
    verdicts are those of the schemas, and what is fit for submission is fit in general. *)
Theorem C46_reports : forall F parse compile master xmlfile text c,
  (forall s, processor F compile (transformed s master)) -> pair_master master = true -> sound_master master = true ->
  parse text = Ok c ->
  exists d s g, about_declaration xmlfile text d /\
    outcome (valid F (schema Submit master) c) s /\ outcome (valid F (schema General master) c) g /\
    (s = $" is OK" -> g = $" is OK") /\
    valsubmit parse compile master xmlfile text = Ok (lines_file (d ++ [$"submit" ++ s])) /\
    valgeneral parse compile master xmlfile text = Ok (lines_file (d ++ [$"general" ++ g])) /\
    valall parse compile master xmlfile text =
      Ok (lines_file (d ++ [$"submit" ++ s; $"submithuman" ++ s; $"general" ++ g; $"generalhuman" ++ g])).
Proof.
  intros F parse compile master xmlfile text c P PM SM T.
  destruct (xslt_outcome F compile master SubmitXsd $"submit" c (P _)) as (s & S1 & S2).
  destruct (xslt_outcome F compile master SubmitHumanXsd $"submithuman" c (P _)) as (s' & S3 & S4).
  destruct (xslt_outcome F compile master GeneralXsd $"general" c (P _)) as (g & G1 & G2).
  destruct (xslt_outcome F compile master GeneralHumanXsd $"generalhuman" c (P _)) as (g' & G3 & G4).
  cbn [transformed] in S2, S4, G2, G4. destruct (C45_pair master PM) as [E1 E2]. rewrite E1 in S4. rewrite E2 in G4. rewrite (machine_bare Submit master PM) in S2. rewrite (machine_bare General master PM) in G2.
  assert (s' = s) as -> by exact (outcome_iff _ _ _ _ (iff_refl _) S4 S2). assert (g' = g) as -> by exact (outcome_iff _ _ _ _ (iff_refl _) G4 G2).
  exists (validate_xml_declaration xmlfile text), s, g. split; [apply about|]. split; [exact S2|]. split; [exact G2|]. split.
  - intros ->. destruct S2 as [[V _]|[_ Q]]; [|discriminate Q]. destruct G2 as [[_ Q]|[N _]]; [exact Q|]. destruct (N (C35_submit_general F master c SM V)).
  - unfold valsubmit, valgeneral, valall. rewrite T. cbn [rbind]. cbv zeta. rewrite S1, G1. cbn [rbind]. rewrite !report_lines. split; [reflexivity|]. split; [reflexivity|].
    change schemaxslts with [($"submit", SubmitXsd); ($"submithuman", SubmitHumanXsd); ($"general", GeneralXsd); ($"generalhuman", GeneralHumanXsd)]. cbn [validate_xslts]. rewrite S1. cbn [rbind]. rewrite S3. cbn [rbind]. rewrite G1. cbn [rbind]. rewrite G3. cbn [rbind]. rewrite report_lines. reflexivity.
Qed.
Print Assumptions C46_reports.
Theorem C46_not_xml : forall parse compile master xmlfile text e, parse text = Err e ->
  valsubmit parse compile master xmlfile text = Err e /\ valgeneral parse compile master xmlfile text = Err e /\
  valall parse compile master xmlfile text = Err e /\ forall schemafile schematext, validate parse compile schemafile schematext xmlfile text = Err e.
Proof. intros parse compile master xmlfile text e H. unfold valsubmit, valgeneral, valall, validate. rewrite H. repeat split. Qed.
Print Assumptions C46_not_xml.

(** the master with its docs *)
Example C46_docs_pair : pair_master adesmaster_docs = true. Proof. vm_compute. reflexivity. Qed.
Example C46_docs_sound : sound_master adesmaster_docs = true. Proof. vm_compute. reflexivity. Qed.
Theorem C46_docs_submit : schema Submit adesmaster_docs = submit_xsd. Proof. vm_compute. reflexivity. Qed.
Theorem C46_docs_general : schema General adesmaster_docs = general_xsd. Proof. vm_compute. reflexivity. Qed.
Print Assumptions C46_docs_submit.
Print Assumptions C46_docs_general.
Lemma C46_bare_submit : unannotated submit_xsd = submit_xsd. Proof. vm_compute. reflexivity. Qed.
Lemma C46_bare_general : unannotated general_xsd = general_xsd. Proof. vm_compute. reflexivity. Qed.

(** The distribution: valsubmit and valgeneral speak for submit.xsd and general.xsd, and
    validate with one of these files says the same under the name of the file. *)
Theorem C46_distribution : forall F parse compile xmlfile text c,
  (forall s, processor F compile (transformed s adesmaster_docs)) -> parse text = Ok c ->
  exists d s g, about_declaration xmlfile text d /\ outcome (valid F submit_xsd c) s /\ outcome (valid F general_xsd c) g /\ (s = $" is OK" -> g = $" is OK") /\
    valsubmit parse compile adesmaster_docs xmlfile text = Ok (lines_file (d ++ [$"submit" ++ s])) /\
    valgeneral parse compile adesmaster_docs xmlfile text = Ok (lines_file (d ++ [$"general" ++ g])) /\
    valall parse compile adesmaster_docs xmlfile text =
      Ok (lines_file (d ++ [$"submit" ++ s; $"submithuman" ++ s; $"general" ++ g; $"generalhuman" ++ g])) /\
    forall schemafile schematext,
      (parse schematext = Ok submit_xsd -> validate parse compile schemafile schematext xmlfile text = Ok (lines_file (d ++ [schemafile ++ s]))) /\
      (parse schematext = Ok general_xsd -> validate parse compile schemafile schematext xmlfile text = Ok (lines_file (d ++ [schemafile ++ g]))).
Proof.
  intros F parse compile xmlfile text c P T.
  destruct (C46_reports F parse compile adesmaster_docs xmlfile text c P C46_docs_pair C46_docs_sound T) as (d & s & g & D & S & G & I & R).
  rewrite C46_docs_submit in S. rewrite C46_docs_general in G. exists d, s, g. split; [exact D|]. split; [exact S|]. split; [exact G|]. split; [exact I|].
  destruct R as (R1 & R2 & R3). split; [exact R1|]. split; [exact R2|]. split; [exact R3|]. intros schemafile schematext.
  pose proof (about_unique xmlfile text _ _ (about xmlfile text) D) as AU.
  split; intro X; unfold validate; rewrite AU, T; cbn [rbind]; rewrite X; cbn [rbind].
  - pose proof (P SubmitXsd) as PS. cbn [transformed] in PS. rewrite C46_docs_submit in PS. destruct (schema_outcome F compile submit_xsd schemafile c PS) as (f & v & C & E & O). rewrite C. cbn [rbind].
    rewrite E. rewrite C46_bare_submit in O. rewrite (outcome_iff _ _ _ _ (iff_refl _) O S), report_lines. reflexivity.
  - pose proof (P GeneralXsd) as PS. cbn [transformed] in PS. rewrite C46_docs_general in PS. destruct (schema_outcome F compile general_xsd schemafile c PS) as (f & v & C & E & O). rewrite C. cbn [rbind].
    rewrite E. rewrite C46_bare_general in O. rewrite (outcome_iff _ _ _ _ (iff_refl _) O G), report_lines. reflexivity.
Qed.
Print Assumptions C46_distribution.

(** valades, the validator that is told which master and which style sheet to take: it passes
    exactly the documents of the schema of that style sheet, the human-readable sheets pass the
    same ones, and it agrees with the reports of valsubmit and valgeneral. *)
Definition purpose (s : sheet) : mode := match s with SubmitXsd | SubmitHumanXsd => Submit | GeneralXsd | GeneralHumanXsd => General end.
Theorem C46_valades : forall F parse compile sheet_of master mastertext xslttext s text c,
  (forall s, processor F compile (transformed s master)) -> pair_master master = true ->
  parse mastertext = Ok master -> sheet_of xslttext = Ok s -> parse text = Ok c ->
  exists v, valades parse compile sheet_of mastertext xslttext text = Ok v /\ (v = Passed <-> valid F (schema (purpose s) master) c).
Proof.
  intros F parse compile sheet_of master mt xt s text c P PM M X T. unfold valades. rewrite M, X. cbn [rbind]. destruct (P s) as (accepts & C & A). rewrite C, T. cbn [rbind].
  eexists. split; [reflexivity|]. assert (unannotated (transformed s master) = schema (purpose s) master) as E.
  { destruct (C45_pair master PM) as [E1 E2]. destruct s; cbn [transformed purpose]; [exact (machine_bare Submit master PM)|exact E1|exact (machine_bare General master PM)|exact E2]. }
  rewrite <- E, <- A. destruct (accepts c); split; congruence.
Qed.
Print Assumptions C46_valades.
Theorem C46_valades_submit : forall F parse compile sheet_of master mastertext xslttext xmlfile text c,
  (forall s, processor F compile (transformed s master)) -> pair_master master = true -> sound_master master = true ->
  parse mastertext = Ok master -> sheet_of xslttext = Ok SubmitXsd -> parse text = Ok c ->
  (valades parse compile sheet_of mastertext xslttext text = Ok Passed <->
   exists d, about_declaration xmlfile text d /\ valsubmit parse compile master xmlfile text = Ok (lines_file (d ++ [$"submit is OK"]))) /\
  forall xslttext', sheet_of xslttext' = Ok GeneralXsd ->
    (valades parse compile sheet_of mastertext xslttext' text = Ok Passed <->
     exists d, about_declaration xmlfile text d /\ valgeneral parse compile master xmlfile text = Ok (lines_file (d ++ [$"general is OK"]))) /\
    (valades parse compile sheet_of mastertext xslttext text = Ok Passed -> valades parse compile sheet_of mastertext xslttext' text = Ok Passed).
Proof.
  intros F parse compile sheet_of master mt xt xmlfile text c P PM SM M X T.
  destruct (C46_reports F parse compile master xmlfile text c P PM SM T) as (d & s & g & D & S & G & I & R1 & R2 & _).
  destruct (C46_valades F parse compile sheet_of master mt xt SubmitXsd text c P PM M X T) as (v & -> & V). cbn [purpose] in V.
  assert (forall a b d d', about_declaration xmlfile text d -> about_declaration xmlfile text d' -> Ok (lines_file (d ++ [a])) = Ok (lines_file (d' ++ [b])) -> a = b) as J.
  { intros a b d1 d2 D1 D2 Q. rewrite (about_unique xmlfile text _ _ D2 D1) in Q. assert (lines_file (d1 ++ [a]) = lines_file (d1 ++ [b])) as Q' by congruence.
    unfold lines_file in Q'. rewrite !flat_map_app in Q'. apply app_inv_head in Q'. cbn [flat_map] in Q'. rewrite !app_nil_r in Q'. now apply app_inj_tail in Q'. }
  assert (forall w, Ok v = Ok w <-> v = w) as OK by (intro w; split; congruence). split.
  - rewrite OK, V. split.
    + intro Y. exists d. split; [exact D|]. rewrite R1. destruct S as [[_ ->]|[N _]]; [reflexivity|now elim N].
    + intros (d' & D' & Q). rewrite R1 in Q. apply (J _ _ d d' D D') in Q. destruct S as [[Y _]|[_ ->]]; [exact Y|discriminate Q].
  - intros xt' X'. destruct (C46_valades F parse compile sheet_of master mt xt' GeneralXsd text c P PM M X' T) as (v' & -> & V'). cbn [purpose] in V'.
    assert (forall w, Ok v' = Ok w <-> v' = w) as OK' by (intro w; split; congruence). rewrite OK', V'. split.
    + split.
      * intro Y. exists d. split; [exact D|]. rewrite R2. destruct G as [[_ ->]|[N _]]; [reflexivity|now elim N].
      * intros (d' & D' & Q). rewrite R2 in Q. apply (J _ _ d d' D D') in Q. destruct G as [[Y _]|[_ ->]]; [exact Y|discriminate Q].
    + rewrite OK, V. exact (C35_submit_general F master c SM).
Qed.
Print Assumptions C46_valades_submit.
(** nothing is passed unless all three files are read *)
Theorem C46_valades_files : forall parse compile sheet_of mastertext xslttext text v,
  valades parse compile sheet_of mastertext xslttext text = Ok v ->
  exists master s c, parse mastertext = Ok master /\ sheet_of xslttext = Ok s /\ parse text = Ok c.
Proof.
  intros parse compile sheet_of mt xt text v H. unfold valades in H. destruct (parse mt) as [m|]; [|discriminate H]. destruct (sheet_of xt) as [s|]; [|discriminate H]. cbn [rbind] in H.
  destruct (compile _) as [f|]; [|discriminate H]. destruct (parse text) as [c|]; [|discriminate H]. exists m, s, c. auto.
Qed.
Print Assumptions C46_valades_files.

(** two files that are not what they are reported to be: a declaration over two lines is
    reported as missing, a style sheet instruction passes for a declaration *)
Definition two_lines : str := $"<?xml version=""1.0""" ++ [nl] ++ $" encoding=""UTF-8""?>" ++ [nl] ++ $"<ades/>".
Definition instruction : str := $"<?xml-stylesheet href=""a.xsl""?>" ++ [nl] ++ $"<ades/>".
Theorem C46_declaration_refuted : exists text text',
  xml_declaration text /\ validate_xml_declaration $"a.xml" text = [$"candidate file a.xml has no XML declaration"] /\
  ~ xml_declaration text' /\ validate_xml_declaration $"a.xml" text' = [].
Proof.
  exists two_lines, instruction. split; [|split; [vm_compute; reflexivity|split; [|vm_compute; reflexivity]]].
  - exists " "%char, ($"version=""1.0""" ++ [nl] ++ $" encoding=""UTF-8"""), ([nl] ++ $"<ades/>"). split; [reflexivity|]. split; [now left|].
    intros p q E. assert (In "?"%char ($"version=""1.0""" ++ [nl] ++ $" encoding=""UTF-8""")) as I by (rewrite E; apply in_or_app; right; now left).
    vm_compute in I. repeat (destruct I as [I|I]; [discriminate I|]). exact I.
  - intros (s & a & b & E & I & _). assert (s = "-"%char) as -> by (vm_compute in E; injection E as E _; now symmetry). destruct I as [I|[I|[I|[I|[]]]]]; discriminate I.
Qed.
Print Assumptions C46_declaration_refuted.
(** every declaration in one line is found *)
Theorem C46_declaration_found : forall xmlfile w s a b, forallb pyspace w = true -> ~ In nl (s :: a) -> ~ In cr (s :: a) ->
  validate_xml_declaration xmlfile (w ++ $"<?xml" ++ (s :: a) ++ $"?>" ++ b) = [].
Proof.
  intros xmlfile w s a b W N C. destruct (about xmlfile (w ++ $"<?xml" ++ (s :: a) ++ $"?>" ++ b)) as [[_ E]|[X _]]; [exact E|]. destruct X. exists w, (s :: a), b. auto.
Qed.
Print Assumptions C46_declaration_found.

(** an example of everything: digits may be submitted, other texts not *)
Definition digits_master : xml :=
  let E t a ks := Elem t a [] ks in
  E $"ades" []
   [E $"XSDTypes" [] [E $"simpletype" [($"name", $"T")] [Elem $"doc" [] $"digits" []; E $"union" [($"memberTypes", $"xsd:integer xsd:string")] []; E $"submitunion" [($"memberTypes", $"xsd:integer")] []]];
    E $"XSDElementTypes" [] [E $"element" [($"name", $"x"); ($"type", $"T")] []]].
Definition digits_F (d : derivation) (s : str) : Prop := streqb (fst d) $"xsd:integer" = true -> forallb isdig s = true.
Definition digits_accepts (s e : xml) : bool :=
  streqb (xtag e) $"x" && match xkids e, xattrs e with [], [] => true | _, _ => false end &&
  (forallb isdig (xtext e) || existsb (fun ty => existsb (fun u => attr_is $"memberTypes" $"xsd:integer xsd:string" u) (xkids ty)) (xkids s)).
Definition digits_compile (s : xml) : res (xml -> bool) := Ok (digits_accepts s).
Definition digits_schema (members : str) : xml :=
  Elem $"xsd:schema" [] [] [Elem $"xsd:simpleType" [($"name", $"T")] [] [Elem $"xsd:union" [($"memberTypes", members)] [] []]; Elem $"xsd:element" [($"name", $"x"); ($"type", $"T")] [] []].
Lemma digits_valid members e : forallb builtin (split_ws members) = true ->
  (valid digits_F (digits_schema members) e <->
   xtag e = $"x" /\ xkids e = [] /\ xattrs e = [] /\ exists m, In m (split_ws members) /\ digits_F (m, []) (xtext e)).
Proof.
  intro B. rewrite forallb_forall in B.
  assert (component (digits_schema members) $"xsd:simpleType" $"T" = Some (Elem $"xsd:simpleType" [($"name", $"T")] [] [Elem $"xsd:union" [($"memberTypes", members)] [] []])) as CT by reflexivity.
  split.
  - intros (d & C & V). assert (xtag e = $"x" /\ attr_text $"type" d = $"T") as [X D].
    { unfold component in C. cbn [find xkids digits_schema] in C. unfold has_tag in C. cbn [xtag] in C. change (streqb $"xsd:simpleType" $"xsd:element") with false in C. cbn [andb] in C.
      change (streqb $"xsd:element" $"xsd:element") with true in C. cbn [andb] in C. change (attr_is $"name" (xtag e) (Elem $"xsd:element" [($"name", $"x"); ($"type", $"T")] [] [])) with (streqb $"x" (xtag e)) in C.
      destruct (streqb $"x" (xtag e)) eqn:Q; [|discriminate C]. apply streqb_eq in Q. injection C as <-. auto. }
    rewrite D in V. apply valid_type_inv in V as [(V & K & A)|(ct & Co & _)]; [|discriminate Co]. split; [exact X|]. split; [exact K|]. split; [exact A|].
    apply simple_inv in V as [(dd & V & _)|(st & u & m & Co & I & T & J & V)].
    + apply derives_inv in V as [[Q _]|(st & r & b & d' & Co & I & T & _)]; [discriminate Q|]. rewrite CT in Co. injection Co as <-. destruct I as [<-|[]]. discriminate T.
    + rewrite CT in Co. injection Co as <-. destruct I as [<-|[]]. change (attr_text $"memberTypes" _) with members in J. exists m. split; [exact J|]. specialize (B m J).
      apply simple_inv in V as [(dd & V & FF)|(st & u & m' & Co & _)].
      * apply derives_inv in V as [[_ ->]|(st & r & b & d' & Co & _)]; [exact FF|]. exfalso. revert B Co. clear. unfold component. cbn [find xkids digits_schema]. unfold has_tag. cbn [xtag]. change (streqb $"xsd:simpleType" $"xsd:simpleType") with true. change (streqb $"xsd:element" $"xsd:simpleType") with false. cbn [andb].
        change (attr_is $"name" m (Elem $"xsd:simpleType" [($"name", $"T")] [] [Elem $"xsd:union" [($"memberTypes", members)] [] []])) with (streqb $"T" m). destruct (streqb $"T" m) eqn:Q; [|discriminate]. apply streqb_eq in Q. subst m. discriminate.
      * exfalso. revert B Co. clear. unfold component. cbn [find xkids digits_schema]. unfold has_tag. cbn [xtag]. change (streqb $"xsd:simpleType" $"xsd:simpleType") with true. change (streqb $"xsd:element" $"xsd:simpleType") with false. cbn [andb].
        change (attr_is $"name" m (Elem $"xsd:simpleType" [($"name", $"T")] [] [Elem $"xsd:union" [($"memberTypes", members)] [] []])) with (streqb $"T" m). destruct (streqb $"T" m) eqn:Q; [|discriminate]. apply streqb_eq in Q. subst m. discriminate.
  - intros (X & K & A & m & J & FF). exists (Elem $"xsd:element" [($"name", $"x"); ($"type", $"T")] [] []). split; [rewrite X; reflexivity|].
    apply valid_simple; [|exact K|exact A]. eapply simple_union; [exact CT|now left|reflexivity|exact J|]. apply simple_derived with (d := (m, [])); [apply der_builtin; exact (B m J)|exact FF].
Qed.
Lemma digits_accepts_iff s e : digits_accepts s e = true <->
  xtag e = $"x" /\ xkids e = [] /\ xattrs e = [] /\
  (forallb isdig (xtext e) = true \/ existsb (fun ty => existsb (fun u => attr_is $"memberTypes" $"xsd:integer xsd:string" u) (xkids ty)) (xkids s) = true).
Proof.
  unfold digits_accepts. rewrite !andb_true_iff, orb_true_iff, streqb_eq. destruct (xkids e), (xattrs e); intuition discriminate.
Qed.
Example C46_digits : (forall s, processor digits_F digits_compile (transformed s digits_master)) /\
  pair_master digits_master = true /\ sound_master digits_master = true /\
  let parse (t : str) := Ok (Elem $"x" [] (if streqb t $"a" then $"12" else $"ab") []) in
  valall parse digits_compile digits_master $"f" $"a" =
    Ok (lines_file [$"candidate file f has no XML declaration"; $"submit is OK"; $"submithuman is OK"; $"general is OK"; $"generalhuman is OK"]) /\
  valall parse digits_compile digits_master $"f" $"<?xml version='1.0'?>" =
    Ok (lines_file [$"submit has failed: "; $"submithuman has failed: "; $"general is OK"; $"generalhuman is OK"]) /\
  let parse' (t : str) := if streqb t $"m" then Ok digits_master else parse t in
  let sheet_of (t : str) := if streqb t $"s" then Ok SubmitXsd else Ok GeneralHumanXsd in
  map (fun x => valades parse' digits_compile sheet_of $"m" (fst x) (snd x)) [($"s", $"a"); ($"s", $"b"); ($"g", $"b")] = [Ok Passed; Ok DocumentInvalid; Ok Passed].
Proof.
  split; [|repeat split; vm_compute; reflexivity]. intro s. exists (digits_accepts (transformed s digits_master)). split; [reflexivity|]. intro e. rewrite digits_accepts_iff.
  assert (unannotated (transformed s digits_master) = digits_schema (match s with SubmitXsd | SubmitHumanXsd => $"xsd:integer" | _ => $"xsd:integer xsd:string" end)) as -> by (destruct s; vm_compute; reflexivity).
  rewrite digits_valid by (destruct s; vm_compute; reflexivity).
  assert (existsb (fun ty => existsb (fun u => attr_is $"memberTypes" $"xsd:integer xsd:string" u) (xkids ty)) (xkids (transformed s digits_master)) = match s with SubmitXsd | SubmitHumanXsd => false | _ => true end) as -> by (destruct s; vm_compute; reflexivity).
  assert (split_ws (match s with SubmitXsd | SubmitHumanXsd => $"xsd:integer" | _ => $"xsd:integer xsd:string" end) = $"xsd:integer" :: match s with SubmitXsd | SubmitHumanXsd => [] | _ => [$"xsd:string"] end) as -> by (destruct s; vm_compute; reflexivity).
  split.
  - intros (X & K & A & [D|D]); repeat split; auto; [exists $"xsd:integer"|exists $"xsd:string"]; (split; [destruct s; try discriminate D; cbn [In]; auto|]).
    + intros _. exact D.
    + intro Q. discriminate Q.
  - intros (X & K & A & m & J & D). repeat split; auto. destruct J as [<-|J]; [left; apply D; reflexivity|]. right. destruct s; try reflexivity; destruct J.
Qed.
