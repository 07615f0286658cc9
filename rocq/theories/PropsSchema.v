(** C35 and C17: the schemas made from the master, the documents they accept,
    and the element tables. *)
From Verif Require Import Master AdesMasterTables PyStrProofs SchemaProofs1 SchemaProofs2 SchemaProofs3 SchemaCheck.
From Verif Require Import Schema XsdSpec SchemaSpec XsdFiles.
Local Open Scope nat_scope.

(** the schema files of the distribution are what the style sheets make of the master *)
Theorem C35_submit_file : schema Submit adesmaster = submit_xsd.
Proof. vm_compute. reflexivity. Qed.
Theorem C35_general_file : schema General adesmaster = general_xsd.
Proof. vm_compute. reflexivity. Qed.
Print Assumptions C35_submit_file.
Print Assumptions C35_general_file.

(** For every master whose submission unions are part of its general unions,
    and every reading of the facets: what the submission schema accepts the
    general schema accepts. *)
Theorem C35_submit_general : forall F m e, sound_master m = true ->
  valid F (schema Submit m) e -> valid F (schema General m) e.
Proof. exact submit_general. Qed.
Print Assumptions C35_submit_general.
Example C35_sound : sound_master adesmaster = true.
Proof. vm_compute. reflexivity. Qed.
Theorem C35_submit_general_files : forall F e, valid F submit_xsd e -> valid F general_xsd e.
Proof. intros F e. rewrite <- C35_submit_file, <- C35_general_file. apply submit_general. exact C35_sound. Qed.
Print Assumptions C35_submit_general_files.

(** without that condition a submission may be refused by the general schema *)
Definition odd_master : xml :=
  let E t a ks := Elem t a [] ks in
  E $"ades" []
   [E $"XSDTypes" [] [E $"simpletype" [($"name", $"T")] [E $"union" [($"memberTypes", $"xsd:integer")] []; E $"submitunion" [($"memberTypes", $"xsd:string")] []]];
    E $"XSDElementTypes" [] [E $"element" [($"name", $"x"); ($"type", $"T")] []]].
Theorem C35_unions_needed_refuted : exists F m e,
  valid F (schema Submit m) e /\ ~ valid F (schema General m) e.
Proof.
  exists (fun d s => streqb (fst d) $"xsd:string" = true), odd_master, (Elem $"x" [] $"hello" []). split.
  - apply (checks_valid (fun d s => streqb (fst d) $"xsd:string") (schema Submit odd_master) 5). vm_compute. reflexivity.
  - intros (d & C & V). vm_compute in C. injection C as <-. change (attr_text $"type" _) with $"T" in V.
    apply valid_type_inv in V as [(Hs & _)|(ct & Co & _)]; [|vm_compute in Co; discriminate Co].
    apply simple_inv in Hs as [(d & D & _)|(st & u & m & Co & I & T & J & Hs)].
    + apply derives_inv in D as [(B & _)|(st & r & b & d' & Co & I & T & _)]; [discriminate B|]. vm_compute in Co. injection Co as <-.
      destruct I as [<-|[]]. discriminate T.
    + vm_compute in Co. injection Co as <-. destruct I as [<-|[]]. vm_compute in J. destruct J as [<-|[]].
      apply simple_inv in Hs as [(d & D & HF)|(st & u & m & Co & _)]; [|vm_compute in Co; discriminate Co].
      apply derives_inv in D as [(_ & ->)|(st & r & b & d' & Co & _)]; [discriminate HF|vm_compute in Co; discriminate Co].
Qed.

(** A submission contains observation blocks only, at least one, and nowhere
    an element reserved for distribution. *)
Theorem C35_blocks : forall F e, valid F submit_xsd e -> xtag e = $"ades" ->
  xkids e <> [] /\ Forall (fun k => xtag k = $"obsBlock") (xkids e).
Proof. exact submit_blocks. Qed.
Theorem C35_no_submit : forall F e, valid F submit_xsd e -> xtag e = $"ades" ->
  forall d, In d (descendants e) -> ~ In (xtag d) distribution_only.
Proof. exact submit_clean. Qed.
Print Assumptions C35_blocks.
Print Assumptions C35_no_submit.
(** the list is complete: it has every element the master marks NoSubmit
    somewhere, except the records, which are only kept from standing outside a
    block *)
Fixpoint marked (x : xml) : list str :=
  match x with Elem t a s ks =>
    (if no_submit x && streqb t $"element" then [attr_text $"ref" x] else []) ++ flat_map marked ks end.
Example C35_list_complete : forallb (fun r => smem r distribution_only || smem r [$"optical"; $"offset"; $"occultation"; $"radar"]) (marked adesmaster) = true.
Proof. vm_compute. reflexivity. Qed.

Lemma always_ok S e n : checks (fun _ _ => true) S n e = true -> valid (fun _ _ => True) S e.
Proof.
  intros H. apply (valid_weaken (fun d s => (fun (_ : derivation) (_ : str) => true) d s = true)); [intros; exact I|].
  now apply (checks_valid (fun _ _ => true) S n).
Qed.

(** The root is another matter: as XML Schema lets any declared element be the
    root, the submission schema accepts a document that is a lone <prog>. *)
Theorem C35_root_refuted : exists e, valid (fun _ _ => True) submit_xsd e /\ In (xtag e) distribution_only.
Proof.
  exists (Elem $"prog" [] $"01" []). split; [|do 3 right; left; reflexivity].
  apply (always_ok _ _ 8). vm_compute. reflexivity.
Qed.

(** what the general schema accepts more: a document with nothing in it *)
Theorem C35_converse_refuted : exists e, xtag e = $"ades" /\ valid (fun _ _ => True) general_xsd e /\ ~ valid (fun _ _ => True) submit_xsd e.
Proof.
  exists (Elem $"ades" [($"version", $"2022")] [] []). split; [reflexivity|]. split.
  - apply (always_ok _ _ 12). vm_compute. reflexivity.
  - intros V. destruct (submit_blocks _ _ V eq_refl) as [H _]. exact (H eq_refl).
Qed.

(** a submission *)
Definition leaf (t s : str) : xml := Elem t [] s [].
Definition submission : xml :=
  let E t ks := Elem t [] [] ks in
  Elem $"ades" [($"version", $"2022")] []
    [E $"obsBlock"
      [E $"obsContext"
        [E $"observatory" [leaf $"mpcCode" $"F51"]; E $"submitter" [leaf $"name" $"A. Observer"];
         E $"telescope" [leaf $"design" $"Reflector"; leaf $"aperture" $"1.8"; leaf $"detector" $"CCD"];
         E $"measurers" [leaf $"name" $"B. Observer"; leaf $"name" $"C. Observer"]];
       E $"obsData"
        [E $"optical" [leaf $"permID" $"433"; leaf $"mode" $"CCD"; leaf $"stn" $"F51"; leaf $"obsTime" $"2020-01-01T00:00:00Z";
                       leaf $"ra" $"10.5"; leaf $"dec" $"-3.25"; leaf $"astCat" $"Gaia2"];
         E $"optical" [leaf $"trkSub" $"xyz1"; leaf $"mode" $"CCD"; leaf $"stn" $"F51"; leaf $"obsTime" $"2020-01-01T00:00:00Z";
                       leaf $"ra" $"10.5"; leaf $"dec" $"-3.25"; leaf $"astCat" $"Gaia2"; leaf $"mag" $"18.2"; leaf $"band" $"G"]]]].
Example C35_submission : valid (fun _ _ => True) submit_xsd submission /\ xtag submission = $"ades" /\ length (descendants submission) = 32.
Proof.
  split; [|split; vm_compute; reflexivity]. apply (always_ok _ _ 30). vm_compute. reflexivity.
Qed.

(** * C17: the tables agree with the schema *)
(** In a document the general schema accepts (hence also in a submission), at
    any depth: the children of a record come in the order of the table of
    allowed elements, none of them twice, and the ones the table calls required
    are there. *)
Theorem C17_schema_order : forall F e d, valid F general_xsd e -> d = e \/ In d (descendants e) ->
  In (xtag d) [$"optical"; $"offset"; $"occultation"; $"radar"; $"opticalResidual"; $"radarResidual"] ->
  exists al rq, dget (xtag d) (allowed ades_tables) = Some al /\ dget (xtag d) (required ades_tables) = Some rq /\
    subsequence (map xtag (xkids d)) al /\ incl rq (map xtag (xkids d)).
Proof. exact record_row. Qed.
(** the same for the other elements with children, whose children may come in
    any order or more than once *)
Theorem C17_schema_children : forall F e d, valid F general_xsd e -> d = e \/ In d (descendants e) ->
  In (xtag d) [$"obsContext"; $"observatory"; $"submitter"; $"observers"; $"measurers"; $"telescope"; $"software";
               $"coinvestigators"; $"collaborators"; $"comment"; $"obsData"; $"obsBlock"; $"ades"] ->
  exists al rq, dget (xtag d) (allowed ades_tables) = Some al /\ dget (xtag d) (required ades_tables) = Some rq /\
    incl (map xtag (xkids d)) al /\ incl rq (map xtag (xkids d)).
Proof. exact other_row. Qed.
Print Assumptions C17_schema_order.
Print Assumptions C17_schema_children.
Example C17_schema_example : exists d, In d (descendants submission) /\ xtag d = $"optical" /\ length (xkids d) = 9.
Proof.
  exists (nth 22 (descendants submission) (leaf [] [])). split; [apply nth_In; vm_compute; lia|]. split; vm_compute; reflexivity.
Qed.
