(** C45: the schemas written for people and the ones written for programs. *)
From Verif Require Import Master AdesMasterTables PyStrProofs SchemaProofs1 SchemaProofs2 SchemaProofs3 SchemaCheck.
From Verif Require Import Schema XsdSpec SchemaSpec XsdFiles PropsSchema HumanSpec HumanProofs.
Local Open Scope nat_scope.

(** For every master whose declarations are marked as allowed: without its annotations
    the human schema is the machine one, so both accept the same documents. *)
Theorem C45_pair : forall master, pair_master master = true ->
  unannotated (human_schema HumanSubmit master) = schema Submit master /\
  unannotated (human_schema HumanGeneral master) = schema General master.
Proof. intros x P. split; [apply (schema_twin HumanSubmit x P)|apply (schema_twin HumanGeneral x P)]; discriminate. Qed.
Print Assumptions C45_pair.
Theorem C45_distrib_pair : forall master, pair_master master = true -> no_distrib master = true ->
  unannotated (human_schema HumanDistrib master) = schema General master.
Proof. intros x P D. exact (schema_twin HumanDistrib x P (fun _ => D)). Qed.
Print Assumptions C45_distrib_pair.
Theorem C45_accept : forall F master e, pair_master master = true ->
  (valid F (unannotated (human_schema HumanSubmit master)) e <-> valid F (schema Submit master) e) /\
  (valid F (unannotated (human_schema HumanGeneral master)) e <-> valid F (schema General master) e).
Proof. intros F x e P. destruct (C45_pair x P) as [-> ->]. split; reflexivity. Qed.
Print Assumptions C45_accept.

(** the master of the distribution, and the schema files of the distribution *)
Example C45_master : pair_master adesmaster = true.
Proof. vm_compute. reflexivity. Qed.
Theorem C45_files : forall F e,
  (valid F (unannotated (human_schema HumanSubmit adesmaster)) e <-> valid F submit_xsd e) /\
  (valid F (unannotated (human_schema HumanGeneral adesmaster)) e <-> valid F general_xsd e).
Proof. intros F e. rewrite <- C35_submit_file, <- C35_general_file. exact (C45_accept F adesmaster e C45_master). Qed.
Print Assumptions C45_files.
(** a small master with docs, marks and both unions *)
Definition small_master : xml :=
  let E t a ks := Elem t a [] ks in let D s := Elem $"doc" [] s [] in
  E $"ades" []
   [E $"XSDTypes" []
     [E $"simpletype" [($"name", $"T")] [D $"a number"; E $"union" [($"memberTypes", $"xsd:integer U")] []; E $"submitunion" [($"memberTypes", $"xsd:integer")] []];
      E $"simpletype" [($"name", $"U")] [D $"short"; E $"restriction" [($"base", $"xsd:string")] [E $"restrict" [($"name", $"xsd:maxLength"); ($"value", $"3")] []]];
      E $"complextype" [($"name", $"B")] [D $"a block"; E $"sequence" [($"use", $"unbounded")]
        [E $"element" [($"ref", $"x"); ($"use", $"NoSubmit")] []; E $"choice" [] [E $"group" [($"ref", $"G")] []; E $"any" [] []]]; E $"attribute" [($"name", $"version"); ($"type", $"U"); ($"use", $"requiredAttribute")] []]];
    E $"XSDElementTypes" [] [D $"elements"; E $"element" [($"name", $"x"); ($"type", $"T")] []; E $"element" [($"name", $"b"); ($"type", $"B")] []]].
Example C45_adesmaster_distrib : no_distrib adesmaster = true.
Proof. vm_compute. reflexivity. Qed.
Example C45_small : pair_master small_master = true /\ no_distrib small_master = true /\
  human_schema HumanSubmit small_master <> schema Submit small_master /\ schema Submit small_master <> schema General small_master.
Proof. repeat split; try (vm_compute; reflexivity); vm_compute; discriminate. Qed.
(** the annotations are the docs of the types *)
Theorem C45_annotations : forall m master, pair_master master = true ->
  flat_map annotations (xkids (human_schema m master)) =
  flat_map (fun x => if tag_in [$"simpletype"; $"complextype"; $"grouptype"] x then map xtext (filter (has_tag $"doc") (xkids x)) else []) (under $"XSDTypes" master).
Proof. exact schema_docs. Qed.
Print Assumptions C45_annotations.

(** An element that is declared by name and marked NoSubmit is missing from the
    general schema made for programs but not from the one for people. *)
Definition one_element (a : list (str * str)) : xml :=
  Elem $"ades" [] [] [Elem $"XSDTypes" [] [] []; Elem $"XSDElementTypes" [] [] [Elem $"element" a [] []]].
Theorem C45_named_refuted : exists master, pair_master master = false /\
  xkids (human_schema HumanGeneral master) = [Elem $"xsd:element" [($"name", $"x"); ($"type", $"xsd:string"); ($"minOccurs", $"0")] [] []] /\
  xkids (schema General master) = [].
Proof. exists (one_element [($"name", $"x"); ($"type", $"xsd:string"); ($"use", $"NoSubmit")]). vm_compute. auto. Qed.
Print Assumptions C45_named_refuted.
(** an unknown mark drops the declaration for people only *)
Theorem C45_unknown_refuted : exists master, pair_master master = false /\
  xkids (human_schema HumanSubmit master) = [] /\
  xkids (schema Submit master) = [Elem $"xsd:element" [($"name", $"x"); ($"type", $"xsd:string")] [] []].
Proof. exists (one_element [($"name", $"x"); ($"type", $"xsd:string"); ($"use", $"Optional")]). vm_compute. auto. Qed.
Print Assumptions C45_unknown_refuted.
(** The schemas for distribution disagree: what must be present for people is optional for programs. *)
Theorem C45_distrib_refuted : exists master, pair_master master = true /\
  unannotated (human_schema HumanDistrib master) <> schema General master.
Proof. exists (one_element [($"ref", $"x"); ($"use", $"NoSubmitDistribRequired")]). split; [vm_compute; reflexivity|]. vm_compute. discriminate. Qed.
Print Assumptions C45_distrib_refuted.
