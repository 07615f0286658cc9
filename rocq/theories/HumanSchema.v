(** Model of xslt/xsd/submithumanxsd.xslt, generalhumanxsd.xslt and
    distribhumanxsd.xslt applied to a schema master (adesutility.py:97-100
    schemaxslts, xmlutility.py:149-178 XMLtoSchemaViaXSLT): the schema as the element
    tree that is read back from the text written.  The style sheets write text
    (method="text"), so markup characters in names, values and docs would not be
    escaped: not modelled (adesmaster.xml has none).  Comments, which the text has for
    @doc attributes and sections, and white space are not modelled either. *)
From Verif Require Export Schema.

Inductive human_mode := HumanSubmit | HumanGeneral | HumanDistrib.

(** submithumanxsd.xslt:111-122, generalhumanxsd.xslt:111-122, distribhumanxsd.xslt:111-122
    processUse; [None]: no case applies, nothing is written *)
Definition human_use (m : human_mode) (x : xml) : option (list (str * str)) :=
  if attr_is $"use" $"optional" x then Some [($"minOccurs", $"0")]
  else if attr_is $"use" $"NoSubmit" x then
    match m with HumanSubmit => None | _ => Some [($"minOccurs", $"0")] end
  else if attr_is $"use" $"NoSubmitDistribRequired" x then
    match m with HumanSubmit => None | HumanGeneral => Some [($"minOccurs", $"0")] | HumanDistrib => Some [] end
  else if negb (has_attr $"use" x) then Some []
  else if attr_is $"use" $"unbounded" x then Some [($"maxOccurs", $"unbounded")]
  else if attr_is $"use" $"requiredAttribute" x then Some [($"use", $"required")]
  else None.
Definition human_union (m : human_mode) : str := match m with HumanSubmit => $"submitunion" | _ => $"union" end.

(** submithumanxsd.xslt:73-155: the templates.  Of two templates that match the last
    one is taken; a node without one is replaced by its children. *)
Fixpoint human_apply (m : human_mode) (x : xml) : list xml :=
  let inner := match x with Elem _ _ _ ks => flat_map (human_apply m) ks end in
  if has_tag $"any" x then
    [Elem $"xsd:any" [($"minOccurs", $"0"); ($"maxOccurs", $"unbounded"); ($"processContents", $"lax")] [] []]
  else if tag_in [$"sequence"; $"all"; $"choice"] x then
    [Elem (xsd (xtag x)) (if attr_is $"use" $"unbounded" x then [($"maxOccurs", $"unbounded")] else []) [] inner]
  else if tag_in [$"attribute"; $"element"; $"group"] x && has_attr $"name" x then
    match human_use m x with
    | Some a => [Elem (xsd (xtag x)) ([($"name", attr_text $"name" x); ($"type", attr_text $"type" x)] ++ a) [] []]
    | None => []
    end
  else if tag_in [$"element"; $"group"] x && has_attr $"ref" x then
    match human_use m x with
    | Some a => [Elem (xsd (xtag x)) (($"ref", attr_text $"ref" x) :: a) [] []]
    | None => []
    end
  else if has_tag (human_union m) x then [Elem $"xsd:union" [($"memberTypes", attr_text $"memberTypes" x)] [] []]
  else if has_tag $"restriction" x then
    [Elem $"xsd:restriction" [($"base", attr_text $"base" x)] []
       (match x with Elem _ _ _ ks => flat_map (fun k => if has_tag $"restrict" k then human_apply m k else []) ks end)]
  else if has_tag $"restrict" x then [Elem (attr_text $"name" x) [($"value", attr_text $"value" x)] [] []]
  else if has_tag $"doc" x then [Elem $"xsd:annotation" [] [] [Elem $"xsd:documentation" [] (xtext x) []]]
  else inner.
Definition human_select (m : human_mode) (tags : list str) (x : xml) : list xml :=
  flat_map (human_apply m) (filter (tag_in tags) (xkids x)).
(** submithumanxsd.xslt:27-50: one entry of XSDTypes *)
Definition human_type (m : human_mode) (x : xml) : list xml :=
  let name := [($"name", attr_text $"name" x)] in
  if has_tag $"simpletype" x then
    [Elem $"xsd:simpleType" name [] (human_select m [$"doc"] x ++ human_select m [human_union m] x ++ human_select m [$"restriction"] x)]
  else if has_tag $"complextype" x then
    [Elem $"xsd:complexType" name [] (human_select m [$"doc"] x ++ human_select m [$"all"; $"sequence"; $"choice"] x ++ human_select m [$"attribute"] x)]
  else if has_tag $"grouptype" x then
    [Elem $"xsd:group" name [] (human_select m [$"doc"] x ++ human_select m [$"choice"; $"sequence"; $"all"] x)]
  else [].
(** submithumanxsd.xslt:11-70 *)
Definition human_schema (m : human_mode) (master : xml) : xml :=
  Elem $"xsd:schema" [] []
    (flat_map (human_type m) (under $"XSDTypes" master) ++
     flat_map (human_apply m) (filter (has_tag $"element") (under $"XSDElementTypes" master))).
