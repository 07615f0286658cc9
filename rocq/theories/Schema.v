(** Model of xslt/xsd/submitxsd.xslt and xslt/xsd/generalxsd.xslt applied to a
    schema master (adesutility.py:schemaxslts, xmlutility.py:XMLtoSchemaViaXSLT):
    the XSD schema as an element tree.  distribxsd.xslt is the same text as
    generalxsd.xslt.  White space between elements and doc elements are not
    modelled (they do not reach the schema where it matters: annotations are
    not written by these two style sheets). *)
From Verif Require Export AdesTables.

Inductive mode := Submit | General.

(** use='NoSubmitDistribRequired' or use='NoSubmit' *)
Definition no_submit (x : xml) : bool :=
  attr_is $"use" $"NoSubmitDistribRequired" x || attr_is $"use" $"NoSubmit" x.
Definition has_attr (k : str) (x : xml) : bool := match attr k x with Some _ => true | None => false end.
Definition tag_in (l : list str) (x : xml) : bool := smem (xtag x) l.

(** submitxsd.xslt:85-103, generalxsd.xslt:84-104 processUse *)
Definition use_attrs (m : mode) (x : xml) : list (str * str) :=
  if no_submit x then match m with Submit => [] | General => [($"minOccurs", $"0")] end
  else if attr_is $"use" $"optional" x then [($"minOccurs", $"0")]
  else if attr_is $"use" $"unbounded" x then [($"maxOccurs", $"unbounded")]
  else if attr_is $"use" $"requiredAttribute" x then [($"use", $"required")]
  else [].
Definition xsd (s : str) : str := $"xsd:" ++ s.
Definition union_tag (m : mode) : str := match m with Submit => $"submitunion" | General => $"union" end.

(** submitxsd.xslt:49-146, generalxsd.xslt:49-147: the templates.  A node
    without a template is replaced by its children (XSLT's built-in rule). *)
Fixpoint apply (m : mode) (x : xml) : list xml :=
  if tag_in [$"attribute"; $"element"; $"group"] x && has_attr $"name" x && has_attr $"type" x && negb (no_submit x) then
    [Elem (xsd (xtag x)) ([($"name", attr_text $"name" x); ($"type", attr_text $"type" x)] ++ use_attrs m x) [] []]
  else if tag_in [$"element"; $"group"] x && has_attr $"ref" x
          && match m with Submit => negb (no_submit x) | General => true end then
    [Elem (xsd (xtag x)) (($"ref", attr_text $"ref" x) :: use_attrs m x) [] []]
  else
    let inner := match x with Elem _ _ _ ks => flat_map (apply m) ks end in
    if tag_in [$"sequence"; $"all"; $"choice"] x then
      [Elem (xsd (xtag x)) (if attr_is $"use" $"unbounded" x then [($"maxOccurs", $"unbounded")] else []) [] inner]
    else if has_tag $"any" x then
      [Elem $"xsd:any" [($"minOccurs", $"0"); ($"maxOccurs", $"unbounded"); ($"processContents", $"lax")] [] []]
    else if has_tag $"restrict" x then [Elem (attr_text $"name" x) [($"value", attr_text $"value" x)] [] []]
    else if has_tag $"restriction" x then
      [Elem $"xsd:restriction" [($"base", attr_text $"base" x)] []
         (match x with Elem _ _ _ ks => flat_map (fun k => if has_tag $"restrict" k then apply m k else []) ks end)]
    else if has_tag (union_tag m) x then [Elem $"xsd:union" [($"memberTypes", attr_text $"memberTypes" x)] [] []]
    else inner.
(** apply-templates select="a|b|.." *)
Definition select (m : mode) (tags : list str) (x : xml) : list xml :=
  flat_map (apply m) (filter (tag_in tags) (xkids x)).
(** submitxsd.xslt:15-38: one entry of XSDTypes *)
Definition type_of (m : mode) (x : xml) : list xml :=
  let name := [($"name", attr_text $"name" x)] in
  if has_tag $"simpletype" x then
    [Elem $"xsd:simpleType" name [] (select m [union_tag m] x ++ select m [$"restriction"] x)]
  else if has_tag $"complextype" x then
    [Elem $"xsd:complexType" name [] (select m [$"all"; $"sequence"; $"choice"] x ++ select m [$"attribute"] x)]
  else if has_tag $"grouptype" x then
    [Elem $"xsd:group" name [] (select m [$"choice"; $"sequence"; $"all"] x)]
  else [].
(** submitxsd.xslt:11-47 *)
Definition under (tag : str) (root : xml) : list xml := flat_map xkids (filter (has_tag tag) (xkids root)).
Definition schema (m : mode) (master : xml) : xml :=
  Elem $"xsd:schema" [] []
    (flat_map (type_of m) (under $"XSDTypes" master) ++
     flat_map (apply m) (filter (has_tag $"element") (under $"XSDElementTypes" master))).
