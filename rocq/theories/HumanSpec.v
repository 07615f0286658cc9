(** Vocabulary of C45. *)
From Verif Require Export HumanSchema.
Local Open Scope string_scope. Local Open Scope list_scope.

(** annotations do not count in a schema (XML Schema 1.0 part 1, section 3.13) *)
Fixpoint unannotated (x : xml) : xml :=
  match x with Elem t a s ks => Elem t a s (flat_map (fun k => if has_tag $"xsd:annotation" k then [] else [unannotated k]) ks) end.
Definition machine (m : human_mode) : mode := match m with HumanSubmit => Submit | _ => General end.

(** the declarations a master may contain: references may be marked NoSubmit or
    NoSubmitDistribRequired, names may not; no other marks *)
Definition use_in (l : list string) (x : xml) : bool :=
  match attr $"use" x with None => true | Some u => smem u (map lit l) end.
Definition plain_uses := ["optional"; "unbounded"; "requiredAttribute"].
Definition declared (x : xml) : bool :=
  if has_attr $"name" x then has_attr $"type" x && use_in plain_uses x
  else negb (has_tag $"attribute" x) && has_attr $"ref" x && use_in ("NoSubmit" :: "NoSubmitDistribRequired" :: plain_uses) x.
Fixpoint pair_tree (x : xml) : bool :=
  match x with
  | Elem t _ _ ks =>
      if smem t [$"element"; $"group"; $"attribute"] then match ks with [] => declared x | _ => false end
      else streqb t $"any" || smem t [$"sequence"; $"all"; $"choice"] && forallb pair_tree ks
  end.
(** facets are not called like annotations *)
Definition facet_tree (x : xml) : bool :=
  forallb (fun k => negb (has_tag $"restrict" k && (attr_is $"name" $"xsd:annotation" k || attr_is $"name" $"xsd:documentation" k))) (xkids x).
Definition pair_type (x : xml) : bool :=
  if has_tag $"simpletype" x then forallb facet_tree (filter (has_tag $"restriction") (xkids x))
  else forallb pair_tree (filter (tag_in [$"all"; $"sequence"; $"choice"; $"attribute"]) (xkids x)).
Definition pair_master (m : xml) : bool :=
  forallb pair_type (under $"XSDTypes" m) &&
  forallb pair_tree (filter (has_tag $"element") (under $"XSDElementTypes" m)).
(** no mark NoSubmitDistribRequired *)
Fixpoint no_distrib (x : xml) : bool :=
  negb (attr_is $"use" $"NoSubmitDistribRequired" x) && match x with Elem _ _ _ ks => forallb no_distrib ks end.
(** the texts of the annotations *)
Fixpoint annotations (x : xml) : list str :=
  match x with Elem t _ s ks => (if streqb t $"xsd:documentation" then [s] else []) ++ flat_map annotations ks end.
