(** Vocabulary of C35: masters for which the submission schema is a subset of
    the general one, and tags in documents. *)
From Verif Require Export Schema XsdSpec.

(** particles as the master may contain them: elements, groups and attributes
    have no children *)
Fixpoint plain_tree (x : xml) : bool :=
  match x with
  | Elem t _ _ ks =>
      if smem t [$"element"; $"group"; $"attribute"; $"any"] then match ks with [] => true | _ => false end
      else smem t [$"sequence"; $"all"; $"choice"] && forallb plain_tree ks
  end.
(** the members of a submission union are members of the general union *)
Definition members (tag : str) (x : xml) : list str :=
  flat_map (fun u => if has_tag tag u then split_ws (attr_text $"memberTypes" u) else []) (xkids x).
Definition type_ok (x : xml) : bool :=
  if has_tag $"simpletype" x then forallb (fun m => smem m (members $"union" x)) (members $"submitunion" x)
  else forallb plain_tree (filter (tag_in [$"all"; $"sequence"; $"choice"; $"attribute"]) (xkids x)).
Definition sound_master (m : xml) : bool :=
  forallb type_ok (under $"XSDTypes" m) &&
  forallb plain_tree (filter (has_tag $"element") (under $"XSDElementTypes" m)).

(** the elements below a document, at any depth *)
Fixpoint descendants (x : xml) : list xml :=
  match x with Elem _ _ _ ks => flat_map (fun k => k :: descendants k) ks end.

(** a is b with some items left out *)
Inductive subsequence : list str -> list str -> Prop :=
| sub_nil : subsequence [] []
| sub_take x a b : subsequence a b -> subsequence (x :: a) (x :: b)
| sub_drop x a b : subsequence a b -> subsequence a (x :: b).
