(** Specification of the element tables: what the schema master says. *)
From Verif Require Import AdesTables.

(** The names in [l], each once, in the order of their last occurrences. *)
Fixpoint last_occurrences (l : list str) : list str :=
  match l with
  | [] => []
  | x :: l' => if smem x l' then last_occurrences l' else x :: last_occurrences l'
  end.

(** [mentions m x l]: reading the definition [x] in the master [m] from top to
    bottom, and following every group reference to the definition of the group,
    mentions the elements [l] in this order. *)
Inductive mentions (m : xml) : xml -> list str -> Prop :=
| m_ref x r : xtag x = $"element" -> attr $"ref" x = Some r -> mentions m x [r]
| m_name x : xtag x = $"element" -> attr $"ref" x = None -> mentions m x [attr_text $"name" x]
| m_group x r l : xtag x = $"group" -> attr $"ref" x = Some r ->
    mentions_all m (flat_map xkids (descend $"grouptype" r m)) l -> mentions m x l
| m_doc x : xtag x = $"doc" -> mentions m x []
| m_inner x l : xtag x <> $"element" -> xtag x <> $"doc" ->
    (xtag x = $"group" -> attr $"ref" x = None) ->
    mentions_all m (xkids x) l -> mentions m x l
with mentions_all (m : xml) : list xml -> list str -> Prop :=
| ma_nil : mentions_all m [] []
| ma_cons x xs l ls : mentions m x l -> mentions_all m xs ls -> mentions_all m (x :: xs) (l ++ ls).

(** the declaration in force for an element name: the last one *)
Definition declared (m : xml) (name : str) (e : xml) : Prop :=
  exists pre post, element_decls m = pre ++ e :: post /\
    attr_text $"name" e = name /\
    Forall (fun e' => attr_text $"name" e' <> name) post.

(** the last element of [l] with this tag *)
Definition last_with (n : str) (l : list xml) : list xml :=
  match find (fun x => streqb (xtag x) n) (rev l) with Some x => [x] | None => [] end.

