(** Specification of the lists of required elements: what the code counts as
    required, from the text of the schema master. *)
From Verif Require Import AdesTables.

(** What a reader meets who goes through a definition from top to bottom,
    following group references: the beginning and the end of every group,
    sequence, all and choice, and the elements.  [Begins true]: the beginning of
    a choice without a use attribute.  [Names n true]: an element without a use
    attribute.  (Other uses are the listed ones, so that "use" is there.) *)
Inductive mark := Begins (required_choice : bool) | Ends | Names (n : str) (mandatory : bool).

Definition no_use (x : xml) : bool := match attr $"use" x with None => true | Some _ => false end.

Inductive marks (m : xml) : xml -> list mark -> Prop :=
| k_ref x r : xtag x = $"element" -> attr $"ref" x = Some r -> marks m x [Names r (no_use x)]
| k_name x : xtag x = $"element" -> attr $"ref" x = None -> marks m x [Names (attr_text $"name" x) (no_use x)]
| k_group x r l : xtag x = $"group" -> attr $"ref" x = Some r ->
    marks_all m (flat_map xkids (descend $"grouptype" r m)) l -> marks m x ([Begins false] ++ l ++ [Ends])
| k_compositor x l : In (xtag x) [$"sequence"; $"all"; $"choice"] -> marks_all m (xkids x) l ->
    marks m x ([Begins (streqb (xtag x) $"choice" && no_use x)] ++ l ++ [Ends])
| k_doc x : xtag x = $"doc" -> marks m x []
| k_other x l : ~ In (xtag x) [$"element"; $"sequence"; $"all"; $"choice"; $"doc"] ->
    (xtag x = $"group" -> attr $"ref" x = None) -> marks_all m (xkids x) l -> marks m x l
with marks_all (m : xml) : list xml -> list mark -> Prop :=
| ka_nil : marks_all m [] []
| ka_cons x xs l ls : marks m x l -> marks_all m xs ls -> marks_all m (x :: xs) (l ++ ls).

(** An element counts as required when it is mandatory and, of the beginnings
    and ends before it (the beginnings of required choices left aside), the
    last one is an end, or there is none. *)
Definition free (before : list mark) : Prop :=
  (forall b, In (Begins b) before -> b = true) \/
  exists u v, before = u ++ Ends :: v /\ forall b, In (Begins b) v -> b = true.
Inductive counts_as_required (l : list mark) (n : str) : Prop :=
| counts before after : l = before ++ Names n true :: after -> free before -> counts_as_required l n.
(** the elements counted, in the order in which they come *)
Fixpoint counted (is_free : bool) (l : list mark) : list str :=
  match l with
  | [] => []
  | Begins b :: l' => counted (b && is_free) l'
  | Ends :: l' => counted true l'
  | Names n k :: l' => (if k && is_free then [n] else []) ++ counted is_free l'
  end.
