(** Vocabulary of C48, continued: what PSV leaves out of a document. *)
From Verif Require Export LexSpec ValidSpec ValidSpec2.
Local Open Scope string_scope.
Local Open Scope list_scope.

(** fields a record may do without: the element for local use (it has no text of its
    own) and free texts *)
Definition dispensable : list string := ["localUse"; "remarks"; "obsSubID"; "ref"; "subFrm"; "photProd"].
(** such a field of which PSV has nothing to say: its text is white space *)
Definition unsaid (k : xml) : bool := smem (xtag k) (map lit dispensable) && streqb (strip (xtext k)) [].
(** the document without them *)
Fixpoint said (t : xml) : xml :=
  match t with
  | Elem n a s ks =>
      if smem n (map lit (record_names ++ residual_names)) then Elem n a s (filter (fun k => negb (unsaid k)) ks)
      else Elem n a s (map said ks)
  end.
