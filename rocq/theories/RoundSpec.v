(** Vocabulary of the XML - PSV - XML round trip. *)
From Verif Require Import PsvToXml PsvSpec PsvSpec2 JustSpec.
From Verif Require Export AdesTables.

(** * The tree that is expected back *)
(** the text of the last child with this tag whose text is not blank *)
Definition rec_value (r : xml) (k : str) : str :=
  match find (fun c => streqb (xtag c) k && nonblank (xtext c)) (rev (xkids r)) with
  | Some c => strip (xtext c)
  | None => []
  end.
(** schema order, blank children dropped, texts trimmed, no attributes *)
Definition normal_record (T : tables) (r : xml) : xml :=
  Elem (xtag r) [] []
    (map (fun k => leaf k (rec_value r k))
         (filter (fun k => negb (streqb (rec_value r k) [])) (order_of T (xtag r)))).
Definition normal_item (i : xml) : xml :=
  Elem (xtag i) [] (strip (xtext i)) (map (fun s => leaf (xtag s) (strip (xtext s))) (xkids i)).
Definition normal_child (T : tables) (c : xml) : xml :=
  if is_tag $"obsBlock" c then
    match xkids c with
    | [ctx; data] =>
        Elem $"obsBlock" [] [] [Elem $"obsContext" [] [] (map normal_item (xkids ctx));
                                Elem $"obsData" [] [] (map (normal_record T) (xkids data))]
    | _ => c
    end
  else normal_record T c.
Definition version_of (t : xml) : str := match dget $"version" (xattrs t) with Some v => v | None => [] end.
Definition normal (T : tables) (t : xml) : xml :=
  Elem $"ades" [($"version", without_space (version_of t))] [] (map (normal_child T) (xkids t)).

(** * The record types the format table knows *)
(** no header of this type is taken for another *)
Definition told_apart (T : tables) (ty : str) : Prop :=
  forall al rq cols, dget ty (allowed T) = Some al -> dget ty (required T) = Some rq ->
    incl cols al -> incl rq cols -> header_has_type T cols ty.
Definition starts_alpha (s : str) : Prop := exists c r, s = c :: r /\ is_alpha_ c = true.
Definition printable (T : tables) (ty : str) : Prop :=
  ty <> $"obsBlock" /\
  (exists ts, dget $"ades" (allowed T) = Some ts /\ In ty ts /\ In $"obsBlock" ts) /\
  (exists ts, dget $"obsData" (allowed T) = Some ts /\ In ty ts) /\
  (exists bs, dget $"obsBlock" (allowed T) = Some bs /\ In $"obsContext" bs /\ In $"obsData" bs) /\
  told_apart T ty /\
  exists fs al rq, dget ty (psvFormat T) = Some fs /\ dget ty (allowed T) = Some al /\ dget ty (required T) = Some rq /\
    Forall (fun j => In (p_just j) [$"L"; $"R"; $"C"] \/ p_just j = $"D" /\ 0 <= p_dpos j) fs /\
    Forall (fun k => valid_name k = true /\ starts_alpha k) al.
(** a column that is not aligned on its decimal point *)
Definition free_column (T : tables) (ty k : str) : bool :=
  match dget ty (psvFormat T) with
  | Some fs => match find (fun j => streqb (p_name j) k) (rev fs) with
               | Some j => smem (p_just j) [$"L"; $"R"; $"C"]
               | None => false
               end
  | None => false
  end.
(** the column that is printed last (remarks) *)
Definition last_column (T : tables) (ty : str) : str :=
  match dget ty (psvFormat T) with
  | Some fs => match rev fs with j :: _ => p_name j | [] => [] end
  | None => []
  end.

(** * The trees that can be written *)
Definition one_line (s : str) : Prop := ~ In nl s /\ ~ In cr s.
Definition starts_hash (s : str) : Prop := exists c r, s = c :: r /\ (c = "#"%char \/ c = "!"%char).
Definition writable_value (T : tables) (ty k v : str) : Prop :=
  one_line v /\ ~ In "|"%char v /\ (k <> last_column T ty -> ~ starts_hash v) /\
  (free_column T ty k = false -> (points v <= 1)%nat).
(** the children with a text are elements of the type, the required ones are
    there, one value does not start with a letter *)
Definition writable_record (T : tables) (ty : str) (r : xml) : Prop :=
  xtag r = ty /\
  (forall k, rec_value r k <> [] -> In k (order_of T ty) /\ writable_value T ty k (rec_value r k)) /\
  (forall rq k, dget ty (required T) = Some rq -> In k rq -> rec_value r k <> []) /\
  (exists k, rec_value r k <> [] /\ ~ starts_alpha (rec_value r k)) /\
  (exists k, rec_value r k <> [] /\ k <> last_column T ty).
Definition writable_item (i : xml) : Prop :=
  valid_name (xtag i) = true /\ one_line (strip (xtext i)) /\
  Forall (fun s => valid_name (xtag s) = true /\ one_line (strip (xtext s))) (xkids i).
Definition writable_child (T : tables) (c : xml) : Prop :=
  (exists ty, printable T ty /\ writable_record T ty c) \/
  (exists a x ca cx ctx da dx data ty,
     c = Elem $"obsBlock" a x [Elem $"obsContext" ca cx ctx; Elem $"obsData" da dx data] /\
     ctx <> [] /\ Forall writable_item ctx /\
     data <> [] /\ printable T ty /\ Forall (writable_record T ty) data).
Definition writable (T : tables) (t : xml) : Prop :=
  xtag t = $"ades" /\ (exists v, dget $"version" (xattrs t) = Some v /\ one_line v /\ ~ In "="%char v) /\
  well_named t /\ Forall (writable_child T) (xkids t).
