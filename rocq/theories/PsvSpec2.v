(** Vocabulary of the PSV properties: equivalent lines, moved columns, the
    records of a tree. *)
From Verif Require Import PsvToXml PsvSpec.
From Coq Require Export Permutation.

Definition is_context (raw : str) : Prop := starts_with "#" raw \/ starts_with "!" raw.

(** two lines that differ only in blanks: around the cells of a data or header
    line, around the words of a context line *)
Inductive same_but_blanks (raw raw' : str) : Prop :=
| sb_cells : ~ is_context raw -> ~ is_context raw' -> cells raw = cells raw' -> same_but_blanks raw raw'
| sb_top n t : ctx_line "#" raw n t -> ctx_line "#" raw' n t -> same_but_blanks raw raw'
| sb_sub n t : ctx_line "!" raw n t -> ctx_line "!" raw' n t -> same_but_blanks raw raw'.
(** two lists of lines that differ in blanks within lines and in blank lines *)
Inductive blanks_differ : list str -> list str -> Prop :=
| bd_nil : blanks_differ [] []
| bd_left b l l' : all_space b -> blanks_differ l l' -> blanks_differ (b :: l) l'
| bd_right b l l' : all_space b -> blanks_differ l l' -> blanks_differ l (b :: l')
| bd_line x y l l' : same_but_blanks x y -> blanks_differ l l' -> blanks_differ (x :: l) (y :: l').
(** two files that do: blank lines before the version line too *)
Definition files_differ_in_blanks (l l' : list str) : Prop :=
  exists b x r b' y r' v, l = b ++ x :: r /\ l' = b' ++ y :: r' /\
    Forall all_space b /\ Forall all_space b' /\
    version_line x v /\ version_line y v /\ blanks_differ r r'.

(** a row, and the same row with its columns moved: the (column, value) pairs
    are the same *)
Definition moved (H H' : list str) (row row' : str) : Prop :=
  ~ is_context row /\ ~ is_context row' /\
  length (cells row) = length H /\ length (cells row') = length H' /\
  Permutation (combine H (cells row)) (combine H' (cells row')).

(** a data line *)
Definition data_line (raw : str) : Prop := ~ is_context raw /\ ~ Forall header_cell (cells raw).

(** two files that differ in the order of the columns of one data section: a
    header line [h] with distinct columns and its rows, up to the next line that
    is not a row *)
Definition columns_moved (l l' : list str) : Prop :=
  exists pre h rows h' rows' post,
    l = pre ++ h :: rows ++ post /\ l' = pre ++ h' :: rows' ++ post /\
    ~ is_context h /\ ~ is_context h' /\ ~ all_space h /\
    Forall header_cell (cells h) /\ NoDup (cells h) /\ Permutation (cells h) (cells h') /\
    Forall data_line rows /\ Forall2 (moved (cells h) (cells h')) rows rows' /\
    match filter (fun l => negb (forallb pyspace l)) post with x :: _ => ~ data_line x | [] => True end.

(** two files that differ in empty cells at the end of the rows of one data
    section, never beyond its header *)
Definition rows_padded (l l' : list str) : Prop :=
  exists pre h rows rows' post,
    l = pre ++ h :: rows ++ post /\ l' = pre ++ h :: rows' ++ post /\
    ~ is_context h /\ ~ all_space h /\ Forall header_cell (cells h) /\ NoDup (cells h) /\
    Forall data_line rows /\ Forall data_line rows' /\
    Forall2 (fun r r' => (length (cells r) <= length (cells h))%nat /\ (length (cells r') <= length (cells h))%nat /\
               exists n, cells r' = cells r ++ repeat [] n \/ cells r = cells r' ++ repeat [] n) rows rows' /\
    match filter (fun l => negb (forallb pyspace l)) post with x :: _ => ~ data_line x | [] => True end.

(** the records of a tree: the children of ades and of obsBlock/obsData other
    than obsBlocks *)
Definition is_tag (n : str) (x : xml) : bool := streqb (xtag x) n.
Definition records (t : xml) : list xml :=
  flat_map (fun k => if is_tag $"obsBlock" k
                     then flat_map xkids (filter (is_tag $"obsData") (xkids k))
                     else [k]) (xkids t).

Inductive subsequence {A} : list A -> list A -> Prop :=
| sub_nil l : subsequence [] l
| sub_skip x a b : subsequence a b -> subsequence a (x :: b)
| sub_take x a b : subsequence a b -> subsequence (x :: a) (x :: b).

(** a leaf with a non-empty text without surrounding blanks *)
Definition good_leaf (x : xml) : Prop :=
  xattrs x = [] /\ xkids x = [] /\ xtext x <> [] /\ is_trimmed (xtext x).
Definition good_record (T : tables) (x : xml) : Prop :=
  xattrs x = [] /\ xtext x = [] /\ Forall good_leaf (xkids x) /\
  exists types order, dget $"ades" (allowed T) = Some types /\ In (xtag x) types /\
    dget (xtag x) (allowed T) = Some order /\ subsequence (map xtag (xkids x)) order.

(** * The shape of an ADES tree *)
Definition complete_block (x : xml) : Prop :=
  exists ctx data, x = Elem $"obsBlock" [] [] [Elem $"obsContext" [] [] ctx; Elem $"obsData" [] [] data] /\
    ctx <> [] /\ data <> [].
Definition open_block (x : xml) : Prop :=
  exists ctx, x = Elem $"obsBlock" [] [] [Elem $"obsContext" [] [] ctx] /\ ctx <> [].
Definition record_of (types : list str) (x : xml) : Prop := In (xtag x) types.
Definition ades_shape (types : list str) (t : xml) : Prop :=
  exists version body last, t = Elem $"ades" [($"version", version)] [] (body ++ last) /\
    Forall (fun x => complete_block x \/ record_of types x) body /\
    (last = [] \/ exists b, last = [b] /\ open_block b).
