(** Specification of the PSV format: what a PSV file means, without state
    machine, stack or global variables. *)
From Verif Require Import PsvToXml.

(** what the tables must provide: ades has a list of children, each of them with
    both lists *)
Definition tables_ok (T : tables) : Prop :=
  exists ch, dget $"ades" (allowed T) = Some ch /\
    Forall (fun p => p <> [] /\ (exists al, dget p (allowed T) = Some al) /\ (exists rq, dget p (required T) = Some rq)) ch.

(** * Lines *)
Definition all_space (s : str) : Prop := forallb pyspace s = true.
Definition is_trimmed (s : str) : Prop := strip s = s.
(** a non-empty string without white space *)
Definition is_word (s : str) : Prop := s <> [] /\ Forall (fun c => pyspace c = false) s.

(** the cells of a line, trimmed *)
Definition cells (raw : str) : list str := map strip (splitc "|" raw).
(** a cell that does not rule out a header line: empty, or it starts with a
    letter or underscore *)
Definition header_cell (c : str) : Prop :=
  match c with [] => True | x :: _ => is_alpha_ x = true end.
(** the first visible character *)
Definition starts_with (c : ascii) (raw : str) : Prop := exists r, strip raw = c :: r.

(** [fits T cols ty]: a header with these columns can describe a [ty] *)
Definition fits (T : tables) (cols : list str) (ty : str) : Prop :=
  exists al rq, dget ty (allowed T) = Some al /\ dget ty (required T) = Some rq /\
    incl cols al /\ incl rq cols.
(** the type of a header: the last of the children of ades that fits *)
Definition header_has_type (T : tables) (cols : list str) (ty : str) : Prop :=
  exists pre post, dget $"ades" (allowed T) = Some (pre ++ ty :: post) /\
    fits T cols ty /\ Forall (fun p => ~ fits T cols p) post.

Inductive line :=
| LTop (name text : str)      (* "# name text" *)
| LSub (name text : str)      (* "! name text" *)
| LHead (cols : list str) (ty : str)
| LData (fields : list str).

(** "mark name text", the text may be absent (empty) *)
Definition ctx_line (mark : ascii) (raw name text : str) : Prop :=
  exists w1 w2 w3 w4,
    raw = w1 ++ mark :: w2 ++ name ++ w3 ++ text ++ w4 /\
    all_space w1 /\ all_space w2 /\ all_space w3 /\ all_space w4 /\
    is_word name /\ is_trimmed text /\ (text <> [] -> w3 <> []).

Inductive reads_as (T : tables) (raw : str) : line -> Prop :=
| r_top n t : ctx_line "#" raw n t -> reads_as T raw (LTop n t)
| r_sub n t : ctx_line "!" raw n t -> reads_as T raw (LSub n t)
| r_head ty : ~ all_space raw -> ~ starts_with "#" raw -> ~ starts_with "!" raw ->
    Forall header_cell (cells raw) -> header_has_type T (cells raw) ty ->
    reads_as T raw (LHead (cells raw) ty)
| r_data : ~ starts_with "#" raw -> ~ starts_with "!" raw ->
    ~ Forall header_cell (cells raw) ->
    reads_as T raw (LData (cells raw)).

(** the version line: one "=", nothing but "#version" before it (blanks aside) *)
Definition without_space (s : str) : str := filter (fun c => negb (pyspace c)) s.
Definition version_line (raw version : str) : Prop :=
  exists a b, raw = a ++ $"=" ++ b /\ ~ In "="%char a /\ ~ In "="%char b /\
    without_space a = $"#version" /\ version = without_space b.

Definition nonblank (l : str) : bool := negb (forallb pyspace l).

(** * Documents *)
Record item := { i_name : str; i_text : str; i_subs : list (str * str) }.
Record section := { s_ctx : list item; s_cols : list str; s_type : str; s_rows : list (list str) }.
(** what may be left unfinished at the end of a file *)
Inductive tail := TNone | TCtx (its : list item) | THead (its : list item) (cols : list str) (ty : str).
Record doc := { d_secs : list section; d_tail : tail }.

Definition item_lines (i : item) : list line :=
  LTop (i_name i) (i_text i) :: map (fun nt => LSub (fst nt) (snd nt)) (i_subs i).
Definition ctx_lines (its : list item) : list line := flat_map item_lines its.
Definition section_lines (s : section) : list line :=
  ctx_lines (s_ctx s) ++ LHead (s_cols s) (s_type s) :: map LData (s_rows s).
Definition tail_lines (t : tail) : list line :=
  match t with
  | TNone => []
  | TCtx its => ctx_lines its
  | THead its cols ty => ctx_lines its ++ [LHead cols ty]
  end.
Definition doc_lines (d : doc) : list line := flat_map section_lines (d_secs d) ++ tail_lines (d_tail d).

(** every section has a row, no row has more cells than its header *)
Definition section_ok (s : section) : Prop :=
  s_rows s <> [] /\ Forall (fun r => (length r <= length (s_cols s))%nat) (s_rows s).
Definition doc_ok (d : doc) : Prop :=
  Forall section_ok (d_secs d) /\ (forall its, d_tail d = TCtx its -> its <> []).

(** * The tree a document describes *)
Definition leaf (n t : str) : xml := Elem n [] t [].
Definition item_tree (i : item) : xml :=
  Elem (i_name i) [] (i_text i) (map (fun nt => leaf (fst nt) (snd nt)) (i_subs i)).

(** the value a row gives to a column: of several columns with this name the
    last one the row reaches counts; a row may be shorter than its header *)
Fixpoint value_of (cols row : list str) (k : str) : str :=
  match cols, row with
  | c :: cols', v :: row' =>
      if streqb k c && negb (smem k (firstn (length row') cols')) then v
      else value_of cols' row' k
  | _, _ => []
  end.
(** the record of a row: its non-empty values in the order of the schema *)
Definition row_tree (al : list str) (ty : str) (cols row : list str) : xml :=
  Elem ty [] [] (map (fun k => leaf k (value_of cols row k))
                     (filter (fun k => negb (streqb (value_of cols row k) [])) al)).
Definition order_of (T : tables) (ty : str) : list str :=
  match dget ty (allowed T) with Some al => al | None => [] end.
Definition rows_trees (T : tables) (s : section) : list xml :=
  map (row_tree (order_of T (s_type s)) (s_type s) (s_cols s)) (s_rows s).
Definition block (its : list item) (rest : list xml) : xml :=
  Elem $"obsBlock" [] [] (Elem $"obsContext" [] [] (map item_tree its) :: rest).
Definition section_trees (T : tables) (s : section) : list xml :=
  match s_ctx s with
  | [] => rows_trees T s
  | its => [block its [Elem $"obsData" [] [] (rows_trees T s)]]
  end.
Definition tail_trees (t : tail) : list xml :=
  match t with
  | TNone | THead [] _ _ => []
  | TCtx its | THead its _ _ => [block its []]
  end.
Definition doc_tree (T : tables) (version : str) (d : doc) : xml :=
  Elem $"ades" [($"version", version)] [] (flat_map (section_trees T) (d_secs d) ++ tail_trees (d_tail d)).

(** names that are XML names, texts without control characters *)
Fixpoint well_named (x : xml) : Prop :=
  match x with
  | Elem t a s ks => valid_name t = true /\ valid_text s = true /\
      Forall (fun kv => valid_name (fst kv) = true /\ valid_text (snd kv) = true) a /\
      (fix go (l : list xml) : Prop := match l with [] => True | k :: l' => well_named k /\ go l' end) ks
  end.

(** [psv_means T lines t]: the lines of a PSV file (without their newlines)
    describe the element tree [t] *)
Definition psv_means (T : tables) (lines : list str) (t : xml) : Prop :=
  exists blanks v rest version d,
    lines = blanks ++ v :: rest /\ Forall all_space blanks /\ version_line v version /\
    Forall2 (reads_as T) (filter nonblank rest) (doc_lines d) /\
    doc_ok d /\ t = doc_tree T version d /\ well_named t.

(** * Files *)
(** the lines of a file as the converter sees them *)
Definition lines_of (content : str) : list str := map (fun l => removelast l) (file_lines (univ_newlines content)).


(** the result of converting a file in a fresh process *)
Definition psv_tree (T : tables) (content : str) : option xml :=
  match psvtoxml T content g_init with Ok (t, _) => Some t | Err _ => None end.


(** the lines before an offending line are a document *)
Definition prefix_means (T : tables) (lines : list str) (d : doc) : Prop :=
  exists v rest version, filter nonblank lines = v :: rest /\ version_line v version /\
    Forall2 (reads_as T) rest (doc_lines d) /\ doc_ok d /\ well_named (doc_tree T version d).


(** the header that governs the next data line *)
Definition current_columns (d : doc) : option (list str) :=
  match d_tail d with
  | THead _ cols _ => Some cols
  | TCtx _ => None
  | TNone => match rev (d_secs d) with s :: _ => Some (s_cols s) | [] => None end
  end.


Definition no_cr (s : str) : Prop := ~ In cr s.
