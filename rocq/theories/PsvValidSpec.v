(** Vocabulary of C47: when the document described by a PSV file is valid.
    [F] is the reading of facets, [S] the schema, as in XsdSpec. *)
From Verif Require Import PsvToXml PsvSpec Schema.
From Verif Require Export XsdSpec ValidSpec.
From Verif Require Import AdesMasterTables PsvSpec.
Local Open Scope string_scope.
Local Open Scope list_scope.

(** [described lines version d]: the lines of a PSV file are the version line and the
    lines of the document [d] (PsvSpec: sections of context lines, header line, rows) *)
Definition described (lines : list str) (version : str) (d : doc) : Prop :=
  exists blanks v rest, lines = blanks ++ v :: rest /\ Forall all_space blanks /\ version_line v version /\
    Forall2 (reads_as ades_tables) (filter nonblank rest) (doc_lines d) /\ doc_ok d /\
    well_named (doc_tree ades_tables version d).

Section Fine.
Variable F : derivation -> str -> Prop.
Variable S : xml.
(** "! name text" lines of known names, each at most once, the needed ones there *)
Definition named_parts (ps : list (string * string * bool)) (subs : list (str * str)) : Prop :=
  NoDup (map fst subs) /\
  (forall n v, In (n, v) subs -> exists m t b, In (m, t, b) ps /\ n = $m /\ simple F S $t v) /\
  (forall n t, In (n, t, true) ps -> In $n (map fst subs)).
(** one or more "! name text" lines of one name *)
Definition list_of (n : string) (subs : list (str * str)) : Prop :=
  subs <> [] /\ forall m v, In (m, v) subs -> m = $n /\ simple F S $"StringTypeW100" v.
(** a "# name text" line with the lines below it *)
Definition item_fine (i : item) : Prop :=
  let is w := i_name i = lit w in let only_parts := i_text i = [] in
  is "observatory" /\ only_parts /\ named_parts observatory_parts (i_subs i) \/
  is "submitter" /\ only_parts /\ named_parts submitter_parts (i_subs i) \/
  is "telescope" /\ only_parts /\ named_parts telescope_parts (i_subs i) \/
  is "software" /\ only_parts /\ named_parts software_parts (i_subs i) \/
  (is "observers" \/ is "measurers" \/ is "coinvestigators" \/ is "collaborators") /\ only_parts /\ list_of "name" (i_subs i) \/
  is "comment" /\ only_parts /\ list_of "line" (i_subs i) \/
  is "fundingSource" /\ i_subs i = [] /\ simple F S $"StringTypeW100" (i_text i).
Definition context_fine (its : list item) : Prop :=
  NoDup (map i_name its) /\ incl (map lit context_needed) (map i_name its) /\ Forall item_fine its.
(** the rows of a table: complete records with good values *)
Definition rows_fine (s : section) : Prop :=
  Forall (fun row => fields_fine F S (s_type s) (order_of ades_tables (s_type s)) (value_of (s_cols s) row)) (s_rows s).
(** what may not be given in a submission *)
Definition nothing_reserved (s : section) : Prop :=
  Forall (fun row => forall x, In x (map lit reserved) -> In x (order_of ades_tables (s_type s)) -> value_of (s_cols s) row x = []) (s_rows s).
Definition observations (s : section) : Prop := In (s_type s) (map lit record_names).
Definition residuals (s : section) : Prop := In (s_type s) (map lit residual_names).
(** a section of a document for the general schema: with context lines a block of
    observations, without them observations or residuals *)
Definition section_general (s : section) : Prop :=
  rows_fine s /\ (s_ctx s = [] /\ (observations s \/ residuals s) \/ s_ctx s <> [] /\ context_fine (s_ctx s) /\ observations s).
(** a section of a submission: always a block *)
Definition section_submit (s : section) : Prop :=
  rows_fine s /\ nothing_reserved s /\ s_ctx s <> [] /\ context_fine (s_ctx s) /\ observations s.
(** nothing left over but possibly a header line without rows *)
Definition finished (t : tail) : Prop := t = TNone \/ exists cols ty, t = THead [] cols ty.
End Fine.
