(** Vocabulary of C48: valid documents that are written as PSV and read back. *)
From Verif Require Export XsdPattern ValueSpec JustSpec PsvSpec RoundSpec.
Local Open Scope string_scope.
Local Open Scope list_scope.

(** the characters of numbers and times *)
Definition literal_char (c : ascii) : bool := isdig c || existsb (ceqb c) $"+-.:TZeEINFa".
(** What a reading of the built-in types that are not strings must respect (XML Schema part 2:
    the lexical spaces of decimal, integer, positiveInteger, double and dateTime): white space
    aside, values are not empty and written with these characters and at most one point, and
    a time begins with a digit or a minus sign. *)
Definition reads_literals (F : derivation -> str -> Prop) : Prop :=
  forall b steps s, In b (map lit ["xsd:decimal"; "xsd:integer"; "xsd:positiveInteger"; "xsd:double"; "xsd:dateTime"]) -> F (b, steps) s ->
    trim s <> [] /\ forallb literal_char (trim s) = true /\ (points (trim s) <= 1)%nat /\
    (b = $"xsd:dateTime" -> exists c r, trim s = c :: r /\ (isdig c = true \/ c = "-"%char)).

(** k is t or occurs in it *)
Inductive inside : xml -> xml -> Prop :=
| inside_self t : inside t t
| inside_child k c t : inside k c -> In c (xkids t) -> inside k t.
(** the texts without the white space around them *)
Fixpoint trim_texts (t : xml) : xml :=
  match t with Elem n a s ks => Elem n a (strip s) (map trim_texts ks) end.

(** fields that hold free text *)
Definition text_fields : list string := ["artSat"; "obsSubID"; "remarks"; "ref"; "orbProd"; "orbID"; "photProd"; "subFrm"].
(** those that are aligned on a decimal point when printed *)
Definition pointed_fields : list string := ["artSat"; "obsSubID"; "ref"; "orbProd"; "orbID"; "photProd"; "subFrm"].
(** an element that PSV can express: no residuals, nothing for local use; a text on one line,
    and in the fields of free text a text, no mark of a context line in front of it (except
    in remarks), and at most one point where it is aligned on one; no bar in a time (a pattern
    for leap seconds allows one) *)
Definition psv_can (k : xml) : Prop :=
  let v := strip (xtext k) in
  let is_in l := In (xtag k) (map lit l) in
  ~ is_in ["opticalResidual"; "radarResidual"; "localUse"] /\ one_line v /\
  (is_in text_fields -> v <> []) /\
  (is_in text_fields -> xtag k <> $"remarks" -> ~ starts_hash v) /\
  (is_in pointed_fields -> (points v <= 1)%nat) /\
  (xtag k = $"obsTime" -> ~ In "|"%char v).
