(** What the documents the schemas accept look like, in words of their elements.
    [F] is the reading of facets, as in XsdSpec. *)
From Verif Require Export XsdSpec RecordSpec.
From Verif Require Import Mpc80 Mpc80Spec Schema XsdSpec DocSpec.

Local Open Scope string_scope.
Local Open Scope list_scope.
(** no attributes, and no text but white space *)
Definition bare (e : xml) : Prop := xattrs e = [] /\ blank_text (xtext e) = true.
(** the field x has a value *)
Definition given (text : str -> str) (x : str) : bool := match strip (text x) with [] => false | _ => true end.
(** the type the schema declares for an element *)
Definition type_name (S : xml) (x : str) : str := match component S $"xsd:element" x with Some d => attr_text $"type" d | None => [] end.

Section Parts.
Variable F : derivation -> str -> Prop.
Variable S : xml.
(** a value: an element with text only, of a simple type *)
Definition has_value (t : str) (e : xml) : Prop := xattrs e = [] /\ xkids e = [] /\ simple F S t (xtext e).
(** parts in any order, none twice: name, simple type, whether it is needed *)
Definition composed (ps : list (string * string * bool)) (e : xml) : Prop :=
  bare e /\ NoDup (map xtag (xkids e)) /\
  (forall k, In k (xkids e) -> exists n t b, In (n, t, b) ps /\ xtag k = $n /\ has_value $t k) /\
  (forall n t, In (n, t, true) ps -> In $n (map xtag (xkids e))).
(** one or more values of one name *)
Definition listed (n t : string) (e : xml) : Prop :=
  bare e /\ xkids e <> [] /\ forall k, In k (xkids e) -> xtag k = $n /\ has_value $t k.
End Parts.

Definition observatory_parts : list (string * string * bool) := [("mpcCode", "StationType", true); ("name", "StringTypeW100", false)].
Definition submitter_parts : list (string * string * bool) := [("name", "StringTypeW100", true); ("institution", "StringTypeW100", false)].
Definition telescope_parts : list (string * string * bool) :=
  [("name", "StringTypeW100", false); ("design", "StringTypeW25", true); ("aperture", "PosDecimalTypeW6", true); ("detector", "StringTypeW25", true);
   ("fRatio", "PosDecimalTypeW6", false); ("filter", "StringTypeW25", false); ("arraySize", "StringTypeW25", false); ("pixelScale", "PosDecimalTypeW6", false)].
Definition software_parts : list (string * string * bool) :=
  [("astrometry", "StringTypeW100", false); ("fitOrder", "StringTypeW25", false); ("photometry", "StringTypeW100", false); ("objectDetection", "StringTypeW100", false)].
(** the parts of a header, and those it must have *)
Definition context_parts : list string :=
  ["observatory"; "submitter"; "observers"; "measurers"; "telescope"; "software"; "coinvestigators"; "collaborators"; "fundingSource"; "comment"].
Definition context_needed : list string := ["observatory"; "submitter"; "measurers"; "telescope"].
(** the records *)
Definition record_names : list string := ["optical"; "offset"; "occultation"; "radar"].
Definition residual_names : list string := ["opticalResidual"; "radarResidual"].

(** * Documents made from 80-column files (vocabulary of DocSpec) *)
Section From80.
Variable F : derivation -> str -> Prop.
Variable S : xml.
(** what a header line must say *)
Definition heading_fine (h : item) : Prop :=
  let v := value h in
  if called (keyword h) "COD" then simple F S $"StationType" v
  else if called (keyword h) "CON" then
    simple F S $"StringTypeW100" (until_comma v) /\ forall i, after_comma v = Some i -> simple F S $"StringTypeW100" i
  else if called (keyword h) "OBS" || called (keyword h) "MEA" then forall n, In n (splitc "," v) -> simple F S $"StringTypeW100" n
  else if called (keyword h) "TEL" then
    simple F S $"StringTypeW100" v /\ simple F S $"StringTypeW25" $"Unknown" /\ simple F S $"PosDecimalTypeW6" $"9999"
  else True.
(** a header: all needed lines, and good values *)
Definition headers_fine (hs : list item) : Prop :=
  (forall w, In w ["COD"; "CON"; "MEA"; "TEL"] -> exists h, In h hs /\ keyword h = $w) /\
  (forall h, In h (first_of_each hs) -> heading_fine h) /\
  (forall h, In h hs -> keyword h = $"COM" -> simple F S $"StringTypeW100" (value h)).
(** a record: complete, and good values *)
Definition fields_fine (kind : str) (fields : list str) (text : str -> str) : Prop :=
  complete kind (given text) = true /\
  forall x, In x fields -> given text x = true -> simple F S (type_name S x) (strip (text x)).
Definition record_fine (optical radar : list str) (d : item) : Prop :=
  if is_kind "R" d then fields_fine $"radar" radar (text_of d)
  else exists p r, program d = Ok p /\ reference d = Ok r /\ fields_fine $"optical" optical (optical_text p r d).
(** the records of a block: at least one, all optical or all radar *)
Definition records_fine (optical radar : list str) (ds : list item) : Prop :=
  (forall d, In d ds -> left_out d = false -> record_fine optical radar d) /\
  exists radar_too, (exists d, In d ds /\ left_out d = false) /\
    forall d, In d ds -> left_out d = false -> is_kind "R" d = radar_too.
End From80.
