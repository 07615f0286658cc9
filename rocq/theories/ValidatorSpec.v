(** Vocabulary of C46. *)
From Verif Require Export ValUtility HumanSpec XsdSpec.
Local Open Scope list_scope.

(** [lxml.etree.XMLSchema] makes of the tree [s] a validator for the language of [s] *)
Definition processor (F : derivation -> str -> Prop) (compile : xml -> res (xml -> bool)) (s : xml) : Prop :=
  exists accepts, compile s = Ok accepts /\ forall e, accepts e = true <-> valid F (unannotated s) e.
(** the text begins, after white space, with <?xml ...?> in one line *)
Definition one_line_declaration (text : str) : Prop := exists w a b,
  text = w ++ $"<?xml" ++ a ++ $"?>" ++ b /\ forallb pyspace w = true /\ ~ In nl a /\ ~ In cr a.
(** the lines about the declaration *)
Definition about_declaration (xmlfile text : str) (d : list str) : Prop :=
  (one_line_declaration text /\ d = []) \/
  (~ one_line_declaration text /\ d = [$"candidate file " ++ xmlfile ++ $" has no XML declaration"]).
(** the end of the line about a schema *)
Definition outcome (accepted : Prop) (v : str) : Prop :=
  (accepted /\ v = $" is OK") \/ (~ accepted /\ v = $" has failed: ").
(** a file with these lines *)
Definition lines_file (ls : list str) : str := flat_map (fun l => l ++ [nl]) ls.
(** XML 1.0, production 23: the declaration is at the start, the name ends with white space *)
Definition xml_declaration (text : str) : Prop := exists s a b,
  text = $"<?xml" ++ s :: a ++ $"?>" ++ b /\ In s [" "%char; nl; cr; "009"%char] /\
  forall p q, a <> p ++ $"?>" ++ q.
