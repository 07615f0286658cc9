(** Vocabulary for records with arbitrary children (C41, C48). *)
From Verif Require Export Xml.
(** the elements of the first list occur in the second one, in the same order *)
Inductive in_order {X} : list X -> list X -> Prop :=
| io_nil l : in_order [] l
| io_take x a l : in_order a l -> in_order (x :: a) (x :: l)
| io_skip x a l : in_order a l -> in_order a (x :: l).
(** the field x occurs among the children *)
Definition occurs_in (ks : list xml) (x : str) : bool := existsb (fun k => streqb (xtag k) x) ks.
