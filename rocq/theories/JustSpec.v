(** Specification vocabulary for justification: independent of Just.v. *)
From Verif Require Import PyStr.

(** the characters before the first decimal point (all of them if there is none) *)
Fixpoint before_point (s : str) : str :=
  match s with
  | [] => []
  | c :: s' => if ceqb c "." then [] else c :: before_point s'
  end.
(** number of decimal points *)
Definition points (s : str) : nat := length (filter (fun c => ceqb c ".") s).
Definition wid (s : str) : Z := Z.of_nat (length s).
(** an unsigned number text: no white space, at most one point *)
Definition number_text (u : str) : Prop :=
  u <> [] /\ forallb (fun c => isdig c || ceqb c ".") u = true /\ (points u <= 1)%nat.
Definition is_sign (c : ascii) : bool := ceqb c "+" || ceqb c "-".
