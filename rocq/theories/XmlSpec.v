(** Specification of the element stack, independent of the heap: what tree a
    sequence of operations describes. *)
From Verif Require Import Xml.

(** One line per element in document order: nesting depth, tag, attributes,
    text.  An outline determines its tree (XmlProofs.outline_inj). *)
Definition entry : Type := nat * str * list (str * str) * str.
Fixpoint outline (d : nat) (x : xml) : list entry :=
  match x with
  | Elem t a s ks => (d, t, a, s) :: flat_map (outline (S d)) ks
  end.

(** The outline written down by an observer of the operations, who only counts
    how many elements are open ([d], at least 1: the root). [None]: the
    operation must be refused. *)
Definition observe (o : op) (d : nat) : option (nat * list entry) :=
  match o with
  | OPop => match d with S (S d') => Some (S d', []) | _ => None end
  | OAdd t x a => Some (d, [(d, t, a, x)])
  | OAddPush t x a => Some (S d, [(d, t, a, x)])
  | OAddPopPush t x a => match d with S (S d') => Some (d, [(S d', t, a, x)]) | _ => None end
  | OAddList l => Some (d, map (fun kv => (d, fst kv, [], snd kv)) l)
  end.
Fixpoint observes (os : list op) (d : nat) : option (nat * list entry) :=
  match os with
  | [] => Some (d, [])
  | o :: os' =>
      match observe o d with
      | Some (d', e) =>
          match observes os' d' with
          | Some (d'', e') => Some (d'', e ++ e')
          | None => None
          end
      | None => None
      end
  end.

(** the names and texts an operation hands to lxml are acceptable *)
Definition op_valid (o : op) : bool :=
  match o with
  | OPop => true
  | OAdd t x a | OAddPush t x a | OAddPopPush t x a =>
      valid_name t && valid_text x
      && forallb (fun kv => valid_name (fst kv) && valid_text (snd kv)) a
  | OAddList l => forallb (fun kv => valid_name (fst kv) && valid_text (snd kv)) l
  end.
