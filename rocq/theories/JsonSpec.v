(** Vocabulary of C37: what an XML document says, and the order of siblings. *)
From Verif Require Export Json.

(** * The content of a document *)
(** the character data directly inside an element *)
Definition chars (ks : list xnode) : str := concat (map (fun k => match k with NText s => s | _ => [] end) ks).
(** tags, attributes, trimmed texts and child elements in document order;
    comments do not count *)
Fixpoint meaning (x : xnode) : xml :=
  match x with
  | NElem t a ks =>
      Elem t a (strip (chars ks))
        (flat_map (fun k => match k with NElem _ _ _ => [meaning k] | _ => [] end) ks)
  | _ => Elem [] [] [] []
  end.
(** A document an XML parser can deliver: names do not start with @ or #, the
    attributes of an element have different names.  Texts without carriage
    return (which only a character reference can put there). *)
Definition name_like (t : str) : Prop := exists c t', t = c :: t' /\ c <> "@"%char /\ c <> "#"%char.
Inductive well_formed : xnode -> Prop :=
| wf_elem t a ks : name_like t -> NoDup (map fst a) -> Forall well_formed ks -> well_formed (NElem t a ks)
| wf_text s : ~ In (Ascii.ascii_of_N 13) s -> well_formed (NText s)
| wf_other : well_formed NOther.
Definition is_element (x : xnode) : Prop := exists t a ks, x = NElem t a ks.

(** * Siblings of the same name brought together *)
(** the distinct names in a list, in the order of their first occurrence *)
Fixpoint firsts (l : list str) : list str :=
  match l with [] => [] | n :: l' => n :: filter (fun m => negb (streqb m n)) (firsts l') end.
Definition named (n : str) (ks : list xml) : list xml := filter (fun k => streqb (xtag k) n) ks.
Definition gather (ks : list xml) : list xml := flat_map (fun n => named n ks) (firsts (map xtag ks)).
Fixpoint grouped (x : xml) : xml :=
  match x with Elem t a s ks => Elem t a s (gather (map grouped ks)) end.
(** every element of a document with the tags above it, its attributes and its text *)
Fixpoint entries (path : list str) (x : xml) : list (list str * list (str * str) * str) :=
  match x with Elem t a s ks => (path ++ [t], a, s) :: flat_map (entries (path ++ [t])) ks end.
(** siblings of the same name are next to each other, everywhere: none comes
    back after one of another name *)
Fixpoint together (l : list str) : Prop :=
  match l with
  | [] => True
  | n :: l' => match l' with m :: _ => m = n \/ ~ In n l' | [] => True end /\ together l'
  end.
Inductive tidy : xml -> Prop :=
| tidy_elem t a s ks : together (map xtag ks) -> Forall tidy ks -> tidy (Elem t a s ks).
