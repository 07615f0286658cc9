(** XML Schema regular expressions (the part the ADES schemas use), read as
    languages, and the facets of types derived from xsd:string.
    Grammar: characters, escapes, \d, \s, the dot, classes with ranges and
    negation, groups, alternatives, the quantifiers ? * + {n} {n,m}.
    A pattern describes whole texts: there are no anchors. *)
From Verif Require Export XsdSpec.
Local Open Scope nat_scope.

(** [PSet neg rs]: one character in (or, with neg, outside) the ranges *)
Inductive pat : Type :=
| PSet (neg : bool) (rs : list (ascii * ascii))
| PEps
| PSeq (a b : pat)
| PAlt (a b : pat)
| PRep (a : pat) (mn : nat) (mx : option nat).

Definition in_ranges (rs : list (ascii * ascii)) (c : ascii) : bool :=
  existsb (fun r => (code (fst r) <=? code c)%N && (code c <=? code (snd r))%N) rs.

(** the texts a pattern describes *)
Fixpoint lang (p : pat) (s : str) : Prop :=
  match p with
  | PSet neg rs => exists c, s = [c] /\ xorb neg (in_ranges rs c) = true
  | PEps => s = []
  | PSeq a b => exists x y, s = x ++ y /\ lang a x /\ lang b y
  | PAlt a b => lang a s \/ lang b s
  | PRep a mn mx => exists l, s = concat l /\ Forall (lang a) l /\ mn <= length l /\
      match mx with Some k => length l <= k | None => True end
  end.

(** ** Reading a pattern *)
Definition digits_r : list (ascii * ascii) := [("0", "9")]%char.
Definition tab : ascii := "009"%char.
Definition cr : ascii := "013"%char.
Definition space_r : list (ascii * ascii) := [(" ", " ")%char; (tab, tab); (nl, nl); (cr, cr)].
(** a character of a class, or an escape *)
Definition escape (c : ascii) : list (ascii * ascii) :=
  if ceqb c "d" then digits_r else if ceqb c "s" then space_r else [(c, c)].
Fixpoint class (s : str) : option (list (ascii * ascii) * str) :=
  match s with
  | [] => None
  | c :: s1 =>
      if ceqb c "]" then Some ([], s1)
      else if ceqb c "\" then
        match s1 with
        | e :: s2 => match class s2 with Some (r, t) => Some (escape e ++ r, t) | None => None end
        | [] => None
        end
      else match s1 with
           | d :: ((e :: s3) as s2) =>
               if ceqb d "-" && negb (ceqb e "]")
               then match class s3 with Some (r, t) => Some ((c, e) :: r, t) | None => None end
               else match class s1 with Some (r, t) => Some ((c, c) :: r, t) | None => None end
           | _ => match class s1 with Some (r, t) => Some ((c, c) :: r, t) | None => None end
           end
  end.
Fixpoint number (s : str) : str * str :=
  match s with
  | c :: s' => if isdig c then let (w, t) := number s' in (c :: w, t) else ([], s)
  | [] => ([], [])
  end.
Definition value (w : str) : nat := Z.to_nat (decval w).
Definition quantifier (p : pat) (s : str) : option (pat * str) :=
  match s with
  | c :: s1 =>
      if ceqb c "?" then Some (PRep p 0 (Some 1), s1)
      else if ceqb c "*" then Some (PRep p 0 None, s1)
      else if ceqb c "+" then Some (PRep p 1 None, s1)
      else if ceqb c "{" then
        match number s1 with
        | (a, d :: s2) =>
            if ceqb d "}" then Some (PRep p (value a) (Some (value a)), s2)
            else if ceqb d "," then
              match number s2 with
              | (b, e :: s3) => if ceqb e "}" then Some (PRep p (value a) (match b with [] => None | _ => Some (value b) end), s3) else None
              | _ => None
              end
            else None
        | _ => None
        end
      else Some (p, s)
  | [] => Some (p, s)
  end.
Fixpoint alternatives (n : nat) (s : str) : option (pat * str) :=
  match n with
  | O => None
  | S n' =>
      match branch n' s with
      | Some (p, c :: t) =>
          if ceqb c "|" then match alternatives n' t with Some (q, u) => Some (PAlt p q, u) | None => None end
          else Some (p, c :: t)
      | r => r
      end
  end
with branch (n : nat) (s : str) : option (pat * str) :=
  match n with
  | O => None
  | S n' =>
      match s with
      | [] => Some (PEps, s)
      | c :: t =>
          if ceqb c "|" || ceqb c ")" then Some (PEps, s)
          else match (if ceqb c "(" then
                        match alternatives n' t with
                        | Some (p, d :: u) => if ceqb d ")" then Some (p, u) else None
                        | _ => None
                        end
                      else if ceqb c "[" then
                        match t with
                        | d :: u => if ceqb d "^" then match class u with Some (r, v) => Some (PSet true r, v) | None => None end
                                    else match class t with Some (r, v) => Some (PSet false r, v) | None => None end
                        | [] => None
                        end
                      else if ceqb c "\" then
                        match t with e :: u => Some (PSet false (escape e), u) | [] => None end
                      else if ceqb c "." then Some (PSet true [(nl, nl); (cr, cr)], t)
                      else Some (PSet false [(c, c)], t)) with
               | Some (p, u) =>
                   match quantifier p u with
                   | Some (q, v) => match branch n' v with Some (r, w) => Some (PSeq q r, w) | None => None end
                   | None => None
                   end
               | None => None
               end
      end
  end.
Definition pattern (s : str) : option pat :=
  match alternatives (3 + 3 * length s) s with Some (p, []) => Some p | _ => None end.

(** the text s is in the language of the pattern with this text *)
Definition matches (p s : str) : Prop := exists a, pattern p = Some a /\ lang a s.

(** ** Facets of one restriction step of a type derived from xsd:string: the
    patterns are alternatives, and so are the enumerated values *)
Definition step_allows (s : str) (fs : facets) : Prop :=
  ((exists p, In ($"xsd:pattern", p) fs) -> exists p, In ($"xsd:pattern", p) fs /\ matches p s) /\
  ((exists v, In ($"xsd:enumeration", v) fs) -> In ($"xsd:enumeration", s) fs) /\
  (forall v, In ($"xsd:minLength", v) fs -> value v <= length s) /\
  (forall v, In ($"xsd:maxLength", v) fs -> length s <= value v).
(** a reading of the facets that is right for texts: every step must allow the text *)
Definition reads_texts (F : derivation -> str -> Prop) : Prop :=
  forall steps s, F ($"xsd:string", steps) s <-> Forall (step_allows s) steps.
