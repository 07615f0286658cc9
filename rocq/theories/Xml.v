(** Model of Python/ades/xmlutility.py: elements, newElement and the class
    ElementStack, with reference semantics (a heap of mutable elements).

    Not modelled: tails, namespaces (a tag starting with "{"), comments and
    processing instructions; str tags and texts are Latin-1 (see PyStr.v).
    The text None and the text '' are both [[]]: xmlutility never tells them
    apart (lines 210-213, 272-275). *)
From Verif Require Export PyStr.

(** An element: tag, attributes, text, children. *)
Inductive xml : Type := Elem (tag : str) (attrs : list (str * str)) (text : str) (kids : list xml).

Definition xtag (x : xml) : str := match x with Elem t _ _ _ => t end.
Definition xattrs (x : xml) : list (str * str) := match x with Elem _ a _ _ => a end.
Definition xtext (x : xml) : str := match x with Elem _ _ t _ => t end.
Definition xkids (x : xml) : list xml := match x with Elem _ _ _ k => k end.

(** xmlutility.py:200-213 regularizeWhiteSpace (None is []) *)
Definition regularizeWhiteSpace (t : str) : str := strip t.

(** xmlutility.py:232-246 getElementTagText *)
Definition getElementTagText (x : xml) : str * str := (xtag x, regularizeWhiteSpace (xtext x)).

(** lxml's checks in Element(tag) and element.text = ..: the tag must be an XML
    name without colon, texts and attribute values may not contain control
    characters other than tab, newline and carriage return.  A violation is a
    ValueError.  (lxml's {namespace}tag notation is not modelled: here it is
    an invalid name.) *)
Definition name_start (c : ascii) : bool :=
  let n := code c in
  isupper c || islower c || ceqb c "_" ||
  ((192 <=? n) && (n <=? 214) || (216 <=? n) && (n <=? 246) || (248 <=? n))%N.
Definition name_char (c : ascii) : bool :=
  name_start c || isdig c || ceqb c "-" || ceqb c "." || (code c =? 183)%N.
Definition valid_name (s : str) : bool :=
  match s with c :: s' => name_start c && forallb name_char s' | [] => false end.
Definition valid_text (s : str) : bool :=
  forallb (fun c => (32 <=? code c) || (code c =? 9) || (code c =? 10) || (code c =? 13))%N s.

(** * The heap of elements *)
Record node := { n_tag : str; n_attrs : list (str * str); n_text : str; n_kids : list nat }.

(** xmlutility.py:248-276 newElement (no tail) *)
Definition newElement (tag text : str) (attrs : list (str * str)) : res node :=
  if valid_name tag && valid_text text
     && forallb (fun kv => valid_name (fst kv) && valid_text (snd kv)) attrs
  then Ok {| n_tag := tag; n_attrs := attrs; n_text := text; n_kids := [] |}
  else Err ValueError.

(** An ElementStack: all elements ever made, and elementStack as a list of
    references, top of the stack (elementStack[-1]) first. *)
Record estack := { heap : list node; opened : list nat }.

Fixpoint update {A} (i : nat) (f : A -> A) (l : list A) : list A :=
  match l, i with
  | [], _ => []
  | x :: l', O => f x :: l'
  | x :: l', S i' => x :: update i' f l'
  end.
Definition add_kids (js : list nat) (n : node) : node :=
  {| n_tag := n_tag n; n_attrs := n_attrs n; n_text := n_text n; n_kids := n_kids n ++ js |}.
(** element.extend(..) with elements just made *)
Definition extend (i : nat) (new : list node) (h : list node) : list node :=
  update i (add_kids (seq (length h) (length new))) h ++ new.

(** xmlutility.py:363-376 __init__ with a tag *)
Definition es_init (tag text : str) (attrs : list (str * str)) : res estack :=
  do n <- newElement tag text attrs; Ok {| heap := [n]; opened := [O] |}.
(** xmlutility.py:363-376 __init__ without a tag *)
Definition es_empty : estack := {| heap := []; opened := [] |}.

(** xmlutility.py:378-387 pop *)
Definition es_pop (s : estack) : res estack :=
  match opened s with
  | _ :: (_ :: _) as o => Ok {| heap := heap s; opened := o |}
  | _ => Err RuntimeError
  end.

(** xmlutility.py:389-400 addElementList, on elements made by makeElementList *)
Definition es_addElementList (ns : list node) (s : estack) : res estack :=
  match opened s with
  | [] => Err RuntimeError
  | i :: _ => Ok {| heap := extend i ns (heap s); opened := opened s |}
  end.

(** xmlutility.py:416-431 add *)
Definition es_add (tag text : str) (attrs : list (str * str)) (s : estack) : res estack :=
  match opened s with
  | [] => Err RuntimeError
  | i :: _ => do n <- newElement tag text attrs;
              Ok {| heap := extend i [n] (heap s); opened := opened s |}
  end.

(** xmlutility.py:433-453 addPush *)
Definition es_addPush (tag text : str) (attrs : list (str * str)) (s : estack) : res estack :=
  do n <- newElement tag text attrs;
  match opened s with
  | [] => Ok {| heap := heap s ++ [n]; opened := [length (heap s)] |}
  | i :: _ => Ok {| heap := extend i [n] (heap s); opened := length (heap s) :: opened s |}
  end.

(** xmlutility.py:455-471 addPopPush *)
Definition es_addPopPush (tag text : str) (attrs : list (str * str)) (s : estack) : res estack :=
  do s' <- es_pop s; es_addPush tag text attrs s'.

(** the element tree below a reference, as a value; the fuel bounds the depth *)
Fixpoint tree_of (fuel : nat) (h : list node) (i : nat) : xml :=
  match nth_error h i with
  | Some n => Elem (n_tag n) (n_attrs n) (n_text n)
                (match fuel with O => [] | S f => map (tree_of f h) (n_kids n) end)
  | None => Elem [] [] [] []
  end.

(** xmlutility.py:473-486 copyTree(n); elementStack[n] counts from the bottom *)
Definition es_copyTree (n : Z) (s : estack) : res xml :=
  if (n <? 0) || (Z.of_nat (length (opened s)) <? n) then Err RuntimeError
  else do i <- pyindex (rev (opened s)) n; Ok (tree_of (length (heap s)) (heap s) i).

(** xmlutility.py:488-496 takeTreeAndClear *)
Definition es_takeTreeAndClear (s : estack) : res (xml * estack) :=
  do i <- pyindex (rev (opened s)) 0;
  Ok (tree_of (length (heap s)) (heap s) i, {| heap := heap s; opened := [] |}).

(** xmlutility.py:278-289 makeElementList *)
Fixpoint makeElementList (l : list (str * str)) : res (list node) :=
  match l with
  | [] => Ok []
  | (t, v) :: l' => do n <- newElement t v []; do ns <- makeElementList l'; Ok (n :: ns)
  end.

(** The operations of the class, as data *)
Inductive op :=
| OPop
| OAdd (tag text : str) (attrs : list (str * str))
| OAddPush (tag text : str) (attrs : list (str * str))
| OAddPopPush (tag text : str) (attrs : list (str * str))
| OAddList (l : list (str * str)).

Definition run_op (o : op) (s : estack) : res estack :=
  match o with
  | OPop => es_pop s
  | OAdd t x a => es_add t x a s
  | OAddPush t x a => es_addPush t x a s
  | OAddPopPush t x a => es_addPopPush t x a s
  | OAddList l => do ns <- makeElementList l; es_addElementList ns s
  end.
Fixpoint run_ops (os : list op) (s : estack) : res estack :=
  match os with
  | [] => Ok s
  | o :: os' => do s' <- run_op o s; run_ops os' s'
  end.
