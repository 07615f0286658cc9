(** What C51 says about a listing, apart from the model of readxmlpy.py. *)
From Verif Require Import Xml.

(** a name as XML has them: no blanks, colons or line ends *)
Definition a_name (s : str) : Prop := s <> [] /\ (forall c, In c s -> ~ In c [" "%char; ":"%char; nl]).
Definition blank (s : str) : Prop := forall c, In c s -> pyspace c = true.
Definition one_line (s : str) : Prop := ~ In nl s.
(** printable characters of ASCII other than ' and \ *)
Definition simple (s : str) : Prop := forall c, In c s -> (32 <= code c <= 126)%N /\ c <> "'"%char /\ c <> "\"%char.
Definition simple_attributes (a : list (str * str)) : Prop := forall k v, In (k, v) a -> simple k /\ simple v.
(** a text that is not shown, or on one line and without a brace *)
Definition simple_text (s : str) : Prop := blank s \/ one_line s /\ ~ In "{"%char s.

(** The documents whose listing can be read back: names, texts on one line, attributes
    without quotes; inside optical there are values, without attributes or elements of their own,
    and none of them is the word None. *)
Inductive listed_value : xml -> Prop :=
| value t x : a_name t -> t <> $"optical" -> one_line x -> x <> $"None" -> listed_value (Elem t [] x []).
Inductive listable : xml -> Prop :=
| listable_optical a x ks : simple_attributes a -> simple_text x -> Forall listed_value ks -> listable (Elem $"optical" a x ks)
| listable_other t a x ks : a_name t -> t <> $"optical" -> simple_attributes a -> simple_text x -> Forall listable ks -> listable (Elem t a x ks).

(** the same document but for white space *)
Inductive same : xml -> xml -> Prop :=
| same_element t a x y ks ls : x = y \/ blank x /\ blank y -> Forall2 same ks ls -> same (Elem t a x ks) (Elem t a y ls).

(** the elements in document order, with their depths *)
Fixpoint preorder (d : nat) (e : xml) : list (nat * str) :=
  match e with Elem t _ _ ks => (d, t) :: concat (map (preorder (S d)) ks) end.

(** what may follow the name of an element *)
Definition after_name (r : str) : Prop := r = [] \/ exists r', r = $": " ++ r' \/ r = $" = " ++ r'.
(** One line for each element, which begins with 2 d + 1 blanks and the name of the element; behind
    the line of optical one more that announces its values. *)
Inductive lists : list str -> list (nat * str) -> Prop :=
| lists_none : lists [] []
| lists_element d t r ls es : t <> $"optical" -> after_name r -> lists ls es ->
    lists ((spaces (2 * d + 1) ++ t ++ r) :: ls) ((d, t) :: es)
| lists_optical d r ls es : after_name r -> lists ls es ->
    lists ((spaces (2 * d + 1) ++ $"optical" ++ r) :: (spaces (2 * (d + 1) + 1) ++ $"OPTICAL ELEMENT LIST FOUND") :: ls) ((d, $"optical") :: es).
Definition written (ls : list str) : str := concat (map (fun l => l ++ [nl]) ls).
