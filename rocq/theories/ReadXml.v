(** Model of Python/ades/readxmlpy.py: the listing it prints.

    Not modelled: comments and processing instructions, namespaces; the text
    None and the text '' are both [[]] (the parser gives None for an element
    without text, never ''). *)
From Verif Require Export Xml.

(** Python's repr of a str, on Latin-1: quoted with ' unless the text has a ' and no double
    quote; the quote and \ get a \; tab, newline and carriage return, and other characters that
    are not printable, are written as escapes. *)
Definition dquote : ascii := """"%char.
Definition hexdigit (n : N) : ascii := if (n <? 10)%N then ascii_of_N (48 + n) else ascii_of_N (87 + n).
Definition repr_char (q c : ascii) : str :=
  let n := code c in
  if ceqb c q || ceqb c "\" then ["\"%char; c]
  else if (n =? 9)%N then $"\t" else if (n =? 10)%N then $"\n" else if (n =? 13)%N then $"\r"
  else if ((n <? 32) || (127 <=? n) && (n <=? 160) || (n =? 173))%N then $"\x" ++ [hexdigit (n / 16); hexdigit (n mod 16)]
  else [c].
Definition repr (s : str) : str :=
  let q := if existsb (ceqb "'") s then if existsb (ceqb dquote) s then "'"%char else dquote else "'"%char in
  q :: concat (map (repr_char q) s) ++ [q].
(** str() of lxml's attributes: the repr of the dict *)
Definition repr_attrib (a : list (str * str)) : str :=
  $"{" ++ joinc $", " (map (fun kv => repr (fst kv) ++ $": " ++ repr (snd kv)) a) ++ $"}".

(** print(depth*'  ', x, ...): the separator is one more blank *)
Definition indent (depth : nat) : str := spaces (2 * depth) ++ $" ".

(** readxmlpy.py:81-86 processOptical; print of None is None *)
Definition processOptical (opticalList : list (str * str)) (depth : nat) : str :=
  indent depth ++ $"OPTICAL ELEMENT LIST FOUND" ++ [nl] ++
  concat (map (fun tt => indent depth ++ fst tt ++ $" = " ++ (match snd tt with [] => $"None" | _ => snd tt end) ++ [nl]) opticalList).

(** readxmlpy.py:52-76 printElement: what it prints *)
Fixpoint printElement (depth : nat) (element : xml) : str :=
  match element with
  | Elem tag attrib text kids =>
      indent depth ++ tag ++
      (match text with [] => [] | _ => if forallb pyspace text then [] else $": " ++ text end) ++
      (match attrib with [] => [] | _ => $": " ++ repr_attrib attrib end) ++ [nl] ++
      (if streqb tag $"optical" then processOptical (map (fun i => (xtag i, xtext i)) kids) (S depth)
       else concat (map (printElement (S depth)) kids))
  end.

(** readxmlpy.py:88-97 readxmlpy, of a document that has been parsed *)
Definition readxmlpy (doc : xml) : str := printElement 0 doc.
