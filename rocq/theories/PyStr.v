(** Python language layer: strings, exceptions, int(), str(), slices, strip.

    Nothing in this file models a function of /repo; it models the parts of
    the Python language that the modelled functions use.

    Strings are lists of 8-bit characters (code points 0..255).  Python's
    strings may contain larger code points; these are NOT modelled.  On code
    points below 256 the definitions below are exact: the decimal digits
    (str.isdecimal, regex \d, int()) are only 0-9, and the white space removed
    by str.strip() and split() is the set [pyspace]. *)
From Coq Require Export Ascii String.
From Coq Require Export List ZArith Bool Lia.
Export ListNotations.

Definition str := list ascii.
Definition lit (s : string) : str := list_ascii_of_string s.
Notation "$ x" := (lit x%string) (at level 0, x at level 0).
Open Scope list_scope.
Open Scope Z_scope.

(** * Exceptions as values *)
Inductive exn : Set :=
  RuntimeError | ValueError | IndexError | KeyError | NameError | TypeError
| UnboundLocalError | AttributeError | OSError | SystemExit | OverflowError | ZeroDivisionError.

Inductive res (A : Type) : Type := Ok (a : A) | Err (e : exn).
Arguments Ok {A} a. Arguments Err {A} e.

Definition rbind {A B} (x : res A) (f : A -> res B) : res B :=
  match x with Ok a => f a | Err e => Err e end.
Notation "'do' x <- e1 ; e2" := (rbind e1 (fun x => e2))
  (at level 200, x pattern, e1 at level 100, e2 at level 200).

Definition is_ok {A} (x : res A) : bool := match x with Ok _ => true | Err _ => false end.

(** * Characters *)
Definition code (c : ascii) : N := N_of_ascii c.
Definition cle (a b : ascii) : bool := (code a <=? code b)%N.
Definition ceqb : ascii -> ascii -> bool := Ascii.eqb.
Definition nl : ascii := Ascii.ascii_of_N 10.
Definition chr (n : N) : ascii := ascii_of_N n.

(** digits 0-9: the only characters below 256 matched by \d and accepted by int() *)
Definition isdig (c : ascii) : bool := (cle "0" c && cle c "9")%char.
(** [A-Z], [a-z] *)
Definition isupper (c : ascii) : bool := (cle "A" c && cle c "Z")%char.
Definition islower (c : ascii) : bool := (cle "a" c && cle c "z")%char.
Definition isalnum (c : ascii) : bool := isdig c || isupper c || islower c.

(** white space below 256: \t \n \v \f \r, \x1c-\x1f, space, \x85, \xa0 *)
Definition pyspace (c : ascii) : bool :=
  let n := code c in
  ((9 <=? n) && (n <=? 13) || (28 <=? n) && (n <=? 32) || (n =? 133) || (n =? 160))%N.

(** str.upper / str.lower restricted to ASCII letters; the modelled code calls
    them on [A-Za-z] only *)
Definition upperc (c : ascii) : ascii := if islower c then ascii_of_N (code c - 32) else c.
Definition lowerc (c : ascii) : ascii := if isupper c then ascii_of_N (code c + 32) else c.
Definition upper (s : str) : str := map upperc s.
Definition lower (s : str) : str := map lowerc s.

(** * String equality *)
Fixpoint streqb (a b : str) : bool :=
  match a, b with
  | [], [] => true
  | x :: a', y :: b' => ceqb x y && streqb a' b'
  | _, _ => false
  end.

(** * strip *)
Fixpoint lstrip (s : str) : str :=
  match s with
  | c :: s' => if pyspace c then lstrip s' else s
  | [] => []
  end.
Definition rstrip (s : str) : str := rev (lstrip (rev s)).
Definition strip (s : str) : str := rstrip (lstrip s).

(** * slices and indexing *)
(** s[a:b] for 0 <= a, 0 <= b *)
Definition slice (a b : nat) (s : str) : str := firstn (b - a) (skipn a s).
(** s[a:] *)
Definition from (a : nat) (s : str) : str := skipn a s.
(** s[-n:] *)
Definition lastn (n : nat) (s : str) : str := skipn (length s - n) s.
(** s[k] with Python's negative indices *)
Definition pyindex {A} (s : list A) (k : Z) : res A :=
  let len := Z.of_nat (length s) in
  let k' := if k <? 0 then k + len else k in
  if k' <? 0 then Err IndexError
  else match nth_error s (Z.to_nat k') with
       | Some c => Ok c
       | None => Err IndexError
       end.

Definition spaces (n : nat) : str := repeat (" "%char) n.

(** '{0:<Ns}'.format(s), also '{0:Ns}' : pad with blanks on the right *)
Definition padr (n : nat) (s : str) : str := s ++ spaces (n - length s).
(** '{0:>Ns}' *)
Definition padl (n : nat) (s : str) : str := spaces (n - length s) ++ s.

(** s.find(c), s.index(c): first position of a character *)
Fixpoint cfind (c : ascii) (s : str) : option nat :=
  match s with
  | [] => None
  | x :: s' => if ceqb x c then Some O
               else match cfind c s' with Some n => Some (S n) | None => None end
  end.

(** c in s for a one-character c *)
Definition cmem (c : ascii) (s : str) : bool :=
  match cfind c s with Some _ => true | None => false end.

(** * str(int) and int(str) *)
Definition digval (c : ascii) : Z := Z.of_N (code c) - 48.
Definition digc (d : Z) : ascii := ascii_of_N (Z.to_N (d + 48)).

Fixpoint dec_fuel (f : nat) (n : Z) (acc : str) : str :=
  match f with
  | O => acc
  | S f' => if n <? 10 then digc n :: acc
            else dec_fuel f' (n / 10) (digc (n mod 10) :: acc)
  end.
(** decimal numeral of a natural number *)
Definition decn (n : Z) : str := dec_fuel (S (Z.to_nat (Z.log2 n))) n [].
(** str(n), "{0:0d}".format(n), "{:d}".format(n) *)
Definition dec (n : Z) : str := if n <? 0 then "-"%char :: decn (- n) else decn n.

(** value of a string of digits *)
Definition decval (s : str) : Z := fold_left (fun a c => 10 * a + digval c) s 0.

(** the part of int(s) after stripping and the sign: digits, with single
    underscores allowed between digits *)
Fixpoint int_digits (s : str) (acc : Z) (prevdig : bool) : option Z :=
  match s with
  | [] => if prevdig then Some acc else None
  | c :: s' =>
      if isdig c then int_digits s' (10 * acc + digval c) true
      else if ceqb c "_" then (if prevdig then int_digits s' acc false else None)
      else None
  end.

(** int(s) for a string; None stands for ValueError.
    (CPython >= 3.11 also refuses numerals of more than 4300 digits; that
    limit is not modelled.) *)
Definition pyint (s : str) : option Z :=
  match strip s with
  | c :: s' =>
      if ceqb c "+" then int_digits s' 0 false
      else if ceqb c "-" then option_map Z.opp (int_digits s' 0 false)
      else int_digits (c :: s') 0 false
  | [] => None
  end.
Definition py_int (s : str) : res Z :=
  match pyint s with Some z => Ok z | None => Err ValueError end.

(** * split and join *)
(** s.split(c) for a one-character separator *)
Fixpoint splitc (sep : ascii) (s : str) : list str :=
  match s with
  | [] => [[]]
  | c :: s' =>
      if ceqb c sep then [] :: splitc sep s'
      else match splitc sep s' with
           | w :: ws => (c :: w) :: ws
           | [] => [[c]]
           end
  end.
(** sep.join(l) *)
Fixpoint joinc (sep : str) (l : list str) : str :=
  match l with
  | [] => []
  | [w] => w
  | w :: ws => w ++ sep ++ joinc sep ws
  end.

(** s.split(): split at runs of white space, no empty words *)
Fixpoint split_ws_aux (s cur : str) : list str :=
  match s with
  | [] => match cur with [] => [] | _ => [rev cur] end
  | c :: s' =>
      if pyspace c then
        match cur with [] => split_ws_aux s' [] | _ => rev cur :: split_ws_aux s' [] end
      else split_ws_aux s' (c :: cur)
  end.
Definition split_ws (s : str) : list str := split_ws_aux s [].

#[global] Arguments ceqb : simpl never.
#[global] Arguments cle : simpl never.
#[global] Arguments code : simpl never.
#[global] Arguments isdig : simpl never.
#[global] Arguments isupper : simpl never.
#[global] Arguments islower : simpl never.
#[global] Arguments pyspace : simpl never.
#[global] Arguments digval : simpl never.
#[global] Arguments digc : simpl never.
#[global] Arguments dec : simpl never.
#[global] Arguments decn : simpl never.
#[global] Arguments decval : simpl never.
#[global] Arguments upperc : simpl never.
#[global] Arguments lowerc : simpl never.
#[global] Arguments spaces : simpl never.
#[global] Arguments nl : simpl never.
