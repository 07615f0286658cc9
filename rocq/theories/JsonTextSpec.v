(** Vocabulary of C53: which texts are JSON for which values (RFC 8259, for
    characters up to U+00FF), after the grammar and not after any reader. *)
From Verif Require Export Json.
Local Open Scope nat_scope.

Definition char_of (n : N) : ascii := Ascii.ascii_of_N n.
Definition number_of (c : ascii) : N := Ascii.N_of_ascii c.
Definition dquote : str := [char_of 34].
Definition backslash : str := [char_of 92].
(** blank, tab, line feed, carriage return *)
Definition white (s : str) : Prop := forall c, In c s -> In (number_of c) [32; 9; 10; 13]%N.

(** * Strings *)
Definition digits16 : string := "0123456789abcdef".
Definition digits16_upper : string := "0123456789ABCDEF".
(** c is the hexadecimal digit for n *)
Definition hex_digit (c : ascii) (n : nat) : Prop := nth_error $digits16 n = Some c \/ nth_error $digits16_upper n = Some c.
(** the second characters of the short escapes, and what they stand for *)
Definition escapes : list (string * N) := [("b", 8); ("t", 9); ("n", 10); ("f", 12); ("r", 13); ("/", 47)]%string%N.
(** one character of a string as it may be written *)
Inductive written : ascii -> str -> Prop :=
| w_plain c : (32 <= number_of c)%N -> number_of c <> 34%N -> number_of c <> 92%N -> written c [c]
| w_quote : written (char_of 34) (backslash ++ dquote)
| w_backslash : written (char_of 92) (backslash ++ backslash)
| w_short e n : In (e, n) escapes -> written (char_of n) (backslash ++ $e)
| w_hex a b i j : hex_digit a i -> hex_digit b j -> written (char_of (N.of_nat (16 * i + j))) (backslash ++ $"u00" ++ [a; b]).
Inductive string_body : str -> str -> Prop :=
| sb_nil : string_body [] []
| sb_cons c w s b : written c w -> string_body s b -> string_body (c :: s) (w ++ b).
Definition string_text (s t : str) : Prop := exists b, string_body s b /\ t = dquote ++ b ++ dquote.

(** * Numbers *)
Definition digits (s : str) : Prop := s <> [] /\ forallb isdig s = true.
Definition integer_part (s : str) : Prop := s = $"0" \/ digits s /\ hd_error s <> Some "0"%char.
Definition fraction_part (s : str) : Prop := s = [] \/ exists ds, digits ds /\ s = $"." ++ ds.
Definition exponent_part (s : str) : Prop :=
  s = [] \/ exists e sg ds, In e [$"e"; $"E"] /\ In sg [[]; $"+"; $"-"] /\ digits ds /\ s = e ++ sg ++ ds.
Definition literal (s : str) : Prop :=
  exists sg i f e, In sg [[]; $"-"] /\ integer_part i /\ fraction_part f /\ exponent_part e /\ s = sg ++ i ++ f ++ e.
(** the literal names, and three that only Python knows *)
Definition names : list (string * json) :=
  [("null", JNull); ("true", JBool true); ("false", JBool false); ("NaN", JNum $"nan"); ("Infinity", JNum $"inf"); ("-Infinity", JNum $"-inf")]%string.

(** * Values *)
(** what a key of an object stands for: its last value *)
Fixpoint last_value (k : str) (ms : list (str * json)) : option json :=
  match ms with
  | [] => None
  | (k', v) :: ms' => match last_value k ms' with Some w => Some w | None => if streqb k' k then Some v else None end
  end.
(** the keys in the order in which they first occur *)
Fixpoint first_keys (ms : list (str * json)) : list str :=
  match ms with [] => [] | (k, _) :: ms' => k :: filter (fun k' => negb (streqb k' k)) (first_keys ms') end.
(** the object read from these members: each key once *)
Definition object_of (ms o : list (str * json)) : Prop :=
  map fst o = first_keys ms /\ forall k v, In (k, v) o -> last_value k ms = Some v.

Section Grammar.
Variable number : str -> str.
Inductive value_text : json -> str -> Prop :=
| vt_name n v : In (n, v) names -> value_text v $n
| vt_number l : literal l -> value_text (JNum (number l)) l
| vt_string s t : string_text s t -> value_text (JStr s) t
| vt_empty_list w : white w -> value_text (JList []) ($"[" ++ w ++ $"]")
| vt_list l t : elements_text l t -> value_text (JList l) ($"[" ++ t ++ $"]")
| vt_empty_object w : white w -> value_text (JObj []) ($"{" ++ w ++ $"}")
| vt_object ms o t : members_text ms t -> object_of ms o -> value_text (JObj o) ($"{" ++ t ++ $"}")
with elements_text : list json -> str -> Prop :=
| et_one v a t b : white a -> value_text v t -> white b -> elements_text [v] (a ++ t ++ b)
| et_more v l a t b r : white a -> value_text v t -> white b -> elements_text l r -> elements_text (v :: l) (a ++ t ++ b ++ $"," ++ r)
with members_text : list (str * json) -> str -> Prop :=
| mt_one k v a kt b c t d : white a -> string_text k kt -> white b -> white c -> value_text v t -> white d ->
    members_text [(k, v)] (a ++ kt ++ b ++ $":" ++ c ++ t ++ d)
| mt_more k v ms a kt b c t d r : white a -> string_text k kt -> white b -> white c -> value_text v t -> white d -> members_text ms r ->
    members_text ((k, v) :: ms) (a ++ kt ++ b ++ $":" ++ c ++ t ++ d ++ $"," ++ r).
(** a JSON text *)
Definition json_text (v : json) (s : str) : Prop := exists a t b, white a /\ value_text v t /\ white b /\ s = a ++ t ++ b.
End Grammar.

(** values without numbers, and with each key once in an object *)
Inductive plain_value : json -> Prop :=
| pv_null : plain_value JNull
| pv_bool b : plain_value (JBool b)
| pv_str s : plain_value (JStr s)
| pv_list l : Forall plain_value l -> plain_value (JList l)
| pv_obj o : NoDup (map fst o) -> Forall (fun kv => plain_value (snd kv)) o -> plain_value (JObj o).

(** * Line ends in an XML file *)
(** s, and t where every carriage return, and every carriage return with its line
    feed, is a line feed *)
Inductive unified : str -> str -> Prop :=
| un_nil : unified [] []
| un_pair s t : unified s t -> unified (char_of 13 :: char_of 10 :: s) (char_of 10 :: t)
| un_single s t : hd_error s <> Some (char_of 10) -> unified s t -> unified (char_of 13 :: s) (char_of 10 :: t)
| un_other c s t : c <> char_of 13 -> unified s t -> unified (c :: s) (c :: t).
