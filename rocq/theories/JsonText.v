(** Model of the JSON text in Python/ades/xmltojson.py:21 and jsontoxml.py:18-19:
    json.dump(.., indent=4, ensure_ascii=False) and json.load(..,
    object_pairs_hook=OrderedDict) of CPython's module json (encoder.py
    _make_iterencode, py_encode_basestring; _json.c scan_once_unicode,
    _parse_object_unicode, _parse_array_unicode, _match_number_unicode,
    scanstring_unicode with strict=True), and the text layer that reads the file
    (open(.., 'r'): universal newlines).
    Simplified: texts are Latin-1 as everywhere, so a \u escape for a character
    above 255 has no result here ([OverflowError] stands for it); the limit on
    the depth of recursion and the encodings of the files are not modelled; a
    number is kept as [number literal], Python's str() of it. *)
From Verif Require Export Json.
Local Open Scope nat_scope.

Definition quote : ascii := """"%char.
Definition bslash : ascii := "\"%char.

(** * json.dump *)
(** encoder.py ESCAPE, ESCAPE_DCT *)
Definition hexdigit (n : N) : ascii := chr (if (n <? 10)%N then 48 + n else 87 + n)%N.
Definition escape (c : ascii) : str :=
  if ceqb c quote then [bslash; quote]
  else if ceqb c bslash then [bslash; bslash]
  else if ceqb c nl then $"\n"
  else if (code c =? 13)%N then $"\r"
  else if (code c =? 9)%N then $"\t"
  else if (code c =? 12)%N then $"\f"
  else if (code c =? 8)%N then $"\b"
  else if (code c <? 32)%N then $"\u00" ++ [hexdigit (code c / 16); hexdigit (code c mod 16)]
  else [c].
(** py_encode_basestring *)
Definition dump_str (s : str) : str := quote :: flat_map escape s ++ [quote].
(** '\n' + ' ' * (indent * level) *)
Definition newline_indent (level : nat) : str := nl :: spaces (4 * level).
(** _iterencode, _iterencode_list, _iterencode_dict *)
Fixpoint dump (level : nat) (v : json) {struct v} : str :=
  match v with
  | JNull => $"null"
  | JBool true => $"true"
  | JBool false => $"false"
  | JNum s => s
  | JStr s => dump_str s
  | JList [] => $"[]"
  | JList l =>
      "["%char :: newline_indent (S level) ++
      (fix items (l : list json) : str :=
         match l with
         | [] => []
         | [w] => dump (S level) w
         | w :: l' => dump (S level) w ++ ","%char :: newline_indent (S level) ++ items l'
         end) l ++ newline_indent level ++ $"]"
  | JObj [] => $"{}"
  | JObj o =>
      "{"%char :: newline_indent (S level) ++
      (fix items (o : list (str * json)) : str :=
         match o with
         | [] => []
         | [(k, w)] => dump_str k ++ $": " ++ dump (S level) w
         | (k, w) :: o' => dump_str k ++ $": " ++ dump (S level) w ++ ","%char :: newline_indent (S level) ++ items o'
         end) o ++ newline_indent level ++ $"}"
  end.
Definition dumps (v : json) : str := dump 0 v.

(** * json.load *)
(** IS_WHITESPACE *)
Definition json_space (c : ascii) : bool := ceqb c " " || (code c =? 9)%N || ceqb c nl || (code c =? 13)%N.
Fixpoint skip (s : str) : str :=
  match s with c :: s' => if json_space c then skip s' else s | [] => [] end.
Definition hexval (c : ascii) : option N :=
  let n := code c in
  if isdig c then Some (n - 48)%N
  else if (97 <=? n)%N && (n <=? 102)%N then Some (n - 87)%N
  else if (65 <=? n)%N && (n <=? 70)%N then Some (n - 55)%N
  else None.
(** the four digits after \u; [None]: no such digits *)
Definition hex4 (a b c d : ascii) : option N :=
  match hexval a, hexval b, hexval c, hexval d with
  | Some a, Some b, Some c, Some d => Some (4096 * a + 256 * b + 16 * c + d)%N
  | _, _, _, _ => None
  end.
(** the escapes of one character *)
Definition short_escape (c : ascii) : option ascii :=
  if ceqb c quote then Some quote
  else if ceqb c bslash then Some bslash
  else if ceqb c "/" then Some c
  else if ceqb c "b" then Some (chr 8)
  else if ceqb c "f" then Some (chr 12)
  else if ceqb c "n" then Some nl
  else if ceqb c "r" then Some (chr 13)
  else if ceqb c "t" then Some (chr 9)
  else None.
(** scanstring: the text up to the closing quote, and what follows *)
Fixpoint scanstring (s : str) : res (str * str) :=
  match s with
  | [] => Err ValueError
  | c :: s' =>
      if ceqb c quote then Ok ([], s')
      else if ceqb c bslash then
        match s' with
        | [] => Err ValueError
        | e :: s'' =>
            if ceqb e "u" then
              match s'' with
              | h1 :: h2 :: h3 :: h4 :: r =>
                  match hex4 h1 h2 h3 h4 with
                  | None => Err ValueError
                  | Some n =>
                      if (n <? 256)%N then do (t, r') <- scanstring r; Ok (chr n :: t, r')
                      else Err OverflowError
                  end
              | _ => Err ValueError
              end
            else
              match short_escape e with
              | None => Err ValueError
              | Some x => do (t, r') <- scanstring s''; Ok (x :: t, r')
              end
        end
      else if (code c <? 32)%N then Err ValueError
      else do (t, r') <- scanstring s'; Ok (c :: t, r')
  end.

(** the digits at the beginning *)
Fixpoint span_digits (s : str) : str * str :=
  match s with
  | c :: s' => if isdig c then let '(a, b) := span_digits s' in (c :: a, b) else ([], s)
  | [] => ([], [])
  end.
(** _match_number_unicode: the literal and what follows *)
Definition match_fraction (s : str) : str * str :=
  match s with
  | p :: s' =>
      if ceqb p "." then
        match span_digits s' with ([], _) => ([], s) | (ds, r) => (p :: ds, r) end
      else ([], s)
  | [] => ([], s)
  end.
Definition match_exponent (s : str) : str * str :=
  match s with
  | e :: s' =>
      if ceqb e "e" || ceqb e "E" then
        let '(sg, s'') := match s' with g :: r => if ceqb g "-" || ceqb g "+" then ([g], r) else ([], s') | [] => ([], s') end in
        match span_digits s'' with ([], _) => ([], s) | (ds, r) => (e :: sg ++ ds, r) end
      else ([], s)
  | [] => ([], s)
  end.
Definition match_integer (s : str) : option (str * str) :=
  match s with
  | c :: s' => if ceqb c "0" then Some ([c], s') else if isdig c then Some (span_digits s) else None
  | [] => None
  end.
Definition match_number (s : str) : option (str * str) :=
  let '(sg, s1) := match s with c :: s' => if ceqb c "-" then ([c], s') else ([], s) | [] => ([], s) end in
  match match_integer s1 with
  | None => None
  | Some (i, s2) => let '(f, s3) := match_fraction s2 in let '(e, s4) := match_exponent s3 in Some (sg ++ i ++ f ++ e, s4)
  end.
(** s after the prefix p *)
Fixpoint after (p s : str) : option str :=
  match p, s with
  | [], _ => Some s
  | a :: p', b :: s' => if ceqb a b then after p' s' else None
  | _, [] => None
  end.
(** the constants, in the order of the switch *)
Definition constants : list (str * json) :=
  [($"null", JNull); ($"true", JBool true); ($"false", JBool false); ($"NaN", JNum $"nan"); ($"Infinity", JNum $"inf"); ($"-Infinity", JNum $"-inf")].
Fixpoint match_constant (l : list (str * json)) (s : str) : option (json * str) :=
  match l with
  | [] => None
  | (p, v) :: l' => match after p s with Some r => Some (v, r) | None => match_constant l' s end
  end.
(** OrderedDict(pairs): each key once, where it first stands, with its last value *)
Definition ordered (ms : list (str * json)) : list (str * json) := fold_left (fun o kv => dset (fst kv) (snd kv) o) ms [].

Section Load.
Variable number : str -> str.
(** scan_once: the value at the beginning and what follows; [n] bounds the recursion *)
Fixpoint scan (n : nat) (s : str) {struct n} : res (json * str) :=
  match n with
  | O => Err ValueError
  | S n' =>
      match s with
      | [] => Err ValueError
      | c :: s' =>
          if ceqb c quote then do (t, r) <- scanstring s'; Ok (JStr t, r)
          else if ceqb c "{" then
            match skip s' with
            | [] => Err ValueError
            | d :: r => if ceqb d "}" then Ok (JObj [], r) else do (ms, r') <- members n' (d :: r); Ok (JObj (ordered ms), r')
            end
          else if ceqb c "[" then
            match skip s' with
            | [] => Err ValueError
            | d :: r => if ceqb d "]" then Ok (JList [], r) else do (l, r') <- elements n' (d :: r); Ok (JList l, r')
            end
          else
            match match_constant constants s with
            | Some (v, r) => Ok (v, r)
            | None => match match_number s with Some (lit, r) => Ok (JNum (number lit), r) | None => Err ValueError end
            end
      end
  end
(** the members of an object, up to its closing brace *)
with members (n : nat) (s : str) {struct n} : res (list (str * json) * str) :=
  match n with
  | O => Err ValueError
  | S n' =>
      match s with
      | [] => Err ValueError
      | c :: s' =>
          if ceqb c quote then
            do (k, r) <- scanstring s';
            match skip r with
            | [] => Err ValueError
            | d :: r1 =>
                if ceqb d ":" then
                  do (v, r2) <- scan n' (skip r1);
                  match skip r2 with
                  | [] => Err ValueError
                  | e :: r3 =>
                      if ceqb e "}" then Ok ([(k, v)], r3)
                      else if ceqb e "," then do (ms, r4) <- members n' (skip r3); Ok ((k, v) :: ms, r4)
                      else Err ValueError
                  end
                else Err ValueError
            end
          else Err ValueError
      end
  end
(** the elements of an array, up to its closing bracket *)
with elements (n : nat) (s : str) {struct n} : res (list json * str) :=
  match n with
  | O => Err ValueError
  | S n' =>
      do (v, r2) <- scan n' s;
      match skip r2 with
      | [] => Err ValueError
      | e :: r3 =>
          if ceqb e "]" then Ok ([v], r3)
          else if ceqb e "," then do (l, r4) <- elements n' (skip r3); Ok (v :: l, r4)
          else Err ValueError
      end
  end.
(** JSONDecoder.decode *)
Definition loads (s : str) : res json :=
  do (v, r) <- scan (2 * length s + 1) (skip s);
  match skip r with [] => Ok v | _ => Err ValueError end.
End Load.

(** what a text file opened with open(.., 'r') delivers: \r\n and \r are \n *)
Definition read_text (s : str) : str := line_ends s.

(** * The programs, from text to text *)
(** xmltojson.py:20-21 *)
Definition xml_to_json_text (x : xnode) : str := dumps (xmltojson x).
(** jsontoxml.py:18-19 *)
Definition json_text_to_xml (number : str -> str) (repr : json -> str) (file : str) : res (option xnode) :=
  do v <- loads number (read_text file); jsontoxml repr v.
