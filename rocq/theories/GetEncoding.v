(** Model of Python/ades/getencoding: the encoding an XML file declares.

    A file is a list of bytes, a text a list of code points.  The line is read through
    codecs.open(..).readline(): what Python's StreamReader does is modelled too (72 bytes first,
    then twice as many), because bytes behind the first line make it fail.
    Simplified: the decoder is applied to all the bytes read so far, which gives what the
    incremental decoders give.  Not modelled: Python's codec utf-7, for files that begin with
    +ADw ([utf7], a parameter); printing. *)
From Verif Require Export Pipe.

Definition text_of (s : str) : chars := map code s.
Fixpoint beq (a b : list N) : bool :=
  match a, b with
  | [], [] => true
  | x :: a', y :: b' => (x =? y)%N && beq a' b'
  | _, _ => false
  end.

(** * The decoders: one character, or too few bytes, or bytes that are no character *)
Inductive step := Char (c : N) (rest : bytes) | More | Bad.
(** codecs.ascii_decode *)
Definition next_ascii (b : bytes) : step :=
  match b with [] => More | x :: r => if (x <? 128)%N then Char x r else Bad end.
(** the table of cp500 (encodings/cp500.py) *)
Definition cp500_table : list N := [
  0; 1; 2; 3; 156; 9; 134; 127; 151; 141; 142; 11; 12; 13; 14; 15; 16; 17; 18; 19; 157; 133; 8; 135; 24; 25;
  146; 143; 28; 29; 30; 31; 128; 129; 130; 131; 132; 10; 23; 27; 136; 137; 138; 139; 140; 5; 6; 7; 144; 145; 22;
  147; 148; 149; 150; 4; 152; 153; 154; 155; 20; 21; 158; 26; 32; 160; 226; 228; 224; 225; 227; 229; 231; 241;
  91; 46; 60; 40; 43; 33; 38; 233; 234; 235; 232; 237; 238; 239; 236; 223; 93; 36; 42; 41; 59; 94; 45; 47; 194;
  196; 192; 193; 195; 197; 199; 209; 166; 44; 37; 95; 62; 63; 248; 201; 202; 203; 200; 205; 206; 207; 204; 96;
  58; 35; 64; 39; 61; 34; 216; 97; 98; 99; 100; 101; 102; 103; 104; 105; 171; 187; 240; 253; 254; 177; 176; 106;
  107; 108; 109; 110; 111; 112; 113; 114; 170; 186; 230; 184; 198; 164; 181; 126; 115; 116; 117; 118; 119; 120;
  121; 122; 161; 191; 208; 221; 222; 174; 162; 163; 165; 183; 169; 167; 182; 188; 189; 190; 172; 124; 175; 168;
  180; 215; 123; 65; 66; 67; 68; 69; 70; 71; 72; 73; 173; 244; 246; 242; 243; 245; 125; 74; 75; 76; 77; 78; 79;
  80; 81; 82; 185; 251; 252; 249; 250; 255; 92; 247; 83; 84; 85; 86; 87; 88; 89; 90; 178; 212; 214; 210; 211;
  213; 48; 49; 50; 51; 52; 53; 54; 55; 56; 57; 179; 219; 220; 217; 218; 159]%N.
Definition cp500 (x : N) : N := nth (N.to_nat x) cp500_table 0%N.
Definition next_cp500 (b : bytes) : step :=
  match b with [] => More | x :: r => Char (cp500 x) r end.
(** codecs.utf_8_decode: the second byte of E0, ED, F0 and F4 is restricted *)
Definition second (x y : N) : bool :=
  (if x =? 224 then (160 <=? y) && (y <? 192)
   else if x =? 237 then (128 <=? y) && (y <? 160)
   else if x =? 240 then (144 <=? y) && (y <? 192)
   else if x =? 244 then (128 <=? y) && (y <? 144)
   else cont y)%N.
Definition next_utf8 (b : bytes) : step :=
  match b with
  | [] => More
  | x :: r =>
      if (x <? 128)%N then Char x r
      else if ((194 <=? x) && (x <? 224))%N then
        match r with
        | [] => More
        | y :: r => if second x y then Char ((x - 192) * 64 + (y - 128))%N r else Bad
        end
      else if ((224 <=? x) && (x <? 240))%N then
        match r with
        | [] => More
        | [y] => if second x y then More else Bad
        | y :: z :: r => if second x y && cont z then Char ((x - 224) * 4096 + (y - 128) * 64 + (z - 128))%N r else Bad
        end
      else if ((240 <=? x) && (x <? 245))%N then
        match r with
        | [] => More
        | [y] => if second x y then More else Bad
        | [y; z] => if second x y && cont z then More else Bad
        | y :: z :: t :: r =>
            if second x y && cont z && cont t
            then Char ((x - 240) * 262144 + (y - 128) * 4096 + (z - 128) * 64 + (t - 128))%N r else Bad
        end
      else Bad
  end.
(** codecs.utf_16_le_decode, utf_16_be_decode: pairs of surrogates make one character *)
Definition unit16 (be : bool) (x y : N) : N := if be then (x * 256 + y)%N else (y * 256 + x)%N.
Definition next_utf16 (be : bool) (b : bytes) : step :=
  match b with
  | x :: y :: r =>
      let u := unit16 be x y in
      if ((55296 <=? u) && (u <? 56320))%N then
        match r with
        | x' :: y' :: r' =>
            let v := unit16 be x' y' in
            if ((56320 <=? v) && (v <? 57344))%N then Char (65536 + (u - 55296) * 1024 + (v - 56320))%N r' else Bad
        | _ => More
        end
      else if ((56320 <=? u) && (u <? 57344))%N then Bad
      else Char u r
  | _ => More
  end.
(** codecs.utf_32_le_decode, utf_32_be_decode *)
Definition next_utf32 (be : bool) (b : bytes) : step :=
  match b with
  | x :: y :: z :: t :: r =>
      let c := (if be then ((x * 256 + y) * 256 + z) * 256 + t else ((t * 256 + z) * 256 + y) * 256 + x)%N in
      if ((1114112 <=? c) || (55296 <=? c) && (c <? 57344))%N then Bad else Char c r
  | _ => More
  end.
(** decode(data, 'strict'): the characters before the first error, and whether there is one *)
Fixpoint decode_with (next : bytes -> step) (fuel : nat) (b : bytes) : chars * bool :=
  match fuel with
  | O => ([], false)
  | S fuel' =>
      match next b with
      | More => ([], false)
      | Bad => ([], true)
      | Char c r => let (s, e) := decode_with next fuel' r in (c :: s, e)
      end
  end.
Definition decoder := bytes -> chars * bool.
Definition decoded (next : bytes -> step) : decoder := fun b => decode_with next (length b) b.
(** encodings/utf_16.py, utf_32.py: the byte order mark tells the order and is not part of the text *)
Definition utf16_bom : decoder := fun b =>
  match b with x :: y :: r => if (x =? 255)%N then decoded (next_utf16 false) r else decoded (next_utf16 true) r | _ => ([], false) end.
Definition utf32_bom : decoder := fun b =>
  match b with x :: _ :: _ :: _ :: r => if (x =? 255)%N then decoded (next_utf32 false) r else decoded (next_utf32 true) r | _ => ([], false) end.

(** * codecs.StreamReader.readline *)
(** str.splitlines(keepends=True) *)
Definition line_sep (c : N) : bool :=
  existsb (N.eqb c) [10; 11; 12; 13; 28; 29; 30; 133; 8232; 8233]%N.
Fixpoint splitlines (s : chars) : list chars :=
  match s with
  | [] => []
  | c :: s' =>
      if line_sep c then
        match s' with
        | d :: s'' => if (c =? 13)%N && (d =? 10)%N then [c; d] :: splitlines s'' else [c] :: splitlines s'
        | [] => [[c]]
        end
      else match splitlines s' with l :: ls => (c :: l) :: ls | [] => [[c]] end
  end.
Definition ends_with (p : N -> bool) (s : chars) : bool := match rev s with c :: _ => p c | [] => false end.

Section Reader.
(** [D n]: the characters in the first n bytes of the file; [len]: its length *)
Variables (D : nat -> chars * bool) (len : nat).
(** StreamReader.read: [n] bytes have been read; read [size] at a time until there are [want]
    characters.  With firstline an error is forgiven if there was more than a line before it. *)
Fixpoint fill (fuel : nat) (firstline : bool) (size want n : nat) : res nat :=
  if (want <=? length (fst (D n)))%nat then Ok n
  else if (len <=? n)%nat then if snd (D n) then Err ValueError else Ok n
  else
    match fuel with
    | O => Err ValueError
    | S fuel' =>
        let n' := Nat.min len (n + size) in
        let new := skipn (length (fst (D n))) (fst (D n')) in
        if snd (D n') && negb (firstline && (1 <? length (splitlines new))%nat) then Err ValueError
        else fill fuel' firstline size want n'
    end.
(** StreamReader.readline: [n] bytes read, [r] characters in the line so far *)
Fixpoint readline (fuel : nat) (readsize : N) (n r : nat) : res chars :=
  match fuel with
  | O => Err ValueError
  | S fuel' =>
      let size := N.to_nat readsize in
      do n1 <- fill len true size (r + size) n;
      let r1 := Nat.min (r + size) (length (fst (D n1))) in
      let data := skipn r (firstn r1 (fst (D n1))) in
      do (n2, r2) <-
        (if ends_with (N.eqb 13) data then
           do n2 <- fill len false 1 (r1 + 1) n1; Ok (n2, Nat.min (r1 + 1) (length (fst (D n2))))
         else Ok (n1, r1));
      let line := firstn r2 (fst (D n2)) in
      let again := match data with [] => Ok line | _ => readline fuel' (if readsize <? 8000 then 2 * readsize else readsize)%N n2 r2 end in
      match splitlines line with
      | l :: _ :: _ => Ok l
      | [l] => if ends_with line_sep l then Ok l else again
      | [] => again
      end
  end.
End Reader.
(** getencoding:174-175 codecs.open(filename, 'r', encoding).readline() *)
Definition first_line (d : decoder) (file : bytes) : res chars :=
  readline (fun n => d (firstn n file)) (length file) (S (length file)) 72 0 0.

(** * getencoding *)
(** s.split(pat) at the first place *)
Fixpoint starts (pat s : chars) : option chars :=
  match pat, s with
  | [], _ => Some s
  | p :: pat', c :: s' => if (p =? c)%N then starts pat' s' else None
  | _, [] => None
  end.
Fixpoint cut (pat s : chars) : option (chars * chars) :=
  match starts pat s with
  | Some r => Some ([], r)
  | None => match s with [] => None | c :: s' => match cut pat s' with Some (a, b) => Some (c :: a, b) | None => None end end
  end.
Fixpoint upto (q : N) (s : chars) : chars :=
  match s with [] => [] | c :: s' => if (c =? q)%N then [] else c :: upto q s' end.
(** getencoding:177-182 *)
Definition coding_of (line : chars) : res chars :=
  match cut (text_of $"encoding=") line with
  | None => Ok (text_of $"UTF-8")
  | Some (_, t) =>
      let l1 := match cut (text_of $"encoding=") t with Some (u, _) => u | None => t end in
      match l1 with [] => Err IndexError | q :: u => Ok (upto q u) end
  end.

(** getencoding:109-162: the type by the first four bytes, and its decoder.  Files with the byte
    orders 2143 and 3412 are opened with the codec utf-32, which raises an exception as it finds no
    byte order mark it knows. *)
Definition unknown_order : decoder := fun _ => ([], true).
Definition file_type (utf7 : decoder) (file : bytes) : option (str * str * decoder) :=
  let b := firstn 4 file in
  if beq b [0; 0; 254; 255]%N then Some ($"UTF-32", $"1234_BOM", utf32_bom)
  else if beq b [0; 0; 255; 254]%N then Some ($"UTF-32", $"2143_BOM", unknown_order)
  else if beq b [0; 0; 0; 60]%N then Some ($"UTF-32BE", $"1234_no_BOM", decoded (next_utf32 true))
  else if beq b [0; 0; 60; 0]%N then Some ($"UTF-32", $"2143_no_BOM", unknown_order)
  else if beq b [0; 60; 0; 0]%N then Some ($"UTF-32", $"3412_no_BOM", unknown_order)
  else if beq b [0; 60; 0; 63]%N then Some ($"UTF-16BE", $"big-endian_no_BOM", decoded (next_utf16 true))
  else if beq b [255; 254; 0; 0]%N then Some ($"UTF-32", $"4321_BOM", utf32_bom)
  else if beq (firstn 2 b) [255; 254]%N then Some ($"UTF-16", $"little-endian_BOM", utf16_bom)
  else if beq b [254; 255; 0; 0]%N then Some ($"UTF-32", $"3412_BOM", unknown_order)
  else if beq (firstn 2 b) [254; 255]%N then Some ($"UTF-16", $"big-endian_BOM", utf16_bom)
  else if beq (firstn 3 b) [239; 187; 191]%N then Some ($"utf-8", $"with_BOM", decoded next_utf8)
  else if beq b [60; 63; 120; 109]%N then Some ($"ascii", $"no_BOM", decoded next_ascii)
  else if beq b [60; 0; 0; 0]%N then Some ($"UTF-32LE", $"4321_no_BOM", decoded (next_utf32 false))
  else if beq b [60; 0; 63; 0]%N then Some ($"UTF-16LE", $"little-endian_no_BOM", decoded (next_utf16 false))
  else if beq b [76; 111; 167; 148]%N then Some ($"CP500", $"EBCDIC", decoded next_cp500)
  else if beq b [43; 65; 68; 119]%N then Some ($"utf-7", $"7bit_unicode", utf7)
  else None.

(** getencoding:34-184 getXMLFileEncoding *)
Definition getXMLFileEncoding (utf7 : decoder) (file : bytes) : res (chars * str * str) :=
  match file_type utf7 file with
  | None => Err RuntimeError
  | Some (ftype, extra, d) =>
      do line <- first_line d file;
      do coding <- coding_of line;
      Ok (coding, ftype, extra)
  end.
