(** What C52 says, apart from the model of getencoding: files and the declarations in them. *)
From Verif Require Import Pipe.
Local Open Scope N_scope.

Definition letters (s : str) : chars := map code s.
(** where a line ends: Unicode's line ends as Python has them *)
Definition separator (c : N) : Prop := In c [10; 11; 12; 13; 28; 29; 30; 133; 8232; 8233].
Definition on_one_line (s : chars) : Prop := forall c, In c s -> ~ separator c.
Definition occurs (k s : chars) : Prop := exists a b, s = (a ++ k ++ b)%list.

(** The first line of a text: it is ended by a separator or by the end of the text *)
Inductive begins_with (line : chars) : chars -> Prop :=
| ended_by c rest : separator c -> begins_with line (line ++ c :: rest)%list
| ended_by_nothing : begins_with line line.

(** A first line with an XML declaration that names an encoding: encoding= followed by the name
    in quotes, for the first time *)
Definition name_char (c : N) : Prop := 65 <= c <= 90 \/ 97 <= c <= 122 \/ 48 <= c <= 57 \/ In c (letters $"._-").
Inductive declares (name : chars) : chars -> Prop :=
| declares_it before after q :
    on_one_line before -> on_one_line after ->
    ~ occurs (letters $"encoding=") (letters $"<?xml" ++ before ++ letters $"encoding")%list ->
    Forall name_char name -> In q (letters $"'""") ->
    declares name (letters $"<?xml" ++ before ++ letters $"encoding=" ++ [q] ++ name ++ [q] ++ after)%list.
(** one that names none *)
Definition declares_none (line : chars) : Prop :=
  exists r, line = (letters $"<?xml" ++ r)%list /\ on_one_line r /\ ~ occurs (letters $"encoding=") line.

(** what a first line says: the encoding it names, UTF-8 if it names none *)
Definition tells (line coding : chars) : Prop := declares coding line \/ declares_none line /\ coding = letters $"UTF-8".

(** * Characters as bytes *)
(** Unicode scalar values *)
Definition scalar (c : N) : Prop := c < 55296 \/ 57344 <= c < 1114112.
Definition two (be : bool) (u : N) : bytes := if be then [u / 256; u mod 256] else [u mod 256; u / 256].
Definition utf16_of (be : bool) (c : N) : bytes :=
  if c <? 65536 then two be c
  else (two be (55296 + (c - 65536) / 1024) ++ two be (56320 + (c - 65536) mod 1024))%list.
Definition utf32_of (be : bool) (c : N) : bytes :=
  let l := [c mod 256; c / 256 mod 256; c / 65536 mod 256; c / 16777216] in if be then rev l else l.
Definition utf8_of (c : N) : bytes :=
  if c <? 128 then [c]
  else if c <? 2048 then [192 + c / 64; 128 + c mod 64]
  else if c <? 65536 then [224 + c / 4096; 128 + c / 64 mod 64; 128 + c mod 64]
  else [240 + c / 262144; 128 + c / 4096 mod 64; 128 + c / 64 mod 64; 128 + c mod 64].
(** the byte order mark *)
Definition mark : N := 65279.

(** How a text is stored, and what getencoding calls it: (type, remark) *)
Inductive stored (t : chars) : bytes -> str -> str -> Prop :=
| in_utf8_mark : stored t (flat_map utf8_of (mark :: t)) $"utf-8" $"with_BOM"
| in_utf16 (be : bool) : stored t (flat_map (utf16_of be) t) (if be then $"UTF-16BE" else $"UTF-16LE")
                                (if be then $"big-endian_no_BOM" else $"little-endian_no_BOM")
| in_utf16_mark (be : bool) : stored t (flat_map (utf16_of be) (mark :: t)) $"UTF-16" (if be then $"big-endian_BOM" else $"little-endian_BOM")
| in_utf32 (be : bool) : stored t (flat_map (utf32_of be) t) (if be then $"UTF-32BE" else $"UTF-32LE")
                                (if be then $"1234_no_BOM" else $"4321_no_BOM")
| in_utf32_mark (be : bool) : stored t (flat_map (utf32_of be) (mark :: t)) $"UTF-32" (if be then $"1234_BOM" else $"4321_BOM").

(** The first bytes by which a file is recognised *)
Definition known_starts : list bytes := [
  [0; 0; 254; 255]; [0; 0; 255; 254]; [0; 0; 0; 60]; [0; 0; 60; 0]; [0; 60; 0; 0]; [0; 60; 0; 63];
  [255; 254]; [254; 255]; [239; 187; 191]; [60; 63; 120; 109]; [60; 0; 0; 0]; [60; 0; 63; 0]; [76; 111; 167; 148]; [43; 65; 68; 119]].
Definition recognised (file : bytes) : Prop := exists m r, In m known_starts /\ file = (m ++ r)%list.
