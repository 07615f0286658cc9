(** Vocabulary of C39: the document made from the records of an 80-column file. *)
From Verif Require Import Mpc80 Mpc80Spec XmlProofs FileLines.

(** * Records *)
Definition called (x : str) (y : string) : bool := streqb x $y.
Definition header (d : item) : bool := is_kind "0" d.
(** records that give no element: code x, a rover without altitude *)
Definition left_out (d : item) : bool := is_kind "x" d || is_kind "V" d && blank (text_of d $"pos3").

(** ADES mode of each kind of optical line (column 15) *)
Definition mode_of (code : str) : str :=
  match dget code
    [($"A", $"PHo"); ($" ", $"PHO"); ($"P", $"PHo"); ($"e", $"ENC"); ($"C", $"CCD"); ($"B", $"CMO"); ($"T", $"MER");
     ($"M", $"MIC"); ($"c", $"ccd"); ($"E", $"OCC"); ($"O", $"OFF"); ($"H", $"PMT"); ($"N", $"NOR"); ($"n", $"VID");
     ($"S", $"CCD"); ($"V", $"CCD"); ($"X", $"CCD")] with
  | Some m => m
  | None => []
  end.
(** name of the star catalogue in column 72 *)
Definition catalogue (c : str) : str := match dget c catCodes with Some n => n | None => $"UNK" end.
(** stations whose column 14 is a program code *)
Definition has_programs (d : item) : bool := smem (text_of d $"stn") programCodeSites.
Definition program (d : item) : res str :=
  if has_programs d && negb (streqb (text_of d $"notes") $" ") then packProgID (text_of d $"notes") else Ok [].
Definition reference (d : item) : res str := unpackRef (skipn 1 (text_of d $"packedref")).
(** the text of each field of an optical record *)
Definition optical_text (prog ref : str) (d : item) (x : str) : str :=
  if called x "mode" then mode_of (text_of d $"code")
  else if called x "astCat" then catalogue (text_of d $"astCat")
  else if called x "band" then
    if blank (text_of d $"mag") then [] else if blank (text_of d $"band") then $"UNK" else text_of d $"band"
  else if called x "notes" then if has_programs d then [] else text_of d $"notes"
  else if called x "prog" then prog
  else if called x "ref" then ref
  else if called x "deprecated" then if is_kind "X" d then $"X" else []
  else if called x "subFrm" then if is_kind "A" d then $"B1950.0" else []
  else text_of d x.

(** * Elements *)
Definition leaf (t v : str) : xml := Elem t [] v [].
(** one child for each field that has a text, in the order of the table *)
Definition element (tag : str) (fields : list str) (text : str -> str) : xml :=
  Elem tag [] [] (flat_map (fun x => match strip (text x) with [] => [] | v => [leaf x v] end) fields).
(** None: lxml refuses it *)
Definition checked (x : xml) : option (list xml) := if xml_valid x then Some [x] else None.
(** The element of a record.  A reference that cannot be unpacked (such as "1abcd")
    makes the whole conversion fail: None. *)
Definition row (optical radar : list str) (d : item) : option (list xml) :=
  if left_out d then Some []
  else if is_kind "R" d then checked (element $"radar" radar (text_of d))
  else match program d, reference d with
       | Ok p, Ok r => checked (element $"optical" optical (optical_text p r d))
       | _, _ => None
       end.
(** all or nothing *)
Fixpoint together {A B} (f : A -> option (list B)) (l : list A) : option (list B) :=
  match l with
  | [] => Some []
  | a :: l' => match f a, together f l' with Some x, Some y => Some (x ++ y) | _, _ => None end
  end.
Definition rows (optical radar : list str) : list item -> option (list xml) := together (row optical radar).

(** * Headers *)
Definition keyword (d : item) : str := text_of d $"headerKeyword".
Definition value (d : item) : str := text_of d $"headerValue".
(** of several lines with one keyword the first *)
Fixpoint first_of_each (hs : list item) : list item :=
  match hs with
  | [] => []
  | h :: hs' => h :: filter (fun g => negb (streqb (keyword g) (keyword h))) (first_of_each hs')
  end.
Fixpoint until_comma (s : str) : str :=
  match s with [] => [] | c :: s' => if ceqb c "," then [] else c :: until_comma s' end.
Fixpoint after_comma (s : str) : option str :=
  match s with [] => None | c :: s' => if ceqb c "," then Some s' else after_comma s' end.
Definition names (v : str) : list xml := map (leaf $"name") (splitc "," v).
Definition heading (h : item) : list xml :=
  let v := value h in
  if called (keyword h) "COD" then [Elem $"observatory" [] [] [leaf $"mpcCode" v]]
  else if called (keyword h) "CON" then
    [Elem $"submitter" [] [] (leaf $"name" (until_comma v) ::
       match after_comma v with Some i => [leaf $"institution" i] | None => [] end)]
  else if called (keyword h) "OBS" then [Elem $"observers" [] [] (names v)]
  else if called (keyword h) "MEA" then [Elem $"measurers" [] [] (names v)]
  else if called (keyword h) "TEL" then
    [Elem $"telescope" [] [] [leaf $"name" v; leaf $"design" $"Unknown"; leaf $"aperture" $"9999"; leaf $"detector" $"Unknown"]]
  else [].
Definition comments (hs : list item) : list xml :=
  match filter (fun h => streqb (keyword h) $"COM") hs with
  | [] => []
  | cs => [Elem $"comment" [] [] (map (fun h => leaf $"line" (value h)) cs)]
  end.
Definition context (hs : list item) : xml :=
  Elem $"obsContext" [] [] (flat_map heading (first_of_each hs) ++ comments hs).

(** * Blocks: headers with the records that follow them *)
Definition group : Type := list item * list item.
Definition regular (g : group) : Prop :=
  fst g <> [] /\ Forall (fun h => header h = true) (fst g) /\
  snd g <> [] /\ Forall (fun d => header d = false) (snd g).
Definition ungroup (gs : list group) : list item := flat_map (fun g => fst g ++ snd g) gs.
Definition block (optical radar : list str) (g : group) : option (list xml) :=
  match rows optical radar (snd g) with
  | Some rs => if xml_valid (context (fst g))
               then Some [Elem $"obsBlock" [] [] [context (fst g); Elem $"obsData" [] [] rs]] else None
  | None => None
  end.
Definition blocks (optical radar : list str) : list group -> option (list xml) := together (block optical radar).
Definition ades (kids : list xml) : xml := Elem $"ades" [($"version", $"2022")] [] kids.
Definition written (x : option (list xml)) : outcome :=
  match x with Some kids => Written (ades kids) | None => NotWritten end.

(** The records of the file, by either way of reading it (C26-C28). *)
Definition records_of (nosplit : bool) (ls : list str) : list item * option exn :=
  if nosplit then records (read (map (firstn 80) ls))
  else let '(ls', e) := split_radar (map (firstn 80) ls) in ended (records (read ls')) e.
(** lines as in a text file, radar lines not cut off *)
Definition readable (ls : list str) : Prop := Forall plain_line ls /\ pairs_whole ls.
