(** Vocabulary of C50: from a submission to 80 columns and back. *)
From Verif Require Export Submit80Spec.
From Verif Require Import Mpc80 Mpc80Spec Line80Spec JustSpec DocSpec XmlToMpc80 FileLines Xml.
From Verif Require Import SexSpec Submit80Spec.
Local Open Scope Z_scope.

(** * Which lines are read again *)
(** blanks, letters and digits; a tilde in front *)
Definition name_chars (w : str) : Prop :=
  match w with c :: w' => (isalnum c || one_of $" ~" c = true) /\ forall x, In x w' -> isalnum x || one_of $" " x = true | [] => False end.
Record legible (l : str) : Prop := {
  lg_chars : name_chars (cols 1 12 l);
  lg_name : exists t, unpackPackedID (cols 1 12 l) = Ok t;
  lg_note : note_ok (cols 78 80 l) (cols 14 14 l);
  lg_time : forall j, In j short_by_rounding -> cols 27 32 l <> num 6 (625 * j);   (* the six decimals of the day *)
  lg_seconds : cols 39 40 l <> $"60";                                              (* of the right ascension *)
  lg_minutes : cols 49 50 l <> $"60" }.                                            (* of the declination *)

(** * What comes back *)
Definition text (o : option str) : str := match o with Some s => s | None => [] end.
(** a time on the same day, up to 0.501 of the last digit and the milliseconds (0.1 seconds when
    the day has five decimals); the last moments of a day come back as its first *)
Definition near_time (k : nat) (s s' : str) : Prop :=
  exists y m d q f q' f', s = iso_time y m d q f /\ s' = iso_time y m d q' f' /\ calendar y m d /\ 0 <= q' < 86400 /\
    forallb isdig f' = true /\ (3 <= length f' <= 4)%nat /\
    let e := 501 * 86400 * 10 ^ (6 - Z.of_nat k) in
    (1000 * Z.abs (microseconds q' f' - microseconds q f) <= e + (if Nat.eqb k 6 then 500000 else 100000000) \/
     microseconds q' f' = 0 /\ 1000 * (86400000000 - microseconds q f) <= e).
(** numbers whose difference is at most e *)
Definition near_number (e : Q) (s s' : str) : Prop :=
  exists q q', decimal_value s q /\ decimal_value s' q' /\ (Qabs (q' - q) <= e)%Q.

Local Open Scope string_scope.
Local Open Scope list_scope.
(** the observer's position is given: such records are written as two lines *)
Definition located (r : xml) : bool := match text_if r "pos1" with Some _ => true | None => false end.
Definition location_fields : list string := ["sys"; "ctr"; "pos1"; "pos2"; "pos3"].
Definition signed (v : str) : str := match v with c :: _ => if isdig c then $"+" ++ v else v | [] => [] end.
Definition unsigned (v : str) : str := match v with c :: u => if is_sign c then u else v | [] => [] end.
(** positions in space get a sign *)
Definition position_back (sys v : str) : str := if streqb sys $"WGS84" then v else signed v.
(** the fields an optical record has when it comes back *)
Definition returned_fields : list string :=
  ["permID"; "provID"; "trkSub"; "mode"; "stn"; "sys"; "ctr"; "pos1"; "pos2"; "pos3"; "prog"; "obsTime"; "ra"; "dec"; "astCat"; "mag"; "band"; "disc"; "subFmt"; "precTime"; "precRA"; "precDec"; "notes"].
(** r was written as the line l; e is what is read from l *)
Record returned (o : opts80) (r e : xml) (l : str) : Prop := {
  rt_tag : xtag e = $"optical";
  rt_name : exists p v t, unpackPackedID (cols 1 12 l) = Ok (p, v, t) /\
    rec_value e $"permID" = strip (text p) /\ rec_value e $"provID" = strip (text v) /\ rec_value e $"trkSub" = strip (text t);
  rt_same : forall x, In x ["stn"; "disc"] -> rec_value e $x = rec_value r $x;
  rt_mode : rec_value e $"mode" = if located r then $"CCD" else rec_value r $"mode";
  rt_location : if located r
    then rec_value e $"sys" = rec_value r $"sys" /\ rec_value e $"ctr" = $"399" /\
      forall x, In x ["pos1"; "pos2"; "pos3"] -> rec_value e $x = position_back (rec_value r $"sys") (rec_value r $x)
    else forall x, In x location_fields -> rec_value e $x = [];
  rt_place : exists i j k, places o i j k /\
    near_time i (rec_value r $"obsTime") (rec_value e $"obsTime") /\
    near_number ((86 # 100) / inject_Z (10 ^ Z.of_nat j) * (1 # 240)) (ra_of r) (rec_value e $"ra") /\
    near_number ((86 # 100) / inject_Z (10 ^ Z.of_nat k) * (1 # 3600)) (dec_of r) (rec_value e $"dec");
  rt_catalogue : rec_value e $"astCat" = catalogue (catalogue_letter (rec_value r $"astCat"));
  (* two characters before the point, five in all *)
  rt_mag : rec_value e $"mag" = firstn (5 - (2 - length (before_point (rec_value r $"mag")))) (rec_value r $"mag");
  rt_band : rec_value e $"band" = band_letter (rec_value r $"band");
  (* the first note, which is taken for a program at the stations that have programs *)
  rt_note : let n := firstn 1 (rec_value r $"notes") in
    if smem (rec_value r $"stn") programCodeSites
    then rec_value e $"notes" = [] /\ match n with [] => rec_value e $"prog" = [] | _ => packProgID n = Ok (rec_value e $"prog") end
    else rec_value e $"notes" = n /\ rec_value e $"prog" = [];
  rt_precisions : rec_value e $"precTime" = o_precTime o /\ rec_value e $"precRA" = o_precRA o /\ rec_value e $"precDec" = o_precDec o;
  rt_format : rec_value e $"subFmt" = $"M92";
  rt_rest : forall x, rec_value e x <> [] -> In x (map lit returned_fields) }.

(** * Lists of records *)
(** the position fits the columns of the second line: for a roving observer, three columns
    before the point and seven from it on, or ten in all, at station 247; for a spacecraft,
    besides the sign, five and five in kilometres, one and nine in astronomical units *)
Definition room (a b : nat) (v : str) : Prop := (length (before_point v) <= a /\ length v <= length (before_point v) + b)%nat.
Definition second_fits (r : xml) : Prop :=
  (rec_value r $"sys" = $"WGS84" -> rec_value r $"stn" = $"247" /\ forall x, In x ["pos1"; "pos2"] ->
     let v := rec_value r $x in (Nat.max 3 (length (before_point v)) + (length v - length (before_point v)) <= 10)%nat) /\
  (rec_value r $"sys" = $"ICRF_KM" -> forall x, In x ["pos1"; "pos2"; "pos3"] -> room 5 5 (unsigned (rec_value r $x))) /\
  (rec_value r $"sys" = $"ICRF_AU" -> forall x, In x ["pos1"; "pos2"; "pos3"] -> room 1 9 (unsigned (rec_value r $x))).
(** a record with a packed designation *)
Record returnable (r : xml) : Prop := {
  rb_tag : In (xtag r) [$"optical"; $"occultation"];
  rb_time : plain_time (rec_value r $"obsTime");
  rb_fits : fitting r;
  rb_packed : text_if r "artSat" = None;
  rb_second : located r = true -> second_fits r }.
(** the lines ls of the records rs, and the elements es that are read from them: those of
    the records whose first (or only) line is legible, in order; nothing is written for offsets *)
Inductive came_back (o : opts80) : list xml -> list str -> list xml -> Prop :=
| cb_nil : came_back o [] [] []
| cb_read r rs l m ls e es : record80 o r (l :: m) -> legible l -> returned o r e l -> came_back o rs ls es -> came_back o (r :: rs) ((l :: m) ++ ls) (e :: es)
| cb_lost r rs l m ls es : record80 o r (l :: m) -> ~ legible l -> came_back o rs ls es -> came_back o (r :: rs) ((l :: m) ++ ls) es
| cb_offset r rs ls es : xtag r = $"offset" -> came_back o rs ls es -> came_back o (r :: rs) ls es.

(** * Blocks *)
(** a header line as it is read: 80 columns of it, the value behind the keyword and a blank *)
Definition header_read (l : str) : item :=
  texts [($"headerKeyword", firstn 3 l); ($"headerValue", skipn 4 (firstn 80 l)); ($"code", $"0")].
Definition block_read (b : xml) (es : list xml) : xml :=
  Elem $"obsBlock" [] [] [context (map header_read (block_header80 b)); Elem $"obsData" [] [] es].
(** the blocks bs, their lines, and the blocks that are read *)
Inductive blocks_back (o : opts80) : list xml -> list str -> list xml -> Prop :=
| bb_nil : blocks_back o [] [] []
| bb_block b bs ls more es xs : came_back o (block_data_of b) ls es -> blocks_back o bs more xs ->
    blocks_back o (b :: bs) (block_header80 b ++ ls ++ more) (block_read b es :: xs).
(** in general: the header lines hs of blocks of which nothing was read are followed by the
    blocks bs, with the lines ls; headers are put together until a record is read, and headers
    at the end leave a block with an empty header and no data *)
Inductive blocks_merged (o : opts80) : list str -> list xml -> list str -> list xml -> Prop :=
| bm_nil : blocks_merged o [] [] [] []
| bm_left hs : hs <> [] -> blocks_merged o hs [] [] [Elem $"obsBlock" [] [] [Elem $"obsContext" [] [] []]]
| bm_block hs b bs ls more es xs : came_back o (block_data_of b) ls es -> es <> [] -> blocks_merged o [] bs more xs ->
    blocks_merged o hs (b :: bs) (block_header80 b ++ ls ++ more)
      (Elem $"obsBlock" [] [] [context (map header_read (hs ++ block_header80 b)); Elem $"obsData" [] [] es] :: xs)
| bm_lost hs b bs ls more xs : came_back o (block_data_of b) ls [] -> blocks_merged o (hs ++ block_header80 b) bs more xs ->
    blocks_merged o hs (b :: bs) (block_header80 b ++ ls ++ more) xs.
(** some first (or only) line of a record of the block is legible *)
Definition seen_block (o : opts80) (b : xml) : Prop :=
  exists r l m, In r (block_data_of b) /\ xtag r <> $"offset" /\ record80 o r (l :: m) /\ legible l.
(** no line breaks in the header lines *)
Definition plain_header (b : xml) : Prop := forall l, In l (block_header80 b) -> plain_line l /\ valid_text l = true.

(** What is left of a header: the code, the names and the comments; all but the first
    name of a list begin with a blank, and the telescope loses all but its name. *)
Definition spaced (xs : list str) : list str := match xs with [] => [] | x :: xs' => x :: map (fun y => $" " ++ y) xs' end.
Definition kept_part (k : xml) : list xml :=
  if is_tag $"observatory" k then [Elem $"observatory" [] [] (map (leaf $"mpcCode") (said [$"mpcCode"] k))]
  else if is_tag $"submitter" k then
    match said [$"name"; $"institution"] k with
    | [] => []
    | n :: is => [Elem $"submitter" [] [] (leaf $"name" n :: map (fun i => leaf $"institution" ($" " ++ i)) is)]
    end
  else if is_tag $"observers" k || is_tag $"measurers" k then [Elem (xtag k) [] [] (map (leaf $"name") (spaced (said [$"name"] k)))]
  else if is_tag $"telescope" k then
    map (fun n => Elem $"telescope" [] [] [leaf $"name" n; leaf $"design" $"Unknown"; leaf $"aperture" $"9999"; leaf $"detector" $"Unknown"]) (said [$"name"] k)
  else [].
Definition kept_comments (ks : list xml) : list xml :=
  match flat_map (fun k => if is_tag $"comment" k then said [$"line"] k else []) ks with
  | [] => []
  | ls => [Elem $"comment" [] [] (map (leaf $"line") ls)]
  end.
Definition kept_header (c : xml) : xml := Elem $"obsContext" [] [] (flat_map kept_part (xkids c) ++ kept_comments (xkids c)).
(** header lines of at most 80 columns, and no commas in names *)
Definition short_header (b : xml) : Prop := forall l, In l (block_header80 b) -> (length l <= 80)%nat.
Definition comma_free (c : xml) : Prop :=
  forall k x, In k (xkids c) -> In (xtag k) [$"submitter"; $"observers"; $"measurers"] -> In x (said [$"name"; $"institution"] k) -> ~ In ","%char x.
