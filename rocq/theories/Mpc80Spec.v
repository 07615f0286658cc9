(** Vocabulary of the 80-column properties (C26-C28, C39): the MPC's column layout,
    written down without the regular expressions of the code. *)
From Verif Require Import Mpc80.
Local Open Scope nat_scope.

(** columns a to b, counted from 1 *)
Definition cols (a b : nat) (l : str) : str := firstn (b - a + 1) (skipn (a - 1) l).

(** * Layouts *)
(** consecutive fields, each with its width and its characters *)
Definition layout := list (nat * (ascii -> bool)).
Fixpoint laid_out (f : layout) (l : str) : Prop :=
  match f with
  | [] => l = []
  | (n, p) :: f' => n <= length l /\ forallb p (firstn n l) = true /\ laid_out f' (skipn n l)
  end.
Definition any (c : ascii) : bool := negb (ceqb c nl).
Definition one_of (s : str) (c : ascii) : bool := cmem c s.
(** digits, points and blanks *)
Definition numeric (c : ascii) : bool := isdig c || one_of $" ." c.
Definition snumeric (c : ascii) : bool := numeric c || one_of $"+-" c.

(** columns 1-32: designation, discovery asterisk, note, kind of line, date *)
Definition first32 (kinds : str) : layout :=
  [(1, fun c => isalnum c || one_of $" ~" c); (11, fun c => isalnum c || one_of $" " c);
   (1, one_of $" *+"); (1, any); (1, one_of kinds);
   (4, isdig); (1, one_of $" abcde"); (12, numeric)].
(** right ascension, declination, nothing, magnitude, band, reference, station *)
Definition optical_layout : layout :=
  first32 $"A PeCBTMcEOHNnSVXx" ++
  [(12, numeric); (1, one_of $"+- "); (11, numeric); (9, any); (5, any); (1, any); (6, any); (3, any)].
(** delay, Doppler shift, frequency, transmitter, reference, receiver *)
Definition radar1_layout : layout :=
  first32 $"R" ++ [(15, numeric); (1, one_of $"+- "); (14, numeric); (6, numeric); (3, any); (6, any); (3, any)].
(** bounce point, the two uncertainties, frequency, transmitter, reference, receiver *)
Definition radar2_layout : layout :=
  first32 $"r" ++ [(1, one_of $"SC"); (14, numeric); (15, numeric); (6, numeric); (3, any); (6, any); (3, any)].
(** unit, three signed positions, reference, station *)
Definition satellite_layout : layout :=
  first32 $"s" ++
  [(1, one_of $"12"); (1, any); (1, one_of $"+-"); (10, numeric); (1, any); (1, one_of $"+-"); (10, numeric);
   (1, any); (1, one_of $"+-"); (10, numeric); (3, one_of $" "); (5, any); (3, any)].
(** longitude, latitude, altitude, reference, 247 *)
Definition rover_layout : layout :=
  first32 $"v" ++
  [(1, one_of $"1"); (1, one_of $" "); (10, snumeric); (1, one_of $" "); (10, snumeric); (1, one_of $" ");
   (5, snumeric); (10, one_of $" "); (6, any); (1, one_of $"2"); (1, one_of $"4"); (1, one_of $"7")].

(** * Header lines *)
Definition keywords : list str :=
  [$"ACK"; $"COD"; $"CON"; $"OBS"; $"MEA"; $"TEL"; $"NET"; $"BND"; $"COM"; $"NUM"; $"AC2"].
Definition header_line (l : str) : Prop := exists k v, In k keywords /\ l = k ++ $" " ++ v.

(** * The dictionary made from a line *)
Definition texts (kvs : list (str * str)) : item := map (fun kv => (fst kv, Some (snd kv))) kvs.
(** the note: a program code at the stations that have them *)
Definition note_ok (stn note : str) : Prop :=
  exists c, note = [c] /\ In c (if smem stn programCodeSites then validProgramCodes else validNotes).
(** what every data line needs: a date, a note, a designation *)
Definition accepted (radar : bool) (l obsTime : str) (p : prec) (perm prov trk : option str) : Prop :=
  checkDate (cols 16 32 l) radar = Ok (obsTime, p) /\
  note_ok (cols 78 80 l) (cols 14 14 l) /\
  unpackPackedID (cols 1 12 l) = Ok (perm, prov, trk).
Definition common (l : str) : list (str * str) :=
  [($"subFmt", $"M92"); ($"totalid", cols 1 12 l); ($"disc", cols 13 13 l); ($"notes", cols 14 14 l);
   ($"code", cols 15 15 l); ($"date", cols 16 32 l)].
Definition time_fields (obsTime : str) (p : prec) : list (str * str) :=
  [($"obsTime", obsTime); ($"precTime", prec_str p)].
Definition designation (perm prov trk : option str) : item :=
  [($"permID", perm); ($"provID", prov); ($"trkSub", trk)].
(** the columns w with a decimal point behind the first n of them; nothing for blanks *)
Definition implied_point (n : nat) (w : str) : str :=
  if streqb w (spaces (length w)) then [] else firstn n w ++ $"." ++ skipn n w.
(** the Doppler shift in the fifteen columns w: a sign, ten digits, the implied point *)
Definition shift_of (w shift : str) : Prop :=
  if streqb w (spaces 15) then shift = [] else packSigned (implied_point 11 w) = Ok shift.
(** the eleven columns w hold the signed number v, its point in column dp *)
Definition position (dp : Z) (w v : str) : Prop := packSigned w = Ok v /\ unPackSigned v 11 dp = Ok w.

Inductive decodes (l : str) : item -> Prop :=
| dec_header k v : length l <= 80 -> In k keywords -> l = k ++ $" " ++ v ->
    decodes l (texts [($"headerKeyword", k); ($"headerValue", v); ($"code", $"0")])
| dec_optical t p perm prov trk ra pra de pde :
    ~ header_line l -> laid_out optical_layout l -> accepted false l t p perm prov trk ->
    checkRa (cols 33 44 l) = Ok (ra, pra) -> checkDec (cols 45 56 l) = Ok (de, pde) ->
    decodes l (texts (common l ++
      [($"raSexagesimal", cols 33 44 l); ($"decSexagesimal", cols 45 56 l); ($"bl1", cols 57 65 l);
       ($"mag", cols 66 70 l); ($"band", cols 71 71 l); ($"packedref", cols 72 77 l); ($"stn", cols 78 80 l)] ++
      time_fields t p ++
      [($"ra", ra); ($"precRA", prec_str pra); ($"dec", de); ($"precDec", prec_str pde);
       ($"astCat", cols 72 72 l)]) ++ designation perm prov trk)
| dec_radar1 t p perm prov trk shift :
    ~ header_line l -> laid_out radar1_layout l -> accepted true l t p perm prov trk ->
    shift_of (cols 48 62 l) shift ->
    decodes l (texts (common l ++
      [($"delay", implied_point 5 (cols 33 47 l)); ($"shift", shift);
       ($"frq", firstn 5 (cols 63 68 l) ++ $"." ++ skipn 5 (cols 63 68 l));
       ($"trx", cols 69 71 l); ($"packedref", cols 72 77 l); ($"stn", cols 78 80 l)] ++
      time_fields t p ++ [($"astCat", cols 72 72 l)]) ++ designation perm prov trk)
| dec_radar2 t p perm prov trk :
    ~ header_line l -> laid_out radar2_layout l -> accepted true l t p perm prov trk ->
    decodes l (texts (common l ++
      [($"sc", cols 33 33 l); ($"delay uncertainty", implied_point 10 (cols 34 47 l));
       ($"shift uncertainty", implied_point 11 (cols 48 62 l)); ($"frq continuation", cols 63 68 l);
       ($"trx", cols 69 71 l); ($"packedref", cols 72 77 l); ($"stn", cols 78 80 l)] ++
      time_fields t p ++ [($"astCat", cols 72 72 l)]) ++ designation perm prov trk)
| dec_satellite t p perm prov trk x y z dp sys :
    ~ header_line l -> laid_out satellite_layout l -> accepted false l t p perm prov trk ->
    (if streqb (cols 33 33 l) $"1" then (dp, sys) = (7%Z, $"ICRF_KM") else (dp, sys) = (3%Z, $"ICRF_AU")) ->
    position dp (cols 35 45 l) x -> position dp (cols 47 57 l) y -> position dp (cols 59 69 l) z ->
    decodes l (texts (common l ++
      [($"parallax_type", cols 33 33 l); ($"ctr", $"399"); ($"pos1", x); ($"pos2", y); ($"pos3", z); ($"sys", sys);
       ($"packedref", cols 72 77 l); ($"stn", cols 78 80 l)] ++
      time_fields t p ++ [($"astCat", cols 72 72 l)]) ++ designation perm prov trk)
| dec_rover t p perm prov trk :
    ~ header_line l -> laid_out rover_layout l -> accepted false l t p perm prov trk ->
    decodes l (texts (common l ++
      [($"sys", $"WGS84"); ($"ctr", $"399"); ($"pos1", cols 35 44 l); ($"pos2", cols 46 55 l); ($"pos3", cols 57 61 l);
       ($"packedref", cols 72 77 l); ($"stn", cols 78 80 l)] ++
      time_fields t p ++ [($"astCat", cols 72 72 l)]) ++ designation perm prov trk)
| dec_empty : l = [] -> decodes l [].

(** * Reading the columns back *)
Definition optical_columns : list str :=
  [$"totalid"; $"disc"; $"notes"; $"code"; $"date"; $"raSexagesimal"; $"decSexagesimal"; $"bl1"; $"mag"; $"band"; $"packedref"; $"stn"].
Definition head_columns : list str := [$"totalid"; $"disc"; $"notes"; $"code"; $"date"].
Definition tail_columns : list str := [$"packedref"; $"stn"].
(** the w columns that made the text v with its point behind the first n of them *)
Definition unpoint (n w : nat) (v : str) : str := match v with [] => spaces w | _ => firstn n v ++ skipn (S n) v end.
(** the exceptions a data line can cause *)
Definition tame (e : exn) : Prop := e = RuntimeError \/ e = ValueError \/ e = OverflowError.

(** * Sequences of lines *)
Definition text_of (d : item) (k : str) : str := match dget k d with Some (Some v) => v | _ => [] end.
Definition is_kind (c : string) (d : item) : bool := streqb (text_of d $"code") $c.
(** the first and the second line of a two-line record *)
Definition first_line (d : item) : bool := is_kind "R" d || is_kind "S" d || is_kind "V" d.
Definition second_line (d : item) : bool := is_kind "r" d || is_kind "s" d || is_kind "v" d.
Definition pairs_with (a b : item) : bool :=
  is_kind "R" a && is_kind "r" b || is_kind "S" a && is_kind "s" b || is_kind "V" a && is_kind "v" b.
Definition same (k : str) (a b : item) : bool := streqb (text_of a k) (text_of b k).
(** same object, time and receiving station; same transmitter for radar *)
Definition same_record (a b : item) : bool :=
  same $"totalid" a b && same $"date" a b && same $"stn" a b && (negb (is_kind "R" a) || same $"trx" a b).
(** the first line with what the second one adds *)
Definition updated (kvs : list (str * str)) (a : item) : item := fold_left (fun d kv => iset (fst kv) (snd kv) d) kvs a.
Definition joined (a b : item) : item :=
  if is_kind "R" a then
    updated [($"sc", text_of b $"sc"); ($"com", if streqb (text_of b $"sc") $"S" then $"0" else $"1");
             ($"rmsDelay", text_of b $"delay uncertainty"); ($"rmsDoppler", text_of b $"shift uncertainty");
             ($"frq continuation", text_of b $"frq continuation"); ($"rcv", text_of b $"stn");
             ($"doppler", text_of a $"shift"); ($"ref", text_of a $"packedref")] a
  else
    updated (map (fun k => (k, text_of b k)) [$"sys"; $"ctr"; $"pos1"; $"pos2"; $"pos3"]) a.

Inductive event := Got (d : item) | Stop (e : exn).
(** What is read: dictionaries, and exceptions that end the reading.  Blank lines
    and lines refused with a RuntimeError are skipped. *)
Definition read_line (l : str) : list event :=
  if streqb l (spaces (length l)) then []
  else match decode80 l with
       | Ok d => [Got d]
       | Err RuntimeError => []
       | Err e => [Stop e]
       end.
Definition read (ls : list str) : list event := flat_map read_line ls.

(** The records, and the exception that ends the reading. *)
Fixpoint records (ds : list event) : list item * option exn :=
  match ds with
  | [] => ([], None)
  | Stop e :: _ => ([], Some e)
  | Got a :: rest =>
      if first_line a then
        match rest with
        | Got b :: rest' =>
            if pairs_with a b then
              if same_record a b then let '(rs, e) := records rest' in (joined a b :: rs, e)
              else ([], Some NameError)
            else if first_line b then records rest      (* a is dropped *)
            else records rest'                          (* a is dropped, and so is b *)
        | _ => records rest                             (* a is dropped *)
        end
      else if second_line a then records rest           (* a is dropped *)
      else let '(rs, e) := records rest in (a :: rs, e)
  end.

(** The records handed to a callback, one after the other; a RuntimeError does not
    stop it. *)
Fixpoint feed {C} (callBack : item -> C -> C * option exn) (rs : list item) (c : C) : C * option exn :=
  match rs with
  | [] => (c, None)
  | d :: rs' =>
      match callBack d c with
      | (c', None) | (c', Some RuntimeError) => feed callBack rs' c'
      | (c', Some e) => (c', Some e)
      end
  end.
Definition then_end {C} (r : C * option exn) (e : option exn) : C * option exn :=
  match r with (c, None) => (c, e) | _ => r end.

(** * Splitting radar pairs *)
Definition column15 (l : str) : str := cols 15 15 l.
Definition is_header_line (l : str) : bool := existsb (fun k => streqb (firstn 4 l) (k ++ $" ")) keywords.
(** the line without its Doppler columns 48-61, without its delay columns 35-47 *)
Definition keep_delay (l : str) : str := cols 1 47 l ++ spaces 14 ++ cols 62 80 l.
Definition keep_doppler (l : str) : str := cols 1 34 l ++ spaces 13 ++ cols 48 80 l.
Definition has_both (l : str) : bool := negb (blank (cols 35 47 l)) && negb (blank (cols 48 61 l)).
Definition ahead (xs : list str) (r : list str * option exn) : list str * option exn := (xs ++ fst r, snd r).
Fixpoint split_radar (ls : list str) : list str * option exn :=
  match ls with
  | [] => ([], None)
  | l :: rest =>
      if is_header_line l then ahead [l] (split_radar rest)
      else if length l <? 14 then ([], Some RuntimeError)
      else if negb (streqb (column15 l) $"R") then ahead [l] (split_radar rest)
      else match rest with
           | m :: rest' =>
               if streqb (column15 m) $"r" then
                 if has_both l then
                   ahead [keep_delay l; keep_delay m; keep_doppler l; keep_doppler m] (split_radar rest')
                 else ahead [l; m] (split_radar rest')
               else ([], Some RuntimeError)
           | [] => ([], Some RuntimeError)
           end
  end.
(** a radar line R, and the line r after it, have at least 61 columns *)
Definition pairs_whole (ls : list str) : Prop :=
  forall p l q, ls = p ++ l :: q -> is_header_line l = false -> column15 l = $"R" ->
    (61 <= length l)%nat /\ forall m q', q = m :: q' -> column15 m = $"r" -> (61 <= length m)%nat.

(** * The whole conversion *)
Definition ended {A} (r : list A * option exn) (e : option exn) : list A * option exn :=
  match r with (x, None) => (x, e) | _ => r end.
(** what the call does with these records, and this end of the reading *)
Definition conclude (T : tables) (r : list item * option exn) : outcome :=
  let '(rs, e) := r in
  match e with
  | Some e => Raised e
  | None =>
      match c_init with
      | Err _ => NotWritten
      | Ok c =>
          match feed (convertit T) rs c with
          | (c', None) => match es_takeTreeAndClear (c_stack c') with Ok (t, _) => Written t | Err _ => NotWritten end
          | (_, Some _) => NotWritten
          end
      end
  end.
