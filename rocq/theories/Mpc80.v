(** Model of Python/ades/mpc80coltoxml.py: 80-column lines to an element tree.
    [T] are the tables returned by adesutility.getAdesTables() (669).

    Not modelled: what is printed on the terminal; lineNumber, nSplit and
    splitLines, which are only printed; byte encodings (a file is the Latin-1
    string it decodes to); the XML serializer (the result is the element tree
    handed to lxml's write); outxmlfile=None. *)
From Verif Require Export Codes SexVals Just PsvToXml.

(** * Regular expressions (the pieces are concatenated as in the source) *)
(** mpc80coltoxml.py:27 *)
Definition blankRegex : re := Eval vm_compute in re_compile $"^ *$".
(** mpc80coltoxml.py:39 *)
Definition headerRegex : re := Eval vm_compute in
  re_compile $"(ACK|COD|CON|OBS|MEA|TEL|NET|BND|COM|NUM|AC2) (.*)$".
(** mpc80coltoxml.py:53-61 *)
Definition commonRegexHelp1 : str := Eval vm_compute in
  $"([ A-Za-z0-9~][A-Za-z0-9 ]{11})" ++ $"([ *+])" ++ $"(.)".
Definition commonRegexHelp2 : str := Eval vm_compute in
  $"(\d{4})" ++ $"([ a-e])" ++ $"([0-9 .]{12})".
(** mpc80coltoxml.py:73-84 *)
Definition normalLineRegex : re := Eval vm_compute in re_compile (
  $"^" ++ commonRegexHelp1 ++ $"([A PeCBTMcEOHNnSVXx])" ++ commonRegexHelp2 ++
  $"([0-9 .]{12})" ++ $"([-+ ][0-9 .]{11})" ++ $"(.{9})" ++ $"(.{5})" ++ $"(.{1})" ++ $"(.{6})" ++ $"(.{3})" ++ $"$").
(** mpc80coltoxml.py:96-106 *)
Definition radarFirstLineRegex : re := Eval vm_compute in re_compile (
  $"^" ++ commonRegexHelp1 ++ $"(R)" ++ commonRegexHelp2 ++
  $"([0-9 .]{15})" ++ $"([ +-][0-9 .]{14})" ++ $"([0-9 .]{6})" ++ $"(.{3})" ++ $"(.{6})" ++ $"(.{3})" ++ $"$").
(** mpc80coltoxml.py:118-129 *)
Definition radarSecondLineRegex : re := Eval vm_compute in re_compile (
  $"^" ++ commonRegexHelp1 ++ $"(r)" ++ commonRegexHelp2 ++
  $"([SC])" ++ $"([0-9 .]{14})" ++ $"([0-9 .]{15})" ++ $"([0-9 .]{6})" ++ $"(.{3})" ++ $"(.{6})" ++ $"(.{3})" ++ $"$").
(** mpc80coltoxml.py:141-155 *)
Definition satelliteSecondLineRegex : re := Eval vm_compute in re_compile (
  $"^" ++ commonRegexHelp1 ++ $"(s)" ++ commonRegexHelp2 ++
  $"([12])" ++ $"." ++ $"([+-][0-9 .]{10})" ++ $"." ++ $"([+-][0-9 .]{10})" ++ $"." ++ $"([+-][0-9 .]{10})" ++
  $" {2}" ++ $"( .{5})" ++ $"(.{3})" ++ $".*$").
(** mpc80coltoxml.py:165-178 *)
Definition roverSecondLineRegex : re := Eval vm_compute in re_compile (
  $"^" ++ commonRegexHelp1 ++ $"(v)" ++ commonRegexHelp2 ++
  $"1 " ++ $"([-+0-9 .]{10})" ++ $" " ++ $"([-+0-9 .]{10})" ++ $" " ++ $"([-+0-9 .]{5})" ++
  $" {10}" ++ $"(.{6})" ++ $"(247)" ++ $".*$").

(** * Decoded lines *)
(** the dictionary made from a line; the values are strings or None.  The
    precisions (numbers, never zero) are kept as the str() of the number, the
    only use that is made of them (815-816, 830-831). *)
Definition item := list (str * option str).
Definition iset (k v : str) (d : item) : item := dset k (Some v) d.
(** item[k] where a string is needed *)
Definition iget (k : str) (d : item) : res str :=
  match dget k d with Some (Some v) => Ok v | Some None => Err TypeError | None => Err KeyError end.
(** a in b for strings: substring test *)
Definition sin (a b : str) : bool := match sfind a b with Some _ => true | None => false end.
Definition blank (s : str) : bool := match strip s with [] => true | _ => false end.

(** columns 1-32, common to all data lines (309-313, 330-334, 356-360, 380-384, 410-414) *)
Definition common_fields (m : caps) : item :=
  [($"subFmt", Some $"M92"); ($"totalid", Some (gs m 1)); ($"disc", Some (gs m 2)); ($"notes", Some (gs m 3));
   ($"code", Some (gs m 4)); ($"date", Some (gs m 5 ++ gs m 6 ++ gs m 7))].

(** sexVals.checkDate(ret, radar): sets ret['obsTime'] and ret['precTime'] *)
Definition do_checkDate (radar : bool) (d : item) : res item :=
  do dt <- iget $"date" d;
  do (t, p) <- checkDate dt radar;
  Ok (iset $"precTime" (prec_str p) (iset $"obsTime" t d)).
Definition do_checkRa (d : item) : res item :=
  do x <- iget $"raSexagesimal" d;
  do (t, p) <- checkRa x;
  Ok (iset $"precRA" (prec_str p) (iset $"ra" t d)).
Definition do_checkDec (d : item) : res item :=
  do x <- iget $"decSexagesimal" d;
  do (t, p) <- checkDec x;
  Ok (iset $"precDec" (prec_str p) (iset $"dec" t d)).

(** mpc80coltoxml.py:306-325 *)
Definition decode_normal (m : caps) : res item :=
  let ret := common_fields m ++
    [($"raSexagesimal", Some (gs m 8)); ($"decSexagesimal", Some (gs m 9)); ($"bl1", Some (gs m 10));
     ($"mag", Some (gs m 11)); ($"band", Some (gs m 12)); ($"packedref", Some (gs m 13)); ($"stn", Some (gs m 14))] in
  do ret <- do_checkDate false ret;
  do ret <- do_checkRa ret;
  do_checkDec ret.

(** s[0:n] + '.' + s[n:] *)
Definition point_at (n : nat) (s : str) : str := firstn n s ++ $"." ++ skipn n s.

(** mpc80coltoxml.py:328-351; the test of line 345 compares the method strip
    itself with '' and is always true *)
Definition decode_radar1 (m : caps) : res item :=
  do shift <- (if blank (gs m 9) then Ok [] else packSigned (point_at 11 (gs m 9)));
  Ok (common_fields m ++
    [($"delay", Some (if blank (gs m 8) then [] else point_at 5 (gs m 8)));
     ($"shift", Some shift);
     ($"frq", Some (point_at 5 (gs m 10)));
     ($"trx", Some (gs m 11)); ($"packedref", Some (gs m 12)); ($"stn", Some (gs m 13))]).

(** mpc80coltoxml.py:354-374 *)
Definition decode_radar2 (m : caps) : res item :=
  Ok (common_fields m ++
    [($"sc", Some (gs m 8));
     ($"delay uncertainty", Some (if blank (gs m 9) then [] else point_at 10 (gs m 9)));
     ($"shift uncertainty", Some (if blank (gs m 10) then [] else point_at 11 (gs m 10)));
     ($"frq continuation", Some (gs m 11));
     ($"trx", Some (gs m 12)); ($"packedref", Some (gs m 13)); ($"stn", Some (gs m 14))]).

(** m.group(i) != packUtil.unPackSigned(pos, 11, dp) *)
Definition misplaced (field pos : str) (dp : Z) : res bool :=
  do u <- unPackSigned pos 11 dp; Ok (negb (streqb field u)).

(** mpc80coltoxml.py:378-404; "or" stops at the first true condition *)
Definition decode_satellite (m : caps) : res item :=
  do p1 <- packSigned (gs m 9); do p2 <- packSigned (gs m 10); do p3 <- packSigned (gs m 11);
  let km := streqb (gs m 8) $"1" in
  let dp := if km then 7 else 3 in
  do b <- misplaced (gs m 9) p1 dp;
  do b <- (if b then Ok true else misplaced (gs m 10) p2 dp);
  do b <- (if b then Ok true else misplaced (gs m 11) p3 dp);
  if b then Err RuntimeError
  else Ok (common_fields m ++
    [($"parallax_type", Some (gs m 8)); ($"ctr", Some $"399");
     ($"pos1", Some p1); ($"pos2", Some p2); ($"pos3", Some p3);
     ($"sys", Some (if km then $"ICRF_KM" else $"ICRF_AU"));
     ($"packedref", Some (gs m 12)); ($"stn", Some (gs m 13))]).

(** mpc80coltoxml.py:408-422 *)
Definition decode_rover (m : caps) : res item :=
  Ok (common_fields m ++
    [($"sys", Some $"WGS84"); ($"ctr", Some $"399");
     ($"pos1", Some (gs m 8)); ($"pos2", Some (gs m 9)); ($"pos3", Some (gs m 10));
     ($"packedref", Some (gs m 11)); ($"stn", Some (gs m 12))]).

(** mpc80coltoxml.py:304-427: the first pattern that matches *)
Definition decode_data (line : str) : res item :=
  match re_match normalLineRegex line with
  | Some m => decode_normal m
  | None =>
  match re_match radarFirstLineRegex line with
  | Some m => decode_radar1 m
  | None =>
  match re_match radarSecondLineRegex line with
  | Some m => decode_radar2 m
  | None =>
  match re_match satelliteSecondLineRegex line with
  | Some m => decode_satellite m
  | None =>
  match re_match roverSecondLineRegex line with
  | Some m => decode_rover m
  | None => Err RuntimeError
  end end end end end.

(** mpc80coltoxml.py:432-487: sanity checks, catalogue code and designation.
    lineNumber is assigned by the generators before any line is decoded.  The
    trial packing (480-485) only prints. *)
Definition decode_checks (ret : item) : res item :=
  let rdr := match dget $"trx" ret with Some _ => true | None => false end in
  do ret <- do_checkDate rdr ret;
  do code <- iget $"code" ret; do stn <- iget $"stn" ret; do notes <- iget $"notes" ret;
  if negb (sin code validCodes) then Err RuntimeError
  else if negb (sin notes (if smem stn programCodeSites then validProgramCodes else validNotes)) then Err RuntimeError
  else if negb (sin notes validProgramCodes) then Err RuntimeError
  else
    do pref <- iget $"packedref" ret;
    do c <- chat pref 0;
    let ret := iset $"astCat" [c] ret in
    do tid <- iget $"totalid" ret;
    do (pp, trkSub) <- unpackPackedID tid;
    let '(permID, provID) := pp in
    Ok (dset $"trkSub" trkSub (dset $"provID" provID (dset $"permID" permID ret))).

(** mpc80coltoxml.py:225-487 decode80ColumnDataLine *)
Definition decode80 (line : str) : res item :=
  match line with
  | [] => Ok []                                                              (* 281-282 *)
  | _ =>
      if (80 <? length line)%nat then Err RuntimeError                       (* 283-284 *)
      else
        match re_match headerRegex line with
        | Some m => Ok [($"headerKeyword", Some (gs m 1)); ($"headerValue", Some (gs m 2)); ($"code", Some $"0")]
        | None =>
            if negb (Nat.eqb (length line) 80) then Err RuntimeError         (* 295-296 *)
            else do ret <- decode_data line; decode_checks ret
        end
  end.

(** * parseFile *)
(** oldCode and oldLine; oldCode is 'None' when there is nothing to continue *)
Record pstate80 := { p_code : str; p_line : item }.
Definition p_none : pstate80 := {| p_code := $"None"; p_line := [] |}.

(** item[k] of two lines compared *)
Definition same_field (k : str) (a b : item) : res bool :=
  do x <- iget k a; do y <- iget k b; Ok (streqb x y).

(** oldLine[k'] = line[k] *)
Definition copy_field (k k' : str) (line old : item) : res item :=
  do v <- iget k line; Ok (iset k' v old).

(** mpc80coltoxml.py:535-570 the fields of the continuation line.  The warnings of
    lines 538 and 543 refer to a variable i that does not exist: NameError. *)
Definition merge (oldCode : str) (line old : item) : res item :=
  do same1 <- same_field $"totalid" line old;
  do same2 <- (if same1 then same_field $"date" line old else Ok false);
  do same3 <- (if same2 then same_field $"stn" line old else Ok false);
  if negb same3 then Err NameError
  else
    do old <-
      (if streqb oldCode $"R" then
         do same <- same_field $"trx" line old;
         if negb same then Err NameError
         else
           do sc <- iget $"sc" line;
           let old := iset $"sc" sc old in
           let old := if streqb sc $"S" then iset $"com" $"0" old else old in
           let old := if streqb sc $"C" then iset $"com" $"1" old else old in
           do old <- copy_field $"delay uncertainty" $"rmsDelay" line old;
           do old <- copy_field $"shift uncertainty" $"rmsDoppler" line old;
           do old <- copy_field $"frq continuation" $"frq continuation" line old;
           do old <- copy_field $"stn" $"rcv" line old;
           do old <- copy_field $"shift" $"doppler" old old;
           copy_field $"packedref" $"ref" old old
       else Ok old);
    if streqb oldCode $"S" || streqb oldCode $"V" then
      do old <- copy_field $"sys" $"sys" line old;
      do old <- copy_field $"ctr" $"ctr" line old;
      do old <- copy_field $"pos1" $"pos1" line old;
      do old <- copy_field $"pos2" $"pos2" line old;
      copy_field $"pos3" $"pos3" line old
    else Ok old.

(** mpc80coltoxml.py:507-593, one decoded line: the new state and nextThing *)
Definition pair_step (ps : pstate80) (line : item) : res (pstate80 * option item) :=
  do newCode <- iget $"code" line;
  let oldCode := p_code ps in
  let bad := (sin oldCode $"RSV" && negb (streqb newCode (lower oldCode)))
          || (sin newCode $"rsv" && negb (streqb (upper newCode) oldCode)) in
  do nextThing <-
    (if bad then Ok None
     else
       do old <- (if sin oldCode $"RSV" then merge oldCode line (p_line ps) else Ok (p_line ps));
       if sin newCode $"rsv" then Ok (Some old)
       else if negb (sin newCode $"RrSsVv") then Ok (Some line)
       else Ok None);
  Ok (if sin newCode $"RSV" then {| p_code := newCode; p_line := line |} else p_none, nextThing).

(** mpc80coltoxml.py:494-600 parseFile.  The callback works on a state [C]; it
    returns the state it leaves behind, and the exception if there is one.  Lines
    come from a generator: the lines it yields, and how it ends.  RuntimeErrors
    raised while a line is handled are printed, all others end the loop. *)
Section Parse.
  Context {C : Type} (callBack : item -> C -> C * option exn).
  Definition parse_line (l : str) (ps : pstate80) (c : C) : pstate80 * C * option exn :=
    let dataLine := removelast l in                                          (* l[:-1] *)
    match re_match blankRegex dataLine with
    | Some _ => (ps, c, None)
    | None =>
        match (do line <- decode80 dataLine; pair_step ps line) with
        | Err RuntimeError => (ps, c, None)
        | Err e => (ps, c, Some e)
        | Ok (ps', None) => (ps', c, None)
        | Ok (ps', Some thing) =>
            match callBack thing c with
            | (c', Some RuntimeError) => (ps', c', None)
            | (c', e) => (ps', c', e)
            end
        end
    end.
  Fixpoint parse_lines (ls : list str) (ps : pstate80) (c : C) : C * option exn :=
    match ls with
    | [] => (c, None)
    | l :: ls' =>
        match parse_line l ps c with
        | (ps', c', None) => parse_lines ls' ps' c'
        | (_, c', Some e) => (c', Some e)
        end
    end.
  Definition parseFile (gen : list str * option exn) (c : C) : C * option exn :=
    match parse_lines (fst gen) p_none c with
    | (c', None) => (c', snd gen)
    | r => r
    end.
End Parse.

(** * convertit *)
(** mpc80coltoxml.py:611-637 codeTable *)
Inductive codeType := Optical | Offset | Occultation | Rover | Radar | Satellite | Header.
Definition code_table (c : str) : option codeType :=
  match c with
  | [x] =>
      if cmem x $"0" then Some Header
      else if cmem x $"S" then Some Satellite
      else if cmem x $"R" then Some Radar
      else if cmem x $"V" then Some Rover
      else if cmem x $"O" then Some Occultation
      else if cmem x $"E" then Some Offset
      else if cmem x $"A PeCBTMcHNnXs" then Some Optical
      else None
  | _ => None
  end.

(** The globals of the converter.  commentList, obsContextList and
    obsContextSeen are only read after a header line has assigned them. *)
Record cstate := {
  c_stack : estack;
  c_firstElement : bool; c_firstObsBlock : bool; c_inObsBlock : bool;
  c_comments : list str;
  c_context : list (str * list (str * str));      (* obsContextList: (key, None, children) *)
  c_seen : list str }.

Definition cm := cstate -> cstate * option exn.
Definition andthen (a b : cm) : cm :=
  fun s => match a s with (s', None) => b s' | r => r end.
Notation "a ;; b" := (andthen a b) (at level 61, right associativity).
Definition pass : cm := fun s => (s, None).
Definition raise (e : exn) : cm := fun s => (s, Some e).
Definition upd (f : cstate -> cstate) : cm := fun s => (f s, None).
(** a method call on the stack; a call that fails leaves it as it is *)
Definition stk (o : op) : cm := fun s =>
  match run_op o (c_stack s) with
  | Ok st => ({| c_stack := st; c_firstElement := c_firstElement s; c_firstObsBlock := c_firstObsBlock s;
                 c_inObsBlock := c_inObsBlock s; c_comments := c_comments s; c_context := c_context s;
                 c_seen := c_seen s |}, None)
  | Err e => (s, Some e)
  end.
Fixpoint stks (os : list op) : cm := match os with [] => pass | o :: os' => stk o ;; stks os' end.

Definition set_firstElement (b : bool) (s : cstate) : cstate :=
  {| c_stack := c_stack s; c_firstElement := b; c_firstObsBlock := c_firstObsBlock s;
     c_inObsBlock := c_inObsBlock s; c_comments := c_comments s; c_context := c_context s; c_seen := c_seen s |}.
Definition set_firstObsBlock (b : bool) (s : cstate) : cstate :=
  {| c_stack := c_stack s; c_firstElement := c_firstElement s; c_firstObsBlock := b;
     c_inObsBlock := c_inObsBlock s; c_comments := c_comments s; c_context := c_context s; c_seen := c_seen s |}.
Definition set_inObsBlock (b : bool) (s : cstate) : cstate :=
  {| c_stack := c_stack s; c_firstElement := c_firstElement s; c_firstObsBlock := c_firstObsBlock s;
     c_inObsBlock := b; c_comments := c_comments s; c_context := c_context s; c_seen := c_seen s |}.
Definition set_lists (co : list str) (cx : list (str * list (str * str))) (se : list str) (s : cstate) : cstate :=
  {| c_stack := c_stack s; c_firstElement := c_firstElement s; c_firstObsBlock := c_firstObsBlock s;
     c_inObsBlock := c_inObsBlock s; c_comments := co; c_context := cx; c_seen := se |}.

(** mpc80coltoxml.py:710-725 the collected header lines *)
Definition context_ops (cx : list (str * list (str * str))) (co : list str) : list op :=
  flat_map (fun e => OAddPush (fst e) [] [] :: map (fun kv => OAdd (fst kv) (snd kv) []) (snd e) ++ [OPop]) cx
  ++ match co with
     | [] => []
     | _ => OAddPush $"comment" [] [] :: map (fun l => OAdd $"line" l []) co ++ [OPop]
     end.
Definition flush_context : cm := fun s =>
  if c_inObsBlock s then
    (stks (context_ops (c_context s) (c_comments s)) ;; stk (OAddPopPush $"obsData" [] [])
     ;; upd (set_inObsBlock false)) s
  else (s, None).

(** truth value of item[x]; str(item[x]).strip() *)
Definition field_text (d : item) (x : str) : str :=
  match dget x d with Some (Some v) => strip v | _ => [] end.
(** [ (x, str(item[x]).strip()) for x in d if x in item and item[x] and str(item[x]).strip() ]
    (a value that is None or '' has an empty text too) *)
Definition record_fields (al : list str) (d : item) : list (str * str) :=
  flat_map (fun x => match field_text d x with [] => [] | v => [(x, v)] end) al.

(** mpc80coltoxml.py:762-810 the changes made to an optical item *)
Definition optical_item (d : item) : res item :=
  do code <- iget $"code" d;
  let '(code, d) :=
    if sin code $"Xx" then ($"C", iset $"deprecated" $"X" d)
    else if streqb code $"A" then ($"P", iset $"subFrm" $"B1950.0" d)
    else if streqb code $"V" then ($"C", d)
    else if streqb code $"S" then ($"C", d)
    else (code, d) in
  do mode <- match dget code codeDict with Some m => Ok m | None => Err KeyError end;
  let d := iset $"mode" mode d in
  do cat <- iget $"astCat" d;
  let d := iset $"astCat" (match dget cat catCodes with Some v => v | None => $"UNK" end) d in
  do mag <- iget $"mag" d; do band <- iget $"band" d;
  let d := match mag with [] => d | _ => if blank band then iset $"band" $"UNK" d else d end in
  do band <- iget $"band" d;
  let d := match band with [] => d | _ => if blank mag then dset $"band" None d else d end in
  do notes <- iget $"notes" d; do stn <- iget $"stn" d;
  do d <- (if negb (streqb notes $" ") && smem stn programCodeSites
           then do p <- packProgID notes; Ok (iset $"notes" $" " (iset $"prog" p d))
           else Ok d);
  do pref <- iget $"packedref" d;
  do r <- unpackRef (skipn 1 pref);
  Ok (iset $"ref" r d).

(** mpc80coltoxml.py:748-752, 822-826 *)
Definition open_record (ty : str) : cm := fun s =>
  if c_firstElement s then (stk (OAddPush ty [] []) ;; upd (set_firstElement false)) s
  else stk (OAddPopPush ty [] []) s.

(** mpc80coltoxml.py:743-817 *)
Definition convert_optical (T : tables) (d : item) : cm :=
  open_record $"optical" ;;
  match optical_item d with
  | Err e => raise e
  | Ok d' =>
      match dget $"optical" (allowed T) with
      | None => raise KeyError
      | Some al => stk (OAddList (record_fields al d'))
      end
  end.
(** mpc80coltoxml.py:821-832 *)
Definition convert_radar (T : tables) (d : item) : cm :=
  open_record $"radar" ;;
  match dget $"radar" (allowed T) with
  | None => raise KeyError
  | Some al => stk (OAddList (record_fields al d))
  end.

(** s.split(',', 1) *)
Definition split_comma1 (s : str) : list str :=
  match cfind "," s with
  | Some n => [firstn n s; skipn (S n) s]
  | None => [s]
  end.
(** mpc80coltoxml.py:862-893 the entry for a header line; None: not used *)
Definition header_entry (hkey hval : str) : option (str * list (str * str)) :=
  let names l := map (fun n => ($"name", n)) l in
  if streqb hkey $"COD" then Some ($"observatory", [($"mpcCode", hval)])
  else if streqb hkey $"CON" then
    Some ($"submitter",
          match split_comma1 hval with
          | n :: i :: _ => [($"name", n); ($"institution", i)]
          | [n] => [($"name", n)]
          | [] => []
          end)
  else if streqb hkey $"OBS" then Some ($"observers", names (splitc "," hval))
  else if streqb hkey $"MEA" then Some ($"measurers", names (splitc "," hval))
  else if streqb hkey $"TEL" then
    Some ($"telescope", [($"name", hval); ($"design", $"Unknown"); ($"aperture", $"9999"); ($"detector", $"Unknown")])
  else None.

(** mpc80coltoxml.py:835-893 *)
Definition convert_header (d : item) : cm :=
  (fun s =>
     if c_inObsBlock s then (s, None)
     else
       ((if c_firstObsBlock s
         then upd (set_firstObsBlock false) ;; stk (OAddPush $"obsBlock" [] [])
         else stks [OPop; OPop; OAddPopPush $"obsBlock" [] []])
        ;; stk (OAddPush $"obsContext" [] [])
        ;; upd (set_lists [] [] [])) s)
  ;; upd (fun s => set_firstElement true (set_inObsBlock true s))
  ;; (fun s =>
        match iget $"headerKeyword" d, iget $"headerValue" d with
        | Ok hkey, Ok hval =>
            if streqb hkey $"COM" then (set_lists (c_comments s ++ [hval]) (c_context s) (c_seen s) s, None)
            else if smem hkey (c_seen s) then (s, None)
            else (set_lists (c_comments s)
                    (c_context s ++ match header_entry hkey hval with Some e => [e] | None => [] end)
                    (c_seen s ++ [hkey]) s, None)
        | Err e, _ => (s, Some e)
        | _, Err e => (s, Some e)
        end).

(** mpc80coltoxml.py:694-893 convertit *)
Definition convertit (T : tables) (d : item) : cm :=
  match iget $"code" d with
  | Err e => raise e
  | Ok code =>
      let ty := code_table code in
      (match ty with Some Header => pass | _ => flush_context end) ;;
      match ty with
      | Some Rover =>
          match iget $"pos3" d with
          | Err e => raise e
          | Ok p => if blank p then pass else convert_optical T d            (* 737-742 *)
          end
      | Some Optical | Some Satellite | Some Offset | Some Occultation => convert_optical T d
      | Some Radar => convert_radar T d
      | Some Header => convert_header d
      | None => pass
      end
  end.

(** mpc80coltoxml.py:657-676 convertitPreamble *)
Definition c_init : res cstate :=
  do s <- es_init $"ades" [] [($"version", $"2022")];
  Ok {| c_stack := s; c_firstElement := true; c_firstObsBlock := true; c_inObsBlock := false;
        c_comments := []; c_context := []; c_seen := [] |}.

(** * Splitting radar lines *)
(** mpc80coltoxml.py:924-938 parseRadarLine; l[14] is the only thing that can fail *)
Definition parseRadarLine (l : str) : res (str * str * str * str * str * str) :=
  match nth_error l 14 with
  | None => Err RuntimeError
  | Some flag => Ok (slice 0 14 l, [flag], slice 15 34 l, slice 34 47 l, slice 47 61 l, from 61 l)
  end.

(** mpc80coltoxml.py:941-1000 splitRadar: the lines yielded, and how it ends; the
    argument are the lines readline() returns *)
Fixpoint splitRadar (ls : list str) : list str * option exn :=
  match ls with
  | [] => ([], None)
  | l :: rest =>
      let l1 := firstn 81 l in
      match re_match headerRegex l1 with
      | Some _ => let '(o, e) := splitRadar rest in (l1 :: o, e)
      | None =>
          match parseRadarLine l1 with
          | Err e => ([], Some RuntimeError)                                 (* 999-1000 *)
          | Ok (al1, aflag, al2, adoppler, adelay, al3) =>
              if negb (streqb aflag $"R") then
                let '(o, e) := splitRadar rest in (l1 :: o, e)
              else
                match rest with
                | [] => ([], Some RuntimeError)                  (* readline() returns '' *)
                | l' :: rest' =>
                    let l2 := firstn 81 l' in
                    match parseRadarLine l2 with
                    | Err e => ([], Some RuntimeError)
                    | Ok (bl1, bflag, bl2, bdoppler, bdelay, bl3) =>
                        if negb (streqb bflag $"r") then ([], Some RuntimeError)
                        else
                          let '(o, e) := splitRadar rest' in
                          if negb (blank adoppler) && negb (blank adelay) then
                            ((al1 ++ aflag ++ al2 ++ adoppler ++ spaces 14 ++ al3) ::
                             (bl1 ++ bflag ++ bl2 ++ bdoppler ++ spaces 14 ++ bl3) ::
                             (al1 ++ aflag ++ al2 ++ spaces 13 ++ adelay ++ al3) ::
                             (bl1 ++ bflag ++ bl2 ++ spaces 13 ++ bdelay ++ bl3) :: o, e)
                          else (l1 :: l2 :: o, e)
                    end
                end
          end
      end
  end.

(** mpc80coltoxml.py:908-917 doNotSplitRadar *)
Definition doNotSplitRadar (ls : list str) : list str * option exn := (map (firstn 81) ls, None).

(** * mpc80coltoxml *)
Inductive outcome := Written (x : xml)      (* the tree is written and the call returns *)
                   | NotWritten             (* the call returns without having written the file *)
                   | Raised (e : exn).      (* an exception leaves the call *)

(** mpc80coltoxml.py:1005-1018: after any exception the file is parsed once more
    without a callback *)
Definition mpc80coltoxml (T : tables) (nosplit : bool) (content : str) : outcome :=
  let lines := file_lines (univ_newlines content) in
  let gen := if nosplit then doNotSplitRadar lines else splitRadar lines in
  let again := match parseFile (fun _ (c : unit) => (c, None)) gen tt with
               | (_, None) => NotWritten
               | (_, Some e) => Raised e
               end in
  match c_init with
  | Err _ => again
  | Ok c =>
      match parseFile (convertit T) gen c with
      | (c', None) =>
          match es_takeTreeAndClear (c_stack c') with
          | Ok (t, _) => Written t
          | Err _ => again
          end
      | (_, Some _) => again
      end
  end.
