(** Model of Python/ades/xmltompc80col.py: element tree to 80-column lines.

    The input is the element tree lxml's parser returns; the result is the text
    written.  Not modelled: comments and processing instructions in the tree, the
    output encoding, and what has been written before an exception. *)
From Verif Require Export Codes SexVals XmlToPsv.

(** the command-line settings: noHeader and the default precisions (448-452, 469-477) *)
Record opts80 := { o_noHeader : bool; o_precTime : str; o_precRA : str; o_precDec : str }.
Definition opts_default : opts80 := Eval vm_compute in
  {| o_noHeader := false; o_precTime := $"1"; o_precRA := $"0.001"; o_precDec := $"0.01" |}.
Definition opts_lowPrec : opts80 := Eval vm_compute in
  {| o_noHeader := false; o_precTime := $"10"; o_precRA := $"0.01"; o_precDec := $"0.1" |}.

(** item[k] *)
Definition kget (k : str) (d : list (str * str)) : res str :=
  match dget k d with Some v => Ok v | None => Err KeyError end.
(** xmltompc80col.py:108-122 hasKeyOrVal *)
Definition hasKeyOrVal (d : list (str * str)) (k v : str) : str :=
  match dget k d with Some x => x | None => v end.
Definition kmem (k : str) (d : list (str * str)) : bool :=
  match dget k d with Some _ => true | None => false end.

(** xmltompc80col.py:130-139 *)
Definition bandconv : list (str * str) := Eval vm_compute in
  [($"Vj", $"V"); ($"VR", $"V"); ($"Rc", $"R"); ($"Ic", $"I"); ($"Bj", $"B"); ($"Uj", $"U"); ($"Gb", $"G"); ($"Gr", $"G")].
(** xmltompc80col.py:180-185 *)
Definition band80 (band : str) : res str :=
  match dget band bandconv with
  | Some ((_ :: _) as b) => Ok b
  | _ => if (1 <? length band)%nat then do c <- chat band 1; Ok [c] else Ok band
  end.
(** xmltompc80col.py:190-194; not stripped when it is looked up *)
Definition astCat80 (cat : str) : res str :=
  if smem (strip cat) (map fst rCatCodes)
  then match dget cat rCatCodes with Some c => Ok c | None => Err KeyError end
  else Ok $" ".
(** adesutility.applyPaddingAndJustification(s, l, 'D', dpos)[0] *)
Definition padD (s : str) (l dpos : Z) : res str :=
  do (r, _, _) <- applyPaddingAndJustification s l $"D" dpos; Ok r.

(** xmltompc80col.py:198-220: the code in column 15 *)
Definition code80 (d : list (str * str)) : res str :=
  match dget $"deprecated" d with
  | Some ((_ :: _) as x) => Ok x
  | _ =>
      if kmem $"pos1" d then
        do sys <- kget $"sys" d;
        if streqb sys $"WGS84" then Ok $"V"
        else if streqb sys $"ICRF_AU" then Ok $"S"
        else if streqb sys $"ICRF_KM" then Ok $"S"
        else Err RuntimeError
      else if kmem $"subFrm" d then Ok $"A"
      else do m <- kget $"mode" d;
           match dget m reverseCodeDict with Some c => Ok c | None => Err KeyError end
  end.

(** the position on the second line of a satellite (237-256) *)
Definition satpos (v : str) (dp : Z) : res str :=
  do r <- unPackSigned v 11 dp; Ok (firstn 11 r).

(** xmltompc80col.py:141-259 printOpticalLine: the lines printed *)
Definition printOpticalLine (o : opts80) (d : list (str * str)) : res (list str) :=
  do packedID <-
    match dget $"artSat" d with
    | Some a => Ok (padl 12 a)
    | None => packTupleID (dget $"permID" d, dget $"provID" d, dget $"trkSub" d)
    end;
  let disc := hasKeyOrVal d $"disc" $" " in
  do n0 <- chat (hasKeyOrVal d $"notes" $" ") 0;
  do precTime <- pyfloat (hasKeyOrVal d $"precTime" (o_precTime o));
  do precRa <- pyfloat (hasKeyOrVal d $"precRA" (o_precRA o));
  do precDec <- pyfloat (hasKeyOrVal d $"precDec" (o_precDec o));
  do obsTime <- kget $"obsTime" d;
  do sexDate <- isoToSexDate obsTime precTime;
  do stn <- kget $"stn" d;
  do (sexRa, sexDecl) <-
    (if streqb stn $"275" then
       do r <- kget $"raStar" d; do ra <- decRaToSexRa r precRa;
       do e <- kget $"decStar" d; do de <- degDeclToSexDecl e precDec; Ok (ra, de)
     else if streqb stn $"244" then
       do r <- kget $"raStar" d; do r' <- kget $"deltaRA" d; do ra <- decRaToSexRa (r ++ r') precRa;
       do e <- kget $"decStar" d; do e' <- kget $"deltaDec" d; do de <- degDeclToSexDecl (e ++ e') precDec; Ok (ra, de)
     else
       do r <- kget $"ra" d; do ra <- decRaToSexRa r precRa;
       do e <- kget $"dec" d; do de <- degDeclToSexDecl e precDec; Ok (ra, de));
  do mag <- padD (hasKeyOrVal d $"mag" []) 5 3;
  let mag := firstn 5 mag in
  do band <- band80 (hasKeyOrVal d $"band" $" ");
  do cat <- kget $"astCat" d;
  do astCat <- astCat80 cat;
  do packedref <- packRef (hasKeyOrVal d $"ref" $" ");
  do notes <- match dget $"prog" d with
              | Some ((_ :: _) as p) => unpackProgID p
              | _ => Ok [n0]
              end;
  do code <- code80 d;
  let head := packedID ++ disc ++ notes in
  let line1 := head ++ code ++ sexDate ++ sexRa ++ sexDecl ++ $"         " ++ mag ++ band ++
               astCat ++ packedref ++ stn in
  if kmem $"pos1" d then
    do sys <- kget $"sys" d;
    if streqb sys $"WGS84" then
      do p1 <- kget $"pos1" d; do p1 <- padD p1 11 4;
      do p2 <- kget $"pos2" d; do p2 <- padD p2 11 4;
      do p3 <- kget $"pos3" d;
      Ok [line1; head ++ $"v" ++ sexDate ++ $"1 " ++ firstn 11 p1 ++ firstn 11 p2 ++ padl 5 p3 ++ $" " ++
                 $"         " ++ astCat ++ packedref ++ stn]
    else if streqb sys $"ICRF_AU" then
      do p1 <- kget $"pos1" d; do p1 <- satpos p1 3;
      do p2 <- kget $"pos2" d; do p2 <- satpos p2 3;
      do p3 <- kget $"pos3" d; do p3 <- satpos p3 3;
      Ok [line1; head ++ $"s" ++ sexDate ++ $"2 " ++ p1 ++ $" " ++ p2 ++ $" " ++ p3 ++ $" " ++ $"  " ++ packedref ++ stn]
    else if streqb sys $"ICRF_KM" then
      do p1 <- kget $"pos1" d; do p1 <- satpos p1 7;
      do p2 <- kget $"pos2" d; do p2 <- satpos p2 7;
      do p3 <- kget $"pos3" d; do p3 <- satpos p3 7;
      Ok [line1; head ++ $"s" ++ sexDate ++ $"1 " ++ p1 ++ $" " ++ p2 ++ $" " ++ p3 ++ $" " ++ $"  " ++ packedref ++ stn]
    else Ok [line1; line1]           (* 257-259: the old sline is printed again *)
  else Ok [line1].

(** s[0:n] + s[n+1:], removing the decimal point *)
Definition drop_at (n : nat) (s : str) : str := firstn n s ++ skipn (S n) s.

(** xmltompc80col.py:261-334 printRadarLine: the lines printed *)
Definition printRadarLine (d : list (str * str)) : res (list str) :=
  do packedID <- packTupleID (dget $"permID" d, dget $"provID" d, dget $"trkSub" d);
  let disc := hasKeyOrVal d $"disc" $" " in
  let notes := hasKeyOrVal d $"notes" $" " in
  do obsTime <- kget $"obsTime" d;
  do sexDate <- isoToSexDate obsTime (of_Z 1);
  do _ <- packRef (hasKeyOrVal d $"ref" $" ");
  do doppler <- unPackSigned (hasKeyOrVal d $"doppler" (spaces 15)) 16 12;
  let doppler := drop_at 11 doppler in
  do rmsDoppler <- padD (hasKeyOrVal d $"rmsDoppler" (spaces 15)) 16 12;
  let rmsDoppler := drop_at 11 rmsDoppler in
  do delay <- padD (hasKeyOrVal d $"delay" (spaces 15)) 16 6;
  let delay := drop_at 5 delay in
  do rmsDelay <- padD (hasKeyOrVal d $"rmsDelay" (spaces 14)) 15 11;
  let rmsDelay := drop_at 10 rmsDelay in
  do frq <- padD (hasKeyOrVal d $"frq" (spaces 7)) 7 6;
  let frq := drop_at 5 frq in
  let scval := hasKeyOrVal d $"com" $"0" in
  let sc := if streqb scval $"1" then Some $"C" else if streqb scval $"0" then Some $"S" else None in
  do trx <- kget $"trx" d; do r <- kget $"ref" d; do rcv <- kget $"rcv" d;
  let line1 := packedID ++ disc ++ notes ++ $"R" ++ sexDate ++ delay ++ doppler ++ frq ++ trx ++ $" " ++ r ++ rcv in
  do sc <- match sc with Some s => Ok s | None => Err UnboundLocalError end;
  Ok [line1; packedID ++ disc ++ notes ++ $"r" ++ sexDate ++ sc ++ rmsDelay ++ rmsDoppler ++ $"      " ++
             trx ++ $" " ++ r ++ rcv].

(** xmltompc80col.py:336-352 printDataDicts *)
Definition print_record (o : opts80) (td : str * list (str * str)) : res (list str) :=
  let '(t, d) := td in
  if streqb t $"optical" || streqb t $"occultation" then printOpticalLine o d
  else if streqb t $"radar" then printRadarLine d
  else Ok [].
Definition print_records (o : opts80) (ds : list (str * list (str * str))) : res (list str) :=
  do ls <- rmap (print_record o) ds; Ok (concat ls).

(** ', '.join of the texts of the children with the given tags *)
Definition kid_texts (tags : list str) (e : xml) : list str :=
  flat_map (fun j => let '(t, x) := getElementTagText j in if smem t tags then [x] else []) (xkids e).
(** xmltompc80col.py:356-415 processObsContext: the lines printed *)
Definition context_entry80 (i : xml) : list str :=
  let tag := xtag i in
  if streqb tag $"comment" then map (fun x => $"COM " ++ x) (kid_texts [$"line"] i)
  else if streqb tag $"observatory" then map (fun x => $"COD " ++ x) (kid_texts [$"mpcCode"] i)
  else if streqb tag $"telescope" then map (fun x => $"TEL " ++ x) (kid_texts [$"name"] i)
  else if streqb tag $"submitter" then [$"CON " ++ joinc $", " (kid_texts [$"name"; $"institution"] i)]
  else if streqb tag $"observers" then [$"OBS " ++ joinc $", " (kid_texts [$"name"] i)]
  else if streqb tag $"measurers" then [$"MEA " ++ joinc $", " (kid_texts [$"name"] i)]
  else [].
Definition processObsContext80 (e : xml) : list str := flat_map context_entry80 (xkids e).

(** the global dataDicts *)
Definition dataDicts := list (str * list (str * str)).
(** xmltompc80col.py:21-37 processDataElement *)
Definition processDataElement80 (first : bool) (e : xml) (g : dataDicts) : dataDicts :=
  (if first then [] else g) ++ [(xtag e, subDict_of e)].

(** xmltompc80col.py:51-62: the grandchildren; [first], [ty] are first, obsDataType *)
Fixpoint block_data80 (T : tables) (es : list xml) (first : bool) (ty : str) (g : dataDicts) : res (bool * str * dataDicts) :=
  match es with
  | [] => Ok (first, ty, g)
  | e :: es' =>
      do ty' <- (if first then
                   match dget $"obsData" (allowed T) with
                   | None => Err KeyError
                   | Some ok => if smem (xtag e) ok then Ok (xtag e) else Err RuntimeError
                   end
                 else if streqb (xtag e) ty then Ok ty else Err RuntimeError);
      block_data80 T es' false ty' (processDataElement80 first e g)
  end.
(** xmltompc80col.py:40-62 processObsBlock *)
Fixpoint block_kids80 (T : tables) (o : opts80) (es : list xml) (first : bool) (ty : str) (g : dataDicts) (out : list str)
  : res (dataDicts * list str) :=
  match es with
  | [] => Ok (g, out)
  | e :: es' =>
      match dget $"obsBlock" (allowed T) with
      | None => Err KeyError
      | Some ok =>
          if negb (smem (xtag e) ok) then Err RuntimeError
          else if streqb (xtag e) $"obsContext" && negb (o_noHeader o)
          then block_kids80 T o es' first ty g (out ++ processObsContext80 e)
          else if streqb (xtag e) $"obsData" then
            do (ft, g') <- block_data80 T (xkids e) first ty g;
            let '(first', ty') := ft in block_kids80 T o es' first' ty' g' out
          else block_kids80 T o es' first ty g out
      end
  end.
Definition processObsBlock80 (T : tables) (o : opts80) (e : xml) (g : dataDicts) : res (dataDicts * list str) :=
  block_kids80 T o (xkids e) true [] g [].

(** xmltompc80col.py:87-104: the children of the root; [last] is lastDataTagType *)
Fixpoint ades_kids80 (T : tables) (o : opts80) (es : list xml) (last : option str) (g : dataDicts) (out : list str)
  : res (dataDicts * list str) :=
  match es with
  | [] => Ok (g, out)
  | e :: es' =>
      match dget $"ades" (allowed T) with
      | None => Err KeyError
      | Some ok =>
          if negb (smem (xtag e) ok) then Err RuntimeError
          else if streqb (xtag e) $"obsBlock" then
            do ls <- print_records o g;
            do (g', ls') <- processObsBlock80 T o e g;
            ades_kids80 T o es' (Some (xtag e)) g' (out ++ ls ++ ls')
          else
            let same := match last with Some t => streqb (xtag e) t | None => false end in
            do ls <- (if same then Ok [] else print_records o g);
            ades_kids80 T o es' (Some (xtag e)) (processDataElement80 (negb same) e g) (out ++ ls)
      end
  end.

(** xmltompc80col.py:67-106 processAdesElement, 431-446 xmltompc80col: the lines *)
Definition xmltompc80col_lines (T : tables) (o : opts80) (t : xml) : res (list str) :=
  if negb (streqb (xtag t) $"ades") then Err RuntimeError
  else
    do (g, ls) <- ades_kids80 T o (xkids t) None [] [];
    do ls' <- print_records o g;
    Ok (ls ++ ls').
Definition xmltompc80col (T : tables) (o : opts80) (t : xml) : res str :=
  do ls <- xmltompc80col_lines T o t; Ok (concat (map (fun l => l ++ [nl]) ls)).
