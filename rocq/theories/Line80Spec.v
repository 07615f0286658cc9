(** Vocabulary of C33 and C34: the 80-column lines written from ADES elements. *)
From Verif Require Import JustSpec. From Verif Require Import XmlToMpc80 Mpc80 Mpc80Spec.
Local Open Scope nat_scope.

(** [fill a l fs]: from column a on, l consists of these fields, each with its width *)
Fixpoint fill (a : nat) (l : str) (fs : list (nat * str)) : Prop :=
  match fs with
  | [] => length l + 1 = a
  | (w, v) :: fs' => cols a (a + w - 1) l = v /\ length v = w /\ fill (a + w) l fs'
  end.

(** * The fields of an element: a dictionary of the texts of its children *)
Definition fields := list (str * str).
Definition given (d : fields) (k : str) (default : str) : str := match dget k d with Some v => v | None => default end.
Definition present (d : fields) (k : str) : Prop := dget k d <> None.

(** columns 1-12: an artificial satellite's name, or the packed designation *)
Definition identification (d : fields) (id : str) : Prop :=
  match dget $"artSat" d with
  | Some a => id = padl 12 a
  | None => packTupleID (dget $"permID" d, dget $"provID" d, dget $"trkSub" d) = Ok id
  end.
(** column 14: the program's code if there is a program, or the first note *)
Definition note (d : fields) (n : str) : Prop :=
  match dget $"prog" d with
  | Some ((_ :: _) as p) => unpackProgID p = Ok n
  | _ => n = firstn 1 (given d $"notes" $" ")
  end.
(** column 15 *)
Definition kind_of_line (d : fields) (c : str) : Prop :=
  match dget $"deprecated" d with
  | Some ((_ :: _) as x) => c = x
  | _ =>
      if kmem $"pos1" d then
        (dget $"sys" d = Some $"WGS84" /\ c = $"V") \/
        ((dget $"sys" d = Some $"ICRF_AU" \/ dget $"sys" d = Some $"ICRF_KM") /\ c = $"S")
      else if kmem $"subFrm" d then c = $"A"
      else exists m, dget $"mode" d = Some m /\ dget m reverseCodeDict = Some c
  end.
(** right ascension and declination: the star's at stations 275 and 244 (where the
    texts of the star's position and of the offset are put one after the other) *)
Definition angle (d : fields) (plain star delta : str) (t : str) : Prop :=
  let stn := given d $"stn" [] in
  if streqb stn $"275" then dget star d = Some t
  else if streqb stn $"244" then exists u v, dget star d = Some u /\ dget delta d = Some v /\ t = u ++ v
  else dget plain d = Some t.
(** precision: given, or the default *)
Definition precision (d : fields) (k default : str) (p : fl) : Prop := pyfloat (given d k default) = Ok p.
(** column 71 *)
Definition band_letter (b : str) : str :=
  if smem b [$"Vj"; $"VR"; $"Rc"; $"Ic"; $"Bj"; $"Uj"; $"Gb"; $"Gr"] then firstn 1 b
  else match b with _ :: c :: _ => [c] | _ => b end.
(** column 72 *)
Definition catalogue_letter (n : str) : str := match dget n rCatCodes with Some c => c | None => $" " end.
(** a number in a field of l columns, its point in column p *)
Definition aligned (s : str) (l p : Z) (r : str) : Prop :=
  exists w q, applyPaddingAndJustification s l $"D" p = Ok (r, w, q).

(** The texts that have a width of their own fit. *)
Record fits (o : opts80) (d : fields) : Prop := {
  fit_art : length (given d $"artSat" []) <= 12;
  fit_disc : length (given d $"disc" $" ") = 1;
  fit_deprecated : length (given d $"deprecated" []) <= 1;
  fit_band : given d $"band" $" " <> [];
  fit_stn : length (given d $"stn" []) = 3;
  fit_pos3 : dget $"sys" d = Some $"WGS84" -> length (given d $"pos3" []) <= 5;
  fit_date : forall p w, precision d $"precTime" (o_precTime o) p -> isoToSexDate (given d $"obsTime" []) p = Ok w -> length w = 17;
  fit_ra : forall t p w, angle d $"ra" $"raStar" $"deltaRA" t -> precision d $"precRA" (o_precRA o) p ->
    decRaToSexRa t p = Ok w -> length w = 12;
  fit_dec : forall t p w, angle d $"dec" $"decStar" $"deltaDec" t -> precision d $"precDec" (o_precDec o) p ->
    degDeclToSexDecl t p = Ok w -> length w = 12 }.

(** * The lines of an optical element *)
Definition optical_line (o : opts80) (d : fields) (l id n c date : str) (cat : str) (ref : str) : Prop :=
  exists pt tra pra ra tde pde de mag,
    precision d $"precTime" (o_precTime o) pt /\ isoToSexDate (given d $"obsTime" []) pt = Ok date /\
    angle d $"ra" $"raStar" $"deltaRA" tra /\ precision d $"precRA" (o_precRA o) pra /\ decRaToSexRa tra pra = Ok ra /\
    angle d $"dec" $"decStar" $"deltaDec" tde /\ precision d $"precDec" (o_precDec o) pde /\ degDeclToSexDecl tde pde = Ok de /\
    aligned (given d $"mag" []) 5 3 mag /\
    fill 1 l [(12, id); (1, given d $"disc" $" "); (1, n); (1, c); (17, date); (12, ra); (12, de); (9, spaces 9);
              (5, firstn 5 mag); (1, band_letter (given d $"band" $" ")); (1, cat); (5, ref); (3, given d $"stn" [])].
(** the second line of a roving observer *)
Definition rover_line (d : fields) (l id n date cat ref : str) : Prop :=
  exists a b, aligned (given d $"pos1" []) 11 4 a /\ aligned (given d $"pos2" []) 11 4 b /\
    fill 1 l [(12, id); (1, given d $"disc" $" "); (1, n); (1, $"v"); (17, date); (2, $"1 "); (11, firstn 11 a); (11, firstn 11 b);
              (5, padl 5 (given d $"pos3" [])); (10, spaces 10); (1, cat); (5, ref); (3, given d $"stn" [])].
(** the second line of a satellite: unit 1 (km) or 2 (au) *)
Definition satellite_line (d : fields) (l id n date ref unit : str) (dp : Z) : Prop :=
  exists a b c, unPackSigned (given d $"pos1" []) 11 dp = Ok a /\ unPackSigned (given d $"pos2" []) 11 dp = Ok b /\
    unPackSigned (given d $"pos3" []) 11 dp = Ok c /\
    fill 1 l [(12, id); (1, given d $"disc" $" "); (1, n); (1, $"s"); (17, date); (1, unit); (1, $" "); (11, firstn 11 a); (1, $" ");
              (11, firstn 11 b); (1, $" "); (11, firstn 11 c); (3, spaces 3); (5, ref); (3, given d $"stn" [])].
Definition optical_lines (o : opts80) (d : fields) (ls : list str) : Prop :=
  exists id n c date cat ref l rest,
    identification d id /\ note d n /\ kind_of_line d c /\ dget $"astCat" d = Some cat /\
    packRef (given d $"ref" $" ") = Ok ref /\
    optical_line o d l id n c date (catalogue_letter cat) ref /\ ls = l :: rest /\
    if kmem $"pos1" d then
      exists m, rest = [m] /\
        ((dget $"sys" d = Some $"WGS84" /\ rover_line d m id n date (catalogue_letter cat) ref) \/
         (dget $"sys" d = Some $"ICRF_AU" /\ satellite_line d m id n date ref $"2" 3) \/
         (dget $"sys" d = Some $"ICRF_KM" /\ satellite_line d m id n date ref $"1" 7) \/
         (present d $"deprecated" /\ m = l))
    else rest = [].

(** * The lines of a radar element *)
(** the number's point is in column p (where it is left out) and its digits are within the w columns *)
Definition narrow (s : str) (w p : Z) : Prop := (wid (before_point s) + 1 <= p /\ p - 1 + wid s - wid (before_point s) <= w)%Z.
Definition without (p : nat) (s : str) : str := firstn (p - 1) s ++ skipn p s.
(** a number in w columns whose point, in column p of w + 1, is left out; blanks without a number *)
Definition pointless (d : fields) (k : str) (w : nat) (p : nat) (r : str) : Prop :=
  match dget k d with
  | None => r = spaces w
  | Some s => exists a, aligned s (Z.of_nat (S w)) (Z.of_nat p) a /\ r = without p a
  end.
Record radar_fits (d : fields) : Prop := {
  rf_disc : length (given d $"disc" $" ") = 1;
  rf_notes : length (given d $"notes" $" ") = 1;
  rf_trx : length (given d $"trx" []) = 3;
  rf_rcv : length (given d $"rcv" []) = 3;
  rf_ref : length (given d $"ref" []) = 5;
  rf_delay : forall s, dget $"delay" d = Some s -> narrow s 16 6;
  rf_rmsDelay : forall s, dget $"rmsDelay" d = Some s -> narrow s 15 11;
  rf_rmsDoppler : forall s, dget $"rmsDoppler" d = Some s -> narrow s 16 12;
  rf_frq : forall s, dget $"frq" d = Some s -> narrow s 7 6;
  rf_doppler : forall s a, dget $"doppler" d = Some s -> unPackSigned s 16 12 = Ok a -> length a = 16;
  rf_date : forall w, isoToSexDate (given d $"obsTime" []) (of_Z 1) = Ok w -> length w = 17 }.
Definition radar_lines (d : fields) (ls : list str) : Prop :=
  exists id date delay shift frq rd rs l m,
    packTupleID (dget $"permID" d, dget $"provID" d, dget $"trkSub" d) = Ok id /\
    isoToSexDate (given d $"obsTime" []) (of_Z 1) = Ok date /\
    pointless d $"delay" 15 6 delay /\ pointless d $"rmsDelay" 14 11 rd /\ pointless d $"rmsDoppler" 15 12 rs /\ pointless d $"frq" 6 6 frq /\
    match dget $"doppler" d with None => shift = spaces 15 | Some s => exists a, unPackSigned s 16 12 = Ok a /\ shift = without 12 a end /\
    ls = [l; m] /\
    fill 1 l [(12, id); (1, given d $"disc" $" "); (1, given d $"notes" $" "); (1, $"R"); (17, date); (15, delay); (15, shift); (6, frq);
              (3, given d $"trx" []); (1, $" "); (5, given d $"ref" []); (3, given d $"rcv" [])] /\
    fill 1 m [(12, id); (1, given d $"disc" $" "); (1, given d $"notes" $" "); (1, $"r"); (17, date);
              (1, if streqb (given d $"com" $"0") $"1" then $"C" else $"S"); (14, rd); (15, rs); (6, spaces 6);
              (3, given d $"trx" []); (1, $" "); (5, given d $"ref" []); (3, given d $"rcv" [])].
