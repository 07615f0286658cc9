(** Model of Python/ades/sexVals.py.  The counters (_countNormal, ...) and
    printCounts are not modelled: they are never read by a conversion. *)
From Verif Require Export PyFloat PyRe.

(** the precisions that occur: an int, the float 0.6, and 10.0 ** (-n).
    Assumption about libm: 10.0 ** (-n) is the float nearest to 10^-n. *)
Inductive prec := PInt (z : Z) | PHund | PTen (n : nat).
Definition f06 : fl := Eval vm_compute in of_Q (6 # 10).
Definition prec_fl (p : prec) : fl :=
  match p with
  | PInt z => of_Z z
  | PHund => f06
  | PTen n => of_Q (decimal 1 (- Z.of_nat n))
  end.
(** str(prec) *)
Definition prec_str (p : prec) : str :=
  match p with
  | PInt z => dec z
  | PHund => $"0.6"
  | PTen O => $"1.0"
  | PTen n => if (n <=? 4)%nat then $"0." ++ zfill n $"1" else $"1e-" ++ zfill 2 (dec (Z.of_nat n))
  end.

(** sexVals.py:62-66 *)
Definition re_normal : re := Eval vm_compute in re_compile $"^\s*(\d{1,2})\s+(\d{1,2})\s+(\d{1,2}\.(\d*))\s*$".
Definition re_intsec : re := Eval vm_compute in re_compile $"^\s*(\d{1,2})\s+(\d{1,2})\s+(\d{1,2})\s*$".
Definition re_minhund : re := Eval vm_compute in re_compile $"^\s*(\d{1,2})\s+(\d{1,2}\.\d{2})\s*$".
Definition re_minten : re := Eval vm_compute in re_compile $"^\s*(\d{1,2})\s+(\d{1,2}\.\d)\s*$".
Definition re_intmin : re := Eval vm_compute in re_compile $"^\s*(\d{1,2})\s+(\d{1,2})\s*$".

(** the group exists in every match of the patterns below *)
Definition gs (c : caps) (i : nat) : str := match grp c i with Some s => s | None => [] end.

(** (hours, minutes, seconds, precision); the ints are converted to float where
    they are used, which is exact *)
Definition sexag := (Z * fl * fl * prec)%type.
(** sexVals.py:73-121 the actions *)
Definition actionNormal (m : caps) : res sexag :=
  do hh <- py_int (gs m 1); do mm <- py_int (gs m 2); do ss <- pyfloat (gs m 3);
  Ok (hh, of_Z mm, ss, PTen (length (gs m 4))).
Definition actionIntegerSeconds (m : caps) : res sexag :=
  do hh <- py_int (gs m 1); do mm <- py_int (gs m 2); do ss <- py_int (gs m 3);
  Ok (hh, of_Z mm, of_Z ss, PInt 1).
Definition actionMinutesHundredths (m : caps) : res sexag :=
  do hh <- py_int (gs m 1); do mm <- pyfloat (gs m 2); Ok (hh, mm, of_Z 0, PHund).
Definition actionMinutesTenths (m : caps) : res sexag :=
  do hh <- py_int (gs m 1); do mm <- pyfloat (gs m 2); Ok (hh, mm, of_Z 0, PInt 6).
Definition actionIntegerMinutes (m : caps) : res sexag :=
  do hh <- py_int (gs m 1); do mm <- py_int (gs m 2); Ok (hh, of_Z mm, of_Z 0, PInt 60).

(** sexVals.py:123-152 checkSexagesimal: the first pattern that matches *)
Definition checks : list (re * (caps -> res sexag)) :=
  [(re_normal, actionNormal); (re_intsec, actionIntegerSeconds); (re_minhund, actionMinutesHundredths);
   (re_minten, actionMinutesTenths); (re_intmin, actionIntegerMinutes)].
Fixpoint first_check (cs : list (re * (caps -> res sexag))) (line : str) : res sexag :=
  match cs with
  | [] => Err RuntimeError
  | (r, act) :: cs' => match re_match r line with Some m => act m | None => first_check cs' line end
  end.
Definition checkSexagesimal (line : str) : res sexag := first_check checks line.

(** * Right ascension *)
(** sexVals.py:383-384 *)
Definition secToDegrees : fl := Eval vm_compute in fdiv (of_Z 360) (of_Z 86400).
Definition arcsecToDegrees : fl := Eval vm_compute in fdiv (of_Z 1) (of_Z 3600).

(** -int(math.floor(math.log10(prec*unit))), at least 1 (396-398, 465-467) *)
Definition out_digits (p : prec) (unit : fl) : Z :=
  let d := - floor_log10 (fmag (fmul (prec_fl p) unit)) in
  if d <? 1 then 1 else d.

(** sexVals.py:386-404 sexRaToDecRa *)
Definition sexRaToDecRa (sexRa : str) : res (str * prec) :=
  do (hms, p) <- checkSexagesimal sexRa;
  let '(hours, minutes, seconds) := hms in
  let digits := out_digits p secToDegrees in
  let value := fmul (fadd (fadd (fmul (of_Z hours) (of_Z 3600)) (fmul minutes (of_Z 60))) seconds) secToDegrees in
  Ok (fmtf (Z.to_nat digits) value, p).

(** '{0:.0f}'.format(100+n)[1:] for an int n *)
Definition two (n : Z) : str := tl (fmtf 0 (of_Z (100 + n))).
(** '{0:.nf}'.format(100.0+x)[1:] *)
Definition twof (n : nat) (x : fl) : str := tl (fmtf n (fadd (of_Z 100) x)).
(** the last lines of decRaToSexRa and degDeclToSexDecl: pdig = -int(math.log10(prec));
    a negative pdig is refused by format() (ValueError) and so is the logarithm
    of a number that is not positive *)
Definition seconds_text (x p : fl) : res str :=
  if Qle_bool (fval p) 0 then Err ValueError
  else let pdig := - int_log10 (fmag p) in
       if pdig <? 0 then Err ValueError else Ok (twof (Z.to_nat pdig) x).

(** sexVals.py:406-432 decRaToSexRa *)
Definition decRaToSexRa (decRa : str) (p : fl) : res str :=
  do f <- pyfloat decRa;
  let rev := fdiv f secToDegrees in
  let revDeg := fint (fdiv rev (of_Z 3600)) in
  let rev := fsub rev (fmul (of_Z revDeg) (of_Z 3600)) in
  let minutes := fdiv rev (of_Z 60) in
  do revstr <-
    (if feqb p f06 then Ok (two revDeg ++ $" " ++ twof 2 minutes)
     else if feqb p (of_Z 6) then Ok (two revDeg ++ $" " ++ twof 1 minutes)
     else if feqb p (of_Z 60) then Ok (two revDeg ++ $" " ++ twof 0 minutes)
     else
       let revMin := fint minutes in
       let rev := fsub rev (fmul (of_Z revMin) (of_Z 60)) in
       do st <- seconds_text rev p;
       Ok (two revDeg ++ $" " ++ two revMin ++ $" " ++ st));
  Ok (padr 12 revstr).

(** sexVals.py:434-446 checkRa: the values of rdict['ra'] and rdict['precRA'] *)
Definition checkRa (ra : str) : res (str * prec) :=
  do (decRa, p) <- sexRaToDecRa ra;
  do revstr <- decRaToSexRa decRa (prec_fl p);
  if streqb revstr ra then Ok (decRa, p) else Err RuntimeError.

(** * Declination *)
(** sexVals.py:448-472 sexDeclToDecDecl *)
Definition sexDeclToDecDecl (sexDec : str) : res (str * prec) :=
  match sexDec with
  | [] => Err IndexError
  | sign :: rest =>
      if negb (ceqb sign "+" || ceqb sign "-") then Err RuntimeError
      else
        let signval := if ceqb sign "-" then of_Z (-1) else of_Z 1 in
        do (dms, p) <- checkSexagesimal rest;
        let '(degrees, minutes, seconds) := dms in
        let digits := out_digits p arcsecToDegrees in
        let value := fmul signval (fadd (fadd (of_Z degrees) (fdiv minutes (of_Z 60))) (fdiv seconds (of_Z 3600))) in
        Ok (fmtf (Z.to_nat digits) value, p)
  end.

(** sexVals.py:474-504 degDeclToSexDecl; float() of a text without characters
    fails before sexDecl[0] is looked at *)
Definition degDeclToSexDecl (decl : str) (p : fl) : res str :=
  do f <- pyfloat decl;
  let rev := fdiv f arcsecToDegrees in
  let '(revSign, rev) :=
    if fltb rev (of_Z 0) then ($"-", fopp rev)
    else (match decl with c :: _ => if ceqb c "-" then $"-" else $"+" | [] => $"+" end, rev) in
  let revDeg := fint (fdiv rev (of_Z 3600)) in
  let rev := fsub rev (fmul (of_Z revDeg) (of_Z 3600)) in
  let minutes := fdiv rev (of_Z 60) in
  do revstr <-
    (if feqb p f06 then Ok (revSign ++ two revDeg ++ $" " ++ twof 2 minutes)
     else if feqb p (of_Z 6) then Ok (revSign ++ two revDeg ++ $" " ++ twof 1 minutes)
     else if feqb p (of_Z 60) then Ok (revSign ++ two revDeg ++ $" " ++ twof 0 minutes)
     else
       let revMin := fint (fdiv (fadd rev (fmul (of_Q (1 # 2)) p)) (of_Z 60)) in
       let rev := fsub rev (fmul (of_Z revMin) (of_Z 60)) in
       do st <- seconds_text rev p;
       Ok (revSign ++ two revDeg ++ $" " ++ two revMin ++ $" " ++ st));
  Ok (padr 12 revstr).

(** sexVals.py:506-521 checkDec: rdict['dec'] and rdict['precDec'] *)
Definition checkDec (d : str) : res (str * prec) :=
  do (decDeg, p) <- sexDeclToDecDecl d;
  do revstr <- degDeclToSexDecl decDeg (prec_fl p);
  if streqb revstr d then Ok (decDeg, p) else Err RuntimeError.

(** * Dates *)
(** datetime.datetime, as far as it is used: the proleptic Gregorian calendar *)
Definition is_leap (y : Z) : bool := (y mod 4 =? 0) && (negb (y mod 100 =? 0) || (y mod 400 =? 0)).
Definition month_days (y m : Z) : Z :=
  if m =? 2 then (if is_leap y then 29 else 28)
  else if (m =? 4) || (m =? 6) || (m =? 9) || (m =? 11) then 30 else 31.
Record date := { d_y : Z; d_m : Z; d_d : Z }.
(** datetime(y, m, d) *)
Definition mk_date (y m d : Z) : res date :=
  if (1 <=? y) && (y <=? 9999) && (1 <=? m) && (m <=? 12) && (1 <=? d) && (d <=? month_days y m)
  then Ok {| d_y := y; d_m := m; d_d := d |} else Err ValueError.
Definition next_day (t : date) : res date :=
  let '(y, m, d) := (d_y t, d_m t, d_d t) in
  if d <? month_days y m then Ok {| d_y := y; d_m := m; d_d := d + 1 |}
  else if m <? 12 then Ok {| d_y := y; d_m := m + 1; d_d := 1 |}
  else if y <? 9999 then Ok {| d_y := y + 1; d_m := 1; d_d := 1 |}
  else Err OverflowError.
Fixpoint add_days (n : nat) (t : date) : res date :=
  match n with O => Ok t | S n' => do t' <- next_day t; add_days n' t' end.
(** timedelta(seconds=s) in microseconds, for a float s >= 0: whole seconds, and
    the rest times 1e6 rounded half to even *)
Definition timedelta_us (s : fl) : Z :=
  let whole := Qfloor (fmag s) in
  let rest := rnd ((fmag s - inject_Z whole) * inject_Z 1000000)%Q in
  whole * 1000000 + rheQ rest.
(** date + timedelta: the new date and the microseconds in the day *)
Definition add_us (t : date) (us : Z) : res (date * Z) :=
  let day := 86400 * 1000000 in
  do t' <- add_days (Z.to_nat (us / day)) t; Ok (t', us mod day).

Definition d2 (n : Z) : str := zfill 2 (dec n).
(** strftime("%Y-%m-%dT%H:%M:%S"); %Y is not padded for years before 1000 *)
Definition iso_text (t : date) (us : Z) : str :=
  let s := us / 1000000 in
  dec (d_y t) ++ $"-" ++ d2 (d_m t) ++ $"-" ++ d2 (d_d t) ++ $"T" ++
  d2 (s / 3600) ++ $":" ++ d2 (s / 60 mod 60) ++ $":" ++ d2 (s mod 60).
(** strftime("%Y %m %d") *)
Definition sex_text (t : date) : str := dec (d_y t) ++ $" " ++ d2 (d_m t) ++ $" " ++ d2 (d_d t).

(** sexVals.py:174; groups: 1 year, 2 century, 3 month, 4 days, 5 day, 6 fractional_day *)
Definition re_date : re := Eval vm_compute in
  re_compile $"^(?P<year>(?P<century>16|17|18|19|[2-9]\d)\d\d) (?P<month>0[1-9]|10|11|12) (?P<days>(?P<day>0[1-9]|[12]\d|30|31)\.(?P<fractional_day>\d+)) *$".

(** 10.0**(6-k), an int when it is not below 1 (262-264) *)
Definition date_prec (k : nat) : prec :=
  if (k <=? 6)%nat then PInt (10 ^ (6 - Z.of_nat k)) else PTen (k - 6).

(** sexVals.py:223-324 sexDateToISO: (isoDate, prec, oldfracdd) *)
Definition sexDateToISO (sexDate : str) (intsec microsec mpc_rounding : bool) : res (str * prec * str) :=
  match re_match re_date sexDate with
  | None => Err RuntimeError
  | Some m =>
      do year <- py_int (gs m 1); do month <- py_int (gs m 3); do day <- py_int (gs m 5);
      let frac := gs m 6 in
      let oldfracdd := $"." ++ frac in
      do x <- pyfloat oldfracdd;
      let seconds := fmul x (of_Z 86400) in
      let p := date_prec (length frac) in
      let digits : Z :=
        if intsec then 0
        else if microsec then 6
        else if mpc_rounding then 3
        else Z.min (Z.max 0 (2 - (6 - Z.of_nat (length frac)))) 6 in
      let seconds := if digits =? 0 then of_Z (fround seconds) else seconds in
      do dt <- mk_date year month day;
      do (t, us) <- add_us dt (timedelta_us seconds);
      let tail :=
        if digits =? 0 then []
        else $"." ++ zfill (Z.to_nat digits)
                      (dec (fround (fmul (fsub seconds (of_Z (fint seconds))) (of_Z (10 ^ digits))))) in
      Ok (iso_text t us ++ tail ++ $"Z", p, oldfracdd)
  end.

(** datetime.strptime with "%Y-%m-%dT%H:%M:%S.%fZ" or "%Y-%m-%dT%H:%M:%SZ":
    CPython's regular expression for the format (ignoring case); the match must
    be the whole string.  Group 1 is the whole match. *)
Definition re_isof : re := Eval vm_compute in
  re_compile $"((\d\d\d\d)-(1[0-2]|0[1-9]|[1-9])-(3[0-1]|[1-2]\d|0[1-9]|[1-9]| [1-9])[Tt](2[0-3]|[0-1]\d|\d):([0-5]\d|\d):(6[0-1]|[0-5]\d|\d)\.([0-9]{1,6})[Zz])".
Definition re_iso : re := Eval vm_compute in
  re_compile $"((\d\d\d\d)-(1[0-2]|0[1-9]|[1-9])-(3[0-1]|[1-2]\d|0[1-9]|[1-9]| [1-9])[Tt](2[0-3]|[0-1]\d|\d):([0-5]\d|\d):(6[0-1]|[0-5]\d|\d)[Zz])".
(** the date and the microseconds in the day *)
Definition strptime (r : re) (s : str) : res (date * Z) :=
  match re_match r s with
  | None => Err ValueError
  | Some m =>
      if negb (Nat.eqb (length (gs m 1)) (length s)) then Err ValueError
      else
        do y <- py_int (gs m 2); do mo <- py_int (gs m 3); do d <- py_int (gs m 4);
        do h <- py_int (gs m 5); do mi <- py_int (gs m 6); do sec <- py_int (gs m 7);
        let f := gs m 8 in
        let us := decval (f ++ repeat "0"%char (6 - length f)) in
        do t <- mk_date y mo d;
        if 59 <? sec then Err ValueError
        else Ok (t, (h * 3600 + mi * 60 + sec) * 1000000 + us)
  end.

(** sexVals.py:326-361 isoToSexDate *)
Definition isoToSexDate (isodate : str) (p : fl) : res str :=
  do (t, us) <- match strptime re_isof isodate with
                | Err _ => strptime re_iso isodate          (* only ValueError is possible *)
                | x => x
                end;
  let seconds := us / 1000000 in
  let micro := us mod 1000000 in
  let fracdd := fadd (fdiv (of_Z seconds) (of_Z 86400)) (fdiv (fdiv (of_Z micro) (of_Z 86400)) (of_Z 1000000)) in
  if Qle_bool (fval p) 0 then Err ValueError
  else
    let n := 6 - int_log10 (fmag p) in
    let n := if n <=? 0 then 1 else n in
    match splitc "." (fmtf (Z.to_nat n) fracdd) with
    | _ :: fr :: _ => Ok (sex_text t ++ $"." ++ padr 6 fr)
    | _ => Err IndexError
    end.

(** sexVals.py:364-380 checkDate: rdict['obsTime'] and rdict['precTime'] *)
Definition checkDate (date : str) (radar : bool) : res (str * prec) :=
  do (ip, fracdd) <- sexDateToISO date radar false true;
  let '(dateiso, p) := ip in
  if fltb (prec_fl p) (of_Z 1) then Err RuntimeError
  else
    do sexdate <- isoToSexDate dateiso (prec_fl p);
    if streqb sexdate date then Ok (dateiso, p) else Err RuntimeError.
