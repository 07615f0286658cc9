(** Model of Python/ades/packUtil.py (identifier packing, references, program codes). *)
From Verif Require Export PyRe.

(** ** helpers for match objects *)
(** m.group(i) used where None would raise TypeError *)
Definition gstr (g : caps) (i : nat) : res str :=
  match grp g i with Some s => Ok s | None => Err TypeError end.
(** int(m.group(i)) *)
Definition gint (g : caps) (i : nat) : res Z := do s <- gstr g i; py_int s.
(** truth value of m.group(i): a non-empty string *)
Definition gtrue (g : caps) (i : nat) : bool :=
  match grp g i with Some (_ :: _) => true | _ => false end.
(** truth value of an optional string *)
Definition otrue (o : option str) : bool := match o with Some (_ :: _) => true | _ => false end.

(** ** Tables *)

(** packUtil.py:60 programCodesArray *)
Definition programCodesArray : str := Eval vm_compute in
  $"0123456789!""#$%&'()*+,-./[\]^_`{|}~:;<=>?@ABCDEFGHIJKLMNOPQRSTUVWXYZabcdefghijklmnopqrstuvwxyz".
(** packUtil.py:61 *)
Definition validProgramCodes : str := " "%char :: programCodesArray.
(** packUtil.py:51 *)
Definition validCodes : str := Eval vm_compute in $"A PeCBTMcEOHNnRrSsVvXx0".
(** packUtil.py:55 *)
Definition validNotes : str := Eval vm_compute in
  $" AaBbcDdEFfGgGgHhIiJKkMmNOoPpRrSsTtUuVWwYyCQXZ2345vzjeL16789".

(** packUtil.py:576 packLetters *)
Definition packLetters : str := Eval vm_compute in
  $"0123456789ABCDEFGHIJKLMNOPQRSTUVWXYZabcdefghijklmnopqrstuvwxyz".

(** packUtil.py:577-584 unpackLetters: dictionary from each character of
    packLetters to its position; KeyError for any other character *)
Definition unpackLetter (c : ascii) : res Z :=
  match cfind c packLetters with Some n => Ok (Z.of_nat n) | None => Err KeyError end.

(** s[i] for a non-negative constant i *)
Definition chat (s : str) (i : nat) : res ascii :=
  match nth_error s i with Some c => Ok c | None => Err IndexError end.

(** ** radix62_4, packUtil.py:586-592.  The loop runs four times. *)
Fixpoint radix62_loop (k : nat) (mp : Z) (packed : str) : str :=
  match k with
  | O => packed
  | S k' =>
      let digit := mp mod 62 in
      (* 0 <= digit < 62, so packLetters[digit] never raises *)
      radix62_loop k' (mp / 62) (nth (Z.to_nat digit) packLetters "?"%char :: packed)
  end.
Definition radix62_4 (mp : Z) : str := "~"%char :: radix62_loop 4 mp [].

(** unRadix62_4, packUtil.py:594-599 *)
Definition unRadix62_4 (s : str) : res Z :=
  do c1 <- chat s 1; do u1 <- unpackLetter c1;
  do c2 <- chat s 2; do u2 <- unpackLetter c2;
  do c3 <- chat s 3; do u3 <- unpackLetter c3;
  do c4 <- chat s 4; do u4 <- unpackLetter c4;
  Ok (((u1 * 62 + u2) * 62 + u3) * 62 + u4).

(** ** Regular expressions; the text is copied from packUtil.py *)
(** packUtil.py:450-454 *)
Definition minorplanetProvIDRegex : re := Eval vm_compute in
  re_compile $"^(\d{2})(\d{2}) ([A-HJ-Y])([A-HJ-Z])(\d+)?$".
Definition minorplanetSurveyProvIDRegex : re := Eval vm_compute in
  re_compile $"^(\d{4}) (P-L|T-1|T-2|T-3)$".
Definition cometProvIDRegex : re := Eval vm_compute in
  re_compile $"^([ACDPX])/(\d{4}) ([A-Z])([A-Z])?(\d*)$".
Definition cometfragmentProvIDRegex : re := Eval vm_compute in
  re_compile $"^([CDPX])/(\d{4}) ([A-Z])(\d*)-([A-Z])$".
Definition satelliteProvIDRegex : re := Eval vm_compute in
  re_compile $"^S/(\d{4}) ([JSUN]) (\d+)$".
(** packUtil.py:456-460 *)
Definition minorplanetPermIDRegex : re := Eval vm_compute in re_compile $"^(\d+)$".
Definition cometPermIDRegex : re := Eval vm_compute in re_compile $"^(\d+)([PDI])$".
Definition cometfragmentPermIDRegex : re := Eval vm_compute in
  re_compile $"^(\d+)([PDI])-([A-Z]{1,2})$".
Definition satellitePermIDRegex : re := Eval vm_compute in
  re_compile $"^(Jupiter|Saturn|Uranus|Neptune) (\d+)$".
Definition asteroidsatellitePermIDRegex : re := Eval vm_compute in
  re_compile $"^\((\d+|\d{4} [A-Z]{2}\d+)\) (\d+)$".
(** packUtil.py:489-490 *)
Definition trksubRegex : re := Eval vm_compute in re_compile $"^([-A-Za-z0-9]{0,8})$".
(** packUtil.py:511-517 (pieces concatenated) *)
Definition minorplanetPackedIDRegex : re := Eval vm_compute in re_compile (
  $"^(?: {5}|([0-9A-Za-z])(\d{4})|(~[0-9A-Za-z]{4}))" ++
  $"(?:" ++ $"([I-K])(\d{2})([A-HJ-Y])([a-zA-Z0-9])(\d)(?:([A-HJ-Z])|0)" ++ $"|"
         ++ $"(PL|T1|T2|T3)S(\d{4})" ++ $"|"
         ++ $"([-A-Za-z0-9]{0,8})" ++ $" *|"
         ++ $"(_)([P-Z])([A-HJ-Y])([0-9A-Za-z]{4})" ++ $"|"
         ++ $" *"
  ++ $")$").
(** packUtil.py:539-543 *)
Definition cometPackedIDRegex : re := Eval vm_compute in re_compile (
  $"^(?: {4}|(\d{4}))([APCDXI])"
  ++ $"(?:" ++ $"([0-9A-Za-z])(\d{2})([A-HJ-Y])([a-zA-Z0-9])(\d)(?:0|([A-Z])|([a-z]))" ++ $"|"
            ++ $"     ([a-z ])([a-z])" ++ $"|"
            ++ $" *$"
  ++ $")$").
(** packUtil.py:558-561 *)
Definition satellitePackedIDRegex : re := Eval vm_compute in re_compile (
  $"^(?: {4}|([JSUN])(\d{3}))S"
  ++ $"(?:" ++ $"([0-9A-Za-z])(\d{2})([JSUN])([a-zA-Z0-9])(\d)0$" ++ $"|"
            ++ $" *$"
  ++ $")$").

(** planetNameDict, packUtil.py:566-571 *)
Definition planetName (c : ascii) : res str :=
  if ceqb c "J" then Ok $"Jupiter"
  else if ceqb c "S" then Ok $"Saturn"
  else if ceqb c "U" then Ok $"Uranus"
  else if ceqb c "N" then Ok $"Neptune"
  else Err KeyError.

Definition triple : Type := option str * option str * option str.

(** unpackLetters[m.group(i)]: a dictionary lookup by a whole string; only
    one-character strings are keys *)
Definition gletter (g : caps) (i : nat) : res Z :=
  do s <- gstr g i;
  match s with [c] => unpackLetter c | _ => Err KeyError end.

(** s = '' if n == 0 else str(n): packUtil.py:699-702, 774-777, 813-816 *)
Definition nstr (n : Z) : str := if n =? 0 then [] else dec n.

Definition order_letters : str := Eval vm_compute in $"ABCDEFGHJKLMNOPQRSTUVWXYZ".

(** ** unpackPackedID, packUtil.py:603-822, in its three consecutive parts.
    State: (permID, provID, trkSub). *)

(** packUtil.py:625-729: minor planet part.  Only RuntimeError is raised
    explicitly; the rest follow the dictionary/index accesses. *)
Definition unpack_minor (packedID : str) : res triple :=
  match re_match minorplanetPackedIDRegex packedID with
  | None => Ok (None, None, None)
  | Some g =>
      let trkSub := grp g 12 in
      do permID <-
        (if gtrue g 1 || gtrue g 3 then
           do n <- (if gtrue g 1 then
                      do d <- gint g 2; do u <- gletter g 1; Ok (d + 10000 * u)
                    else
                      do s <- gstr g 3; do v <- unRadix62_4 s; Ok (620000 + v));
           if n =? 0 then Err RuntimeError else Ok (Some (dec n))
         else Ok None);
      do provID <-
        (if gtrue g 4 then
           do u <- gletter g 4; do yy <- gint g 5;
           let year := dec (u * 100 + yy) in
           do cl <- gletter g 7; do cn <- gint g 8;
           let ns := nstr (cl * 10 + cn) in
           do hm <- gstr g 6;
           if gtrue g 9 then
             do o <- gstr g 9; Ok (Some (year ++ $" " ++ hm ++ o ++ ns))
           else Ok (Some ($"A/" ++ year ++ $" " ++ hm ++ ns))
         else if gtrue g 13 then
           do u <- gletter g 14;
           let year := dec (20 * 100 + u) in
           do s <- gstr g 16;
           do v <- unRadix62_4 ("~"%char :: s);   (* same arithmetic as lines 712-715 *)
           let n := 15500 + v in
           let order := n mod 25 in
           (* int((n - order) / 25): n < 2^53 and 25 divides n - order, exact *)
           let cycle := dec ((n - order) / 25) in
           do ol <- pyindex order_letters order;
           do hm <- gstr g 15;
           Ok (Some (year ++ $" " ++ hm ++ [ol] ++ cycle))
         else Ok None);
      do provID <-
        (if gtrue g 10 then
           do num <- gstr g 11; do s <- gstr g 10;
           do c0 <- chat s 0; do c1 <- chat s 1;
           Ok (Some (num ++ $" " ++ [c0] ++ $"-" ++ [c1]))
         else Ok provID);
      let trkSub :=
        if negb (otrue permID) && otrue trkSub
        then option_map strip trkSub else trkSub in
      Ok (permID, provID, trkSub)
  end.

(** packUtil.py:749-786: comet part *)
Definition unpack_comet (packedID : str) (st : triple) : res triple :=
  match re_match cometPackedIDRegex packedID with
  | None => Ok st
  | Some g =>
      let '(permID, provID, trkSub) := st in
      do permID <-
        (if gtrue g 1 then
           do n <- gint g 1;
           if n =? 0 then Err RuntimeError
           else
             do ty <- gstr g 2;
             if negb (streqb ty $"P") && negb (streqb ty $"D") then Err RuntimeError
             else
               let p := dec n ++ ty in
               do p <- (if gtrue g 9 then do f <- gstr g 9; Ok (p ++ $"-" ++ upper f) else Ok p);
               do p <- (if gtrue g 11 then
                          do f1 <- gstr g 10; do f2 <- gstr g 11;
                          Ok (p ++ $"-" ++ upper (strip (f1 ++ f2)))
                        else Ok p);
               Ok (Some p)
         else Ok permID);
      do provID <-
        (if gtrue g 3 then
           do u <- gletter g 3; do yy <- gint g 4;
           let y := dec (u * 100 + yy) in
           do cl <- gletter g 6; do cn <- gint g 7;
           let ns := nstr (cl * 10 + cn) in
           let extra := match grp g 8 with Some e => e | None => [] end in
           let frag := if gtrue g 9 then
                         match grp g 9 with Some f => $"-" ++ upper f | None => [] end
                       else [] in
           do ty <- gstr g 2; do hm <- gstr g 5;
           Ok (Some (ty ++ $"/" ++ y ++ $" " ++ hm ++ extra ++ ns ++ frag))
         else Ok provID);
      Ok (permID, provID, trkSub)
  end.

(** packUtil.py:801-817: satellite part *)
Definition unpack_sat (packedID : str) (st : triple) : res triple :=
  match re_match satellitePackedIDRegex packedID with
  | None => Ok st
  | Some g =>
      let '(permID, provID, trkSub) := st in
      do permID <-
        (if gtrue g 1 then
           do n <- gint g 2;
           if n =? 0 then Err RuntimeError
           else do p <- gstr g 1;
                do pn <- match p with [c] => planetName c | _ => Err KeyError end;
                Ok (Some (pn ++ $" " ++ dec n))
         else Ok permID);
      do provID <-
        (if gtrue g 3 then
           do u <- gletter g 3; do yy <- gint g 4;
           let y := dec (u * 100 + yy) in
           do cl <- gletter g 6; do cn <- gint g 7;
           do pl <- gstr g 5;
           Ok (Some ($"S/" ++ y ++ $" " ++ pl ++ $" " ++ nstr (cl * 10 + cn)))
         else Ok provID);
      Ok (permID, provID, trkSub)
  end.

Definition unpackPackedID (packedID : str) : res triple :=
  do st <- unpack_minor packedID;
  do st <- unpack_comet packedID st;
  do st <- unpack_sat packedID st;
  let '(permID, provID, trkSub) := st in
  if negb (otrue permID) && negb (otrue provID) && negb (otrue trkSub)
  then Err RuntimeError
  else Ok st.

(** ** packTupleID, packUtil.py:825-1113.
    The argument is a triple (the length checks of lines 833-840 are about
    arguments of the wrong shape and are not modelled). *)

(** permIDType / provIDType *)
Inductive kind : Set := KA | KC | KF | KS.
Definition kind_eqb (a b : kind) : bool :=
  match a, b with KA, KA | KC, KC | KF, KF | KS, KS => true | _, _ => false end.

(** (packed, type, fragment); type and fragment are None while the Python
    variables are unbound *)
Record pk := Pk { pk_s : option str; pk_t : option kind; pk_f : option str }.
Definition pk0 : pk := Pk None None None.

(** "{0:0d}".format(n + 10^k)[1:] *)
Definition zpad10 (n base : Z) : str := from 1 (dec (n + base)).

(** packUtil.py:850-870 *)
Definition perm_minor (permID : str) (st : pk) : res pk :=
  match re_match minorplanetPermIDRegex permID with
  | None => Ok st
  | Some g =>
      do mp <- gint g 1;
      if (mp >? 0) && (mp <? 15396336) then
        if mp <? 620000 then
          let firstDigit := mp / 10000 in
          let lastDigits := mp - firstDigit * 10000 in
          do c <- pyindex packLetters firstDigit;
          Ok (Pk (Some (c :: zpad10 lastDigits 10000)) (Some KA) (pk_f st))
        else Ok (Pk (Some (radix62_4 (mp - 620000))) (Some KA) (pk_f st))
      else Err RuntimeError
  end.

(** packUtil.py:875-885 *)
Definition perm_comet (permID : str) (st : pk) : res pk :=
  match re_match cometPermIDRegex permID with
  | None => Ok st
  | Some g =>
      do n <- gint g 1;
      if n >? 9999 then Err RuntimeError
      else if n =? 0 then Err RuntimeError
      else do t <- gstr g 2; Ok (Pk (Some (zpad10 n 10000 ++ t)) (Some KC) (pk_f st))
  end.

(** packUtil.py:890-901 *)
Definition perm_cometfrag (permID : str) (st : pk) : res pk :=
  match re_match cometfragmentPermIDRegex permID with
  | None => Ok st
  | Some g =>
      do n <- gint g 1;
      if n >? 9999 then Err RuntimeError
      else if n =? 0 then Err RuntimeError
      else do t <- gstr g 2; do f <- gstr g 3;
           Ok (Pk (Some (zpad10 n 10000 ++ t)) (Some KF) (Some f))
  end.

(** packUtil.py:907-917 *)
Definition perm_sat (permID : str) (st : pk) : res pk :=
  match re_match satellitePermIDRegex permID with
  | None => Ok st
  | Some g =>
      do n <- gint g 2;
      if n >? 999 then Err RuntimeError
      else if n =? 0 then Err RuntimeError
      else do p <- gstr g 1; do c <- chat p 0;
           Ok (Pk (Some ([c] ++ zpad10 n 1000 ++ $"S")) (Some KS) (pk_f st))
  end.

(** packUtil.py:922-924 *)
Definition perm_astsat (permID : str) (st : pk) : res pk :=
  match re_match asteroidsatellitePermIDRegex permID with
  | None => Ok st
  | Some _ => Err RuntimeError
  end.

(** packUtil.py:845-927 *)
Definition pack_perm (permID : option str) : res pk :=
  match permID with
  | None => Ok pk0
  | Some p =>
      do st <- perm_minor p pk0;
      do st <- perm_comet p st;
      do st <- perm_cometfrag p st;
      do st <- perm_sat p st;
      do st <- perm_astsat p st;
      if otrue (pk_s st) then Ok st else Err RuntimeError
  end.

(** packUtil.py:937-969 *)
Definition prov_minor (provID : str) (st : pk) : res pk :=
  match re_match minorplanetProvIDRegex provID with
  | None => Ok st
  | Some g =>
      do y <- gint g 1;
      if (y <? 18) || (y >? 61) then Err RuntimeError
      else
        do n <- (if gtrue g 5 then gint g 5 else Ok 0);
        if n <=? 619 then
          let n1 := n / 10 in      (* int(n/10), 0 <= n <= 619 *)
          do nn <- pyindex packLetters n1;
          let n2 := zpad10 (n - 10 * n1) 10 in
          do yc <- pyindex packLetters y;
          do g2 <- gstr g 2; do g3 <- gstr g 3; do g4 <- gstr g 4;
          Ok (Pk (Some ($" " ++ [yc] ++ g2 ++ g3 ++ [nn] ++ n2 ++ g4)) (Some KA) (pk_f st))
        else
          do ol <- gstr g 4;
          (* order_letters.find(order_letter): a one-character string by the regex *)
          let order := match ol with
                       | [c] => match cfind c order_letters with Some k => Z.of_nat k | None => -1 end
                       | _ => -1
                       end in
          do cycle <- gint g 5;
          let n := 25 * cycle + order in
          (* order_letters.find("L") = 10 *)
          if (cycle >? 591673) || ((cycle =? 591673) && (order >? 10)) then Err RuntimeError
          else
            do g2 <- gint g 2; do yc <- pyindex packLetters g2;
            do g3 <- gstr g 3;
            Ok (Pk (Some ($" _" ++ [yc] ++ g3 ++ from 1 (radix62_4 (n - 15500)))) (Some KA) (pk_f st))
  end.

(** packUtil.py:974-980 *)
Definition prov_survey (provID : str) (st : pk) : res pk :=
  match re_match minorplanetSurveyProvIDRegex provID with
  | None => Ok st
  | Some g =>
      do n <- gint g 1;
      do s <- gstr g 2; do s1 <- chat s 0; do s2 <- chat s 2;
      Ok (Pk (Some ($" " ++ [s1] ++ [s2] ++ $"S" ++ zpad10 n 10000)) (Some KA) (pk_f st))
  end.

(** packUtil.py:985-1003 *)
Definition prov_comet (provID : str) (st : pk) : res pk :=
  match re_match cometProvIDRegex provID with
  | None => Ok st
  | Some g =>
      do extra <- (if gtrue g 4 then gstr g 4 else Ok $"0");
      do g5 <- gstr g 5;
      do n <- py_int ($"0" ++ g5);
      let n1 := n / 10 in
      let n2 := n - n1 * 10 in
      if n1 >? 61 then Err RuntimeError
      else
        do g2 <- gstr g 2;
        do yy <- py_int (slice 0 2 g2);
        do y1 <- pyindex packLetters yy;
        let y2 := slice 2 4 g2 in
        do g1 <- gstr g 1; do g3 <- gstr g 3;
        do c1 <- pyindex packLetters n1; do c2 <- pyindex packLetters n2;
        Ok (Pk (Some (g1 ++ [y1] ++ y2 ++ g3 ++ [c1] ++ [c2] ++ extra))
               (Some (if streqb g1 $"A" then KA else KC)) (pk_f st))
  end.

(** packUtil.py:1008-1021 *)
Definition prov_cometfrag (provID : str) (st : pk) : res pk :=
  match re_match cometfragmentProvIDRegex provID with
  | None => Ok st
  | Some g =>
      do n <- gint g 4;
      let n1 := n / 10 in
      let n2 := n - n1 * 10 in
      if n1 >? 61 then Err RuntimeError
      else
        do g2 <- gstr g 2;
        do yy <- py_int (slice 0 2 g2);
        do y1 <- pyindex packLetters yy;
        let y2 := slice 2 4 g2 in
        do g1 <- gstr g 1; do g3 <- gstr g 3; do g5 <- gstr g 5;
        do c1 <- pyindex packLetters n1; do c2 <- pyindex packLetters n2;
        Ok (Pk (Some (g1 ++ [y1] ++ y2 ++ g3 ++ [c1] ++ [c2] ++ lower g5)) (Some KF) (Some g5))
  end.

(** packUtil.py:1026-1042 *)
Definition prov_sat (provID : str) (st : pk) : res pk :=
  match re_match satelliteProvIDRegex provID with
  | None => Ok st
  | Some g =>
      do n <- gint g 3;
      let n1 := n / 10 in
      let n2 := n - n1 * 10 in
      if n1 >? 61 then Err RuntimeError
      else if n =? 0 then Err RuntimeError
      else
        do g1 <- gstr g 1;
        do yy <- py_int (slice 0 2 g1);
        do y1 <- pyindex packLetters yy;
        let y2 := slice 2 4 g1 in
        do g2 <- gstr g 2;
        do c1 <- pyindex packLetters n1; do c2 <- pyindex packLetters n2;
        Ok (Pk (Some ($"S" ++ [y1] ++ y2 ++ g2 ++ [c1] ++ [c2] ++ $"0")) (Some KS) (pk_f st))
  end.

(** packUtil.py:932-1045 *)
Definition pack_prov (provID : option str) : res pk :=
  match provID with
  | None => Ok pk0
  | Some p =>
      do st <- prov_minor p pk0;
      do st <- prov_survey p st;
      do st <- prov_comet p st;
      do st <- prov_cometfrag p st;
      do st <- prov_sat p st;
      if otrue (pk_s st) then Ok st else Err RuntimeError
  end.

(** packUtil.py:1048-1073 *)
Definition pack_trk (trkSub : option str) (perm prov : pk) : res (option str) :=
  match trkSub, pk_s perm with
  | Some t, None =>
      let packedTrkSub :=
        match re_match trksubRegex t with
        | None => None
        | Some g => match grp g 1 with
                    | Some tmp => if Nat.ltb 7 (length tmp) then Some (from 1 tmp) else Some tmp
                    | None => None
                    end
        end in
      if otrue packedTrkSub then Ok packedTrkSub
      else if otrue (pk_s prov) then Ok packedTrkSub
      else Err RuntimeError
  | _, _ => Ok None
  end.

Definition okind_eqb (a b : option kind) : bool :=
  match a, b with
  | Some x, Some y => kind_eqb x y
  | None, None => true
  | _, _ => false
  end.
Definition ostr_eqb (a b : option str) : bool :=
  match a, b with
  | Some x, Some y => streqb x y
  | None, None => true
  | _, _ => false
  end.

(** packUtil.py:1078-1113: final assembly.  pk_s is None or non-empty here. *)
Definition pack_join (perm prov : pk) (trk : option str) : res str :=
  match pk_s perm with
  | Some pp =>
      match pk_s prov with
      | Some pv =>
          if negb (okind_eqb (pk_t perm) (pk_t prov)) then Err RuntimeError
          else if okind_eqb (pk_t perm) (Some KF) && negb (ostr_eqb (pk_f perm) (pk_f prov))
          then Err RuntimeError
          else Ok (pp ++ from 1 pv)
      | None =>
          if otrue trk then Err RuntimeError   (* packed stays None: line 1131 *)
          else
            let packed := pp ++ spaces 7 in
            if okind_eqb (pk_t perm) (Some KF) then
              match pk_f perm with
              | Some f =>
                  let f := if Nat.eqb (length f) 1 then $" " ++ f else f in
                  Ok (firstn 10 packed ++ lower f)
              | None => Err UnboundLocalError
              end
            else Ok packed
      end
  | None =>
      match pk_s prov with
      | Some pv => Ok (spaces 4 ++ pv)
      | None =>
          match trk with
          | Some (c :: t) => Ok (padr 12 (spaces 5 ++ c :: t))
          | _ => Err RuntimeError
          end
      end
  end.

Definition packTupleID (t : triple) : res str :=
  let '(permID, provID, trkSub) := t in
  do perm <- pack_perm permID;
  do prov <- pack_prov provID;
  do trk <- pack_trk trkSub perm prov;
  pack_join perm prov trk.

(** ** packRef, packUtil.py:256-278 *)
Definition smalls : str := Eval vm_compute in $"abcdefghijklmnopqrstuvwxyz".
(** int(ref.split()[1]) *)
Definition ref_num (ref : str) : res Z :=
  match nth_error (split_ws ref) 1 with
  | Some w => py_int w
  | None => Err IndexError
  end.
Definition packRef (ref : str) : res str :=
  do newref <-
    (if streqb (slice 0 3 ref) $"MPC" then
       do s <- ref_num ref;
       if s <? 100000 then Ok (from 1 (dec (s + 100000)))
       else if s <? 200000 then Ok ($"@" ++ from 1 (dec (s - 100000 + 10000)))
       else Ok ($"#" ++ from 1 (radix62_4 (s - 110000)))
     else if streqb (slice 0 3 ref) $"MPS" then
       do s <- ref_num ref;
       if s <? 259999 then
         (* int(s/10000): truncation toward zero; exact for |s| < 2^53 (assumed) *)
         do c <- pyindex smalls (Z.quot s 10000);
         Ok ([c] ++ from 1 (dec (s mod 10000 + 10000)))
       else Ok (radix62_4 (s - 260000))
     else Ok ref);
  Ok (padr 5 (lastn 5 newref)).

(** unpackRef, packUtil.py:280-297 *)
Definition unpackRef (p : str) : res str :=
  match p with
  | [] => Err IndexError
  | c :: rest =>
      if cmem c $"0123456789" then do n <- py_int p; Ok ($"MPC  " ++ dec n)
      else if ceqb c "@" then do n <- py_int rest; Ok ($"MPC  " ++ dec (100000 + n))
      else if ceqb c "#" then do n <- unRadix62_4 p; Ok ($"MPC  " ++ dec (110000 + n))
      else match cfind c smalls with
           | Some k => do n <- py_int rest; Ok ($"MPS  " ++ dec (n + 10000 * Z.of_nat k))
           | None => if ceqb c "~" then do n <- unRadix62_4 p; Ok ($"MPS  " ++ dec (260000 + n))
                     else Ok p
           end
  end.

(** ** packProgID, packUtil.py:300-313.  str.index on a string argument finds the
    first occurrence as a substring. *)
Fixpoint prefixb (a b : str) : bool :=
  match a, b with
  | [], _ => true
  | x :: a', y :: b' => ceqb x y && prefixb a' b'
  | _ :: _, [] => false
  end.
Fixpoint sfind (sub s : str) : option nat :=
  if prefixb sub s then Some O
  else match s with
       | [] => None
       | _ :: s' => match sfind sub s' with Some n => Some (S n) | None => None end
       end.
Definition packProgID (c : str) : res str :=
  match sfind c programCodesArray with
  | None => Err RuntimeError
  | Some k =>
      let idx := Z.of_nat k in
      let first := if idx >? 61 then "1"%char else "0"%char in
      do second <- pyindex packLetters (idx mod 62);
      Ok [first; second]
  end.

(** unpackProgID, packUtil.py:315-327: any exception becomes RuntimeError *)
Definition unpackProgID (s : str) : res str :=
  let r :=
    do c1 <- chat s 1; do u1 <- unpackLetter c1;
    do c0 <- chat s 0; do u0 <- unpackLetter c0;
    let idx := u1 + 62 * u0 in
    if idx <=? 93 then do c <- pyindex programCodesArray idx; Ok [c] else Ok $" " in
  match r with Ok x => Ok x | Err _ => Err RuntimeError end.

(** ** packSigned, packUtil.py:354-372 *)
Definition packSigned (value : str) : res str :=
  match value with
  | [] => Err IndexError
  | s :: v => let ret := strip v in
              Ok (if ceqb s " " then ret else s :: ret)
  end.
