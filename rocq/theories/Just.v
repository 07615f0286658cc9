(** Model of Python/ades/adesutility.py:applyPaddingAndJustification and of
    Python/ades/packUtil.py:unPackSigned. *)
From Verif Require Export PackUtil.

(** k*' ' in Python: the empty string for k <= 0 *)
Definition zspaces (k : Z) : str := spaces (Z.to_nat k).
Definition zlen (s : str) : Z := Z.of_nat (length s).
Definition lastc (s : str) : option ascii := match rev s with c :: _ => Some c | [] => None end.

(** adesutility.py:383-441, jtype == 'D' *)
Definition just_decimal (s : str) (l dpos : Z) : res (str * Z * Z) :=
  if dpos <? 0 then Err RuntimeError                                  (* 384-388 *)
  else
    do (sleft, sright) <-
      match splitc "." s with                                         (* 409-416 *)
      | [_] => Ok (s, [])
      | [a; b] => Ok (a, b)
      | _ => Err RuntimeError
      end;
    let leftpad := dpos - 1 - zlen sleft in                           (* 420 *)
    let dpos := if leftpad <? 0 then dpos - leftpad else dpos in      (* 424-427 *)
    let rightpad := (l - dpos) - zlen sright in                       (* 428 *)
    let trailing := match lastc s with Some c => ceqb c "." | None => false end in
    let sleft := if trailing then s else sleft in                     (* 429-431 *)
    let rightpad := if trailing then rightpad - 1 else rightpad in
    let retval :=
      match sright with                                               (* 436-440 *)
      | _ :: _ => zspaces leftpad ++ sleft ++ $"." ++ sright ++ zspaces rightpad
      | [] => zspaces leftpad ++ sleft ++ zspaces (rightpad + 1)
      end in
    Ok (retval, zlen retval, dpos).

(** adesutility.py:347-445.  l and dpos are integers of any sign. *)
Definition applyPaddingAndJustification (s : str) (l : Z) (jtype : str) (dpos : Z) : res (str * Z * Z) :=
  let ll := zlen s in
  if streqb jtype $"L" then
    let outs := s ++ zspaces (l - ll) in Ok (outs, zlen outs, dpos)
  else if streqb jtype $"R" then
    let outs := zspaces (l - ll) ++ s in Ok (outs, zlen outs, dpos)
  else if streqb jtype $"C" then
    let i := (l - ll) / 2 in
    let j := if i * 2 =? l - ll then i else i + 1 in
    let outs := zspaces i ++ s ++ zspaces j in Ok (outs, zlen outs, dpos)
  else if streqb jtype $"D" then just_decimal s l dpos
  else Err RuntimeError.

(** packUtil.py:374-409 unPackSigned *)
Definition unPackSigned (value : str) (outLen nDecimal : Z) : res str :=
  match value with
  | [] => Err IndexError
  | s :: v =>
      let '(value, s, v) := if isdig s then ("+"%char :: value, "+"%char, value) else (value, s, v) in
      if negb (ceqb s "+" || ceqb s "-") then
        do (r, _, _) <- applyPaddingAndJustification value outLen $"D" nDecimal; Ok r
      else
        do (r, _, _) <- applyPaddingAndJustification v (outLen - 1) $"D" (nDecimal - 1); Ok (s :: r)
  end.
