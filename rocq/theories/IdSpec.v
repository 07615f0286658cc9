(** Identifiers as a reader writes them, in the grammar the ADES schema has for
    permID and provID, and the ones among them that have a packed form.
    Uses nothing from PackUtil.v. *)
From Verif Require Export PyStr PackSpec.

Definition digits (w : str) : Prop := forallb isdig w = true /\ w <> [] .
Definition four (y : str) : Prop := forallb isdig y = true /\ length y = 4%nat.
Definition capital (o : option ascii) : Prop := match o with Some c => isupper c = true | None => True end.
Definition letter_of (o : option ascii) : str := match o with Some c => [c] | None => [] end.

(** ** Permanent identifiers *)
Inductive permid : Type :=
| Number (w : str)                                   (* 433, 00433 *)
| NumberedComet (w : str) (t : ascii) (f : str)      (* 2P, 73P-AB, 1I; f = "" without a fragment *)
| Moon (planet : str) (w : str)                      (* Jupiter 13 *)
| AsteroidMoon (w n : str).                          (* (87) 1 *)
Definition perm_written (i : permid) : str :=
  match i with
  | Number w => w
  | NumberedComet w t f => w ++ [t] ++ match f with [] => [] | _ => $"-" ++ f end
  | Moon q w => q ++ $" " ++ w
  | AsteroidMoon w n => $"(" ++ w ++ $") " ++ n
  end.
Definition perm_shaped (i : permid) : Prop :=
  match i with
  | Number w => digits w
  | NumberedComet w t f => digits w /\ In t ["I"; "P"; "D"]%char /\ forallb isupper f = true /\ (length f <= 2)%nat
  | Moon q w => In q [$"Mars"; $"Jupiter"; $"Saturn"; $"Uranus"; $"Neptune"] /\ digits w
  | AsteroidMoon w n => digits w /\ digits n
  end.
(** the ones with a packed form *)
Definition perm_packable (i : permid) : Prop :=
  match i with
  | Number w => 1 <= decval w <= 15396335
  | NumberedComet w _ _ => 1 <= decval w <= 9999
  | Moon q w => q <> $"Mars" /\ 1 <= decval w <= 999
  | AsteroidMoon _ _ => False
  end.
(** numbers of satellites with more than three digits (leading zeros) are not
    in the schema's grammar *)
Definition perm_short (i : permid) : Prop :=
  match i with Moon _ n | AsteroidMoon _ n => (length n <= 3)%nat | _ => True end.

(** ** Provisional identifiers *)
Inductive provid : Type :=
| Designation (y : str) (h o : ascii) (w : str)      (* 2014 AA360 *)
| SurveyDes (y : str) (s1 s2 : ascii)                (* 4835 T-1 *)
| CometDes (t : ascii) (y : str) (h : ascii) (o : option ascii) (w : str) (f : option ascii)   (* P/1994 N2-A *)
| MoonDes (y : str) (q : ascii) (w : str)            (* S/2003 J 12 *)
| AsteroidMoonDes (y b w : str).                     (* S/2001 (87) 1 *)
Definition prov_written (i : provid) : str :=
  match i with
  | Designation y h o w => y ++ $" " ++ [h; o] ++ w
  | SurveyDes y s1 s2 => y ++ $" " ++ [s1] ++ $"-" ++ [s2]
  | CometDes t y h o w f => [t] ++ $"/" ++ y ++ $" " ++ [h] ++ letter_of o ++ w ++ match f with Some c => $"-" ++ [c] | None => [] end
  | MoonDes y q w => $"S/" ++ y ++ $" " ++ [q] ++ $" " ++ w
  | AsteroidMoonDes y b w => $"S/" ++ y ++ $" (" ++ b ++ $") " ++ w
  end.
(** the body a satellite belongs to: a number, or a designation with a count *)
Inductive body : str -> Prop :=
| body_number w : digits w -> body w
| body_designation y h o w : four y -> half_month h = true -> (match o with Some c => order_letter c = true | None => True end) ->
    digits w -> body (y ++ $" " ++ [h] ++ letter_of o ++ w).
Definition prov_shaped (i : provid) : Prop :=
  match i with
  | Designation y h o w => four y /\ half_month h = true /\ order_letter o = true /\ forallb isdig w = true
  | SurveyDes y s1 s2 => four y /\ is_survey s1 s2 = true
  | CometDes t y h o w f => In t ["A"; "D"; "C"; "P"; "X"]%char /\ four y /\ isupper h = true /\ capital o /\ forallb isdig w = true /\ capital f
  | MoonDes y q w => four y /\ In q ["M"; "J"; "S"; "U"; "N"]%char /\ digits w
  | AsteroidMoonDes y b w => four y /\ body b /\ digits w
  end.
Definition prov_packable (i : provid) : Prop :=
  match i with
  | Designation y h o w => 1800 <= decval y <= 6199 /\
      (decval w <= 619 \/ (ext_limit o (decval w) /\ decval y mod 100 <= 61))
  | SurveyDes _ _ _ => True
  | CometDes t y h o w f => decval y <= 6199 /\ decval w <= 619 /\ (f <> None -> t <> "A"%char /\ o = None /\ w <> [])
  | MoonDes y q w => decval y <= 6199 /\ q <> "M"%char /\ 1 <= decval w <= 619
  | AsteroidMoonDes _ _ _ => False
  end.
(** designations of discoveries before 1925 written with an A for the 1: A904 OA *)
Definition old_designation (s : str) : Prop :=
  exists c d e h o, s = ["A"; c; d; e; " "; h; o]%char /\ In c ["8"; "9"]%char /\ isdig d = true /\ isdig e = true /\
    half_month h = true /\ order_letter o = true.

(** ** Tracklet identifiers *)
(** the characters the schema allows *)
Definition trk_schema_char (c : ascii) : bool := trk_char c || ceqb c "_".
Definition old_trk_char (c : ascii) : bool := trk_schema_char c || existsb (ceqb c) ($" ?+@.()/" ++ $"\").
