(** Independent specification of the MPC packed-identifier alphabet and texts.
    Written from the published format; uses nothing from PackUtil.v. *)
From Verif Require Import PyStr.

(** value of a base-62 digit: 0-9 are 0..9, A-Z are 10..35, a-z are 36..61 *)
Definition digit62 (c : ascii) : option Z :=
  if isdig c then Some (Z.of_N (code c) - 48)
  else if isupper c then Some (Z.of_N (code c) - 65 + 10)
  else if islower c then Some (Z.of_N (code c) - 97 + 36)
  else None.

(** half-month letters: A..Y without I; order letters: A..Z without I *)
Definition half_month (c : ascii) : bool := isupper c && negb (ceqb c "I") && negb (ceqb c "Z").
Definition order_letter (c : ascii) : bool := isupper c && negb (ceqb c "I").
(** position of an order letter: A = 0, B = 1, ..., H = 7, J = 8, ..., Z = 24 *)
Definition order_rank (c : ascii) : Z :=
  let k := Z.of_N (code c) - 65 in if k <? 8 then k else k - 1.

(** the readable number suffix: absent when zero *)
Definition num_text (n : Z) : str := if n =? 0 then [] else dec n.

(** "2014 AA360": year, half-month, order, cycle count *)
Definition prov_text (year : Z) (h o : ascii) (n : Z) : str :=
  dec year ++ $" " ++ [h; o] ++ num_text n.

Definition survey_text (d1 d2 d3 d4 : ascii) (s1 s2 : ascii) : str :=
  [d1; d2; d3; d4] ++ $" " ++ [s1] ++ $"-" ++ [s2].
Definition is_survey (s1 s2 : ascii) : bool :=
  (ceqb s1 "P" && ceqb s2 "L") ||
  (ceqb s1 "T" && (ceqb s2 "1" || ceqb s2 "2" || ceqb s2 "3")).

(** comet "P/1994 N2", "C/1995 O1", "C/2014 AA1" (o = None: no second letter) *)
Definition comet_text (ty : ascii) (year : str) (h : ascii) (o : option ascii) (n : Z) : str :=
  [ty] ++ $"/" ++ year ++ $" " ++ [h] ++ match o with Some c => [c] | None => [] end ++ num_text n.
Definition cometfrag_text (ty : ascii) (year : str) (h : ascii) (n : Z) (f : ascii) : str :=
  [ty] ++ $"/" ++ year ++ $" " ++ [h] ++ num_text n ++ $"-" ++ [f].

(** satellites "S/2003 J 12", "Jupiter 13" *)
Definition sat_text (year : str) (p : ascii) (n : Z) : str :=
  $"S/" ++ year ++ $" " ++ [p] ++ $" " ++ dec n.
Definition planet (c : ascii) : option str :=
  if ceqb c "J" then Some $"Jupiter" else
  if ceqb c "S" then Some $"Saturn" else
  if ceqb c "U" then Some $"Uranus" else
  if ceqb c "N" then Some $"Neptune" else None.

Definition trk_char (c : ascii) : bool := isalnum c || ceqb c "-".

(** a 7-column word that has the shape of a packed provisional designation *)
Definition looks_packed (t : str) : bool :=
  match t with
  | [a; b; c; d; e; f; g] =>
      ((ceqb a "I" || ceqb a "J" || ceqb a "K") && isdig b && isdig c && half_month d &&
         isalnum e && isdig f && (order_letter g || ceqb g "0"))
      || (is_survey a b && ceqb c "S" && isdig d && isdig e && isdig f && isdig g)
  | _ => false
  end.

(** ** Kinds of object, read off the identifier's own text *)
Inductive okind : Set := MinorPlanet | Comet | CometFragment | Satellite.
Definition has (c : ascii) (s : str) : bool := existsb (ceqb c) s.
(** "1234" minor planet; "12P" comet; "12P-A" fragment; "Jupiter 5" satellite *)
Definition perm_kind (p : str) : okind :=
  match p with
  | c :: _ => if isdig c then
                if has "-" p then CometFragment
                else if has "P" p || has "D" p || has "I" p then Comet else MinorPlanet
              else Satellite
  | [] => MinorPlanet
  end.
(** "2014 AA", "A/2017 U1", "1234 P-L" minor planet; "C/1995 O1" comet;
    "P/1995 O1-B" fragment; "S/2003 J 5" satellite *)
Definition prov_kind (q : str) : okind :=
  match q with
  | c :: _ => if isdig c || ceqb c "A" then MinorPlanet
              else if ceqb c "S" then Satellite
              else if has "-" q then CometFragment else Comet
  | [] => MinorPlanet
  end.
(** the fragment letters: what follows the hyphen, without a final newline *)
Fixpoint after_dash (s : str) : str :=
  match s with
  | [] => []
  | c :: s' => if ceqb c "-" then filter (fun x => negb (ceqb x nl)) s' else after_dash s'
  end.

(** Twelve-column identifiers that can be read but whose reading is not written
    back to the same columns:
    - an A/ designation in minor-planet columns without a number;
    - a tracklet behind a minor-planet number;
    - a comet or satellite (letter in column 5) of type I, or with a year below
      1000 (column 6 a digit), or with count 00 and a fragment letter or a
      satellite, or an A/ object with a fragment letter. *)
Definition lossy (p : str) : bool :=
  match p with
  | [c1; c2; c3; c4; c5; c6; c7; c8; c9; c10; c11; c12] =>
      let seven := [c6; c7; c8; c9; c10; c11; c12] in
      let blank5 := forallb (ceqb " ") [c1; c2; c3; c4; c5] in
      (blank5 && (ceqb c6 "I" || ceqb c6 "J" || ceqb c6 "K") && ceqb c12 "0" && looks_packed seven)
      || (negb blank5 && (isdig c5 || ceqb c1 "~") && negb (forallb (ceqb " ") seven)
          && forallb (fun c => trk_char c || ceqb c " ") seven && negb (looks_packed seven))
      || (isupper c5 && negb (ceqb c1 "~") &&
          (ceqb c5 "I" || isdig c6 || (ceqb c10 "0" && ceqb c11 "0" && (islower c12 || ceqb c5 "S"))
           || (ceqb c5 "A" && islower c12)))
  | _ => false
  end.

(** ** Identifier texts with optional parts *)
(** A permanent number's text, as an optional component *)
Definition ptext (o : option Z) : option str := option_map dec o.
(** an optional minor-planet number *)
Definition mpnum (o : option Z) : Prop := match o with None => True | Some n => 1 <= n <= 15396335 end.
Definition ext_limit (l : ascii) (n : Z) : Prop := n < 591673 \/ (n = 591673 /\ order_rank l <= 10).
Definition cometnum (o : option Z) : Prop := match o with None => True | Some n => 1 <= n <= 9999 end.
(** "12P" ; with a fragment "12P-AB" *)
Definition cometnum_text (n : Z) (t : ascii) (frag : option str) : str :=
  dec n ++ [t] ++ match frag with Some f => $"-" ++ f | None => [] end.
(** the comet letter allowed: with a number only P and D are readable *)
Definition comet_type (num : option Z) (t : ascii) : bool :=
  match num with Some _ => ceqb t "P" || ceqb t "D"
               | None => ceqb t "A" || ceqb t "C" || ceqb t "D" || ceqb t "P" || ceqb t "X" end.
Definition num_opt_text (num : option Z) (t : ascii) (frag : option str) : option str :=
  option_map (fun m => cometnum_text m t frag) num.
(** a provisional fragment *)
Definition frag_type (num : option Z) (t : ascii) : bool :=
  match num with Some _ => ceqb t "P" || ceqb t "D"
               | None => ceqb t "C" || ceqb t "D" || ceqb t "P" || ceqb t "X" end.
(** optional number: planet letter and number *)
Definition satnum (o : option (ascii * Z)) : Prop :=
  match o with None => True | Some (q, n) => planet q <> None /\ 1 <= n <= 999 end.
Definition satnum_text (o : option (ascii * Z)) : option str :=
  match o with
  | None => None
  | Some (q, n) => match planet q with Some name => Some (name ++ $" " ++ dec n) | None => None end
  end.
(** the one-column program codes: the printable characters from ! to ~ *)
Definition prog_ok (c : ascii) : bool := (33 <=? Z.of_N (code c)) && (Z.of_N (code c) <=? 126).
(** "MPC 12345": publication, white space, number *)
Definition names_ref (pub : str) (n : Z) (ref : str) : Prop :=
  exists sp, sp <> [] /\ forallb pyspace sp = true /\ ref = pub ++ sp ++ dec n.
(** packed references in the shapes the reader knows *)
Definition packed_ref (p : str) : bool :=
  match p with
  | [a; b; c; d; e] =>
      (isdig a && isdig b && isdig c && isdig d && isdig e)
      || ((ceqb a "@" || islower a) && isdig b && isdig c && isdig d && isdig e)
      || ((ceqb a "#" || ceqb a "~") && isalnum b && isalnum c && isalnum d && isalnum e)
  | _ => false
  end.
(** those that are read as a number whose packed form is another word:
    '#' words below #0NPa0 (numbers under 200000), and z9999 *)
Definition ref_lossy (p : str) : bool :=
  match p with
  | [a; b; c; d; e] =>
      (ceqb a "#" &&
       match digit62 b, digit62 c, digit62 d, digit62 e with
       | Some x, Some y, Some z, Some w => ((x * 62 + y) * 62 + z) * 62 + w <? 90000
       | _, _, _, _ => false
       end)
      || streqb p $"z9999"
  | _ => false
  end.

(** value of four base-62 digits *)
Definition val62 (a b c d : Z) : Z := ((a * 62 + b) * 62 + c) * 62 + d.
(** ** The five permID columns of a minor planet: what they decode to *)
Inductive Five : str -> option Z -> Prop :=
| five_blank : Five [" "; " "; " "; " "; " "]%char None
| five_num l d1 d2 d3 d4 u : digit62 l = Some u -> isdig d1 = true -> isdig d2 = true -> isdig d3 = true ->
    isdig d4 = true -> decval [d1; d2; d3; d4] + 10000 * u <> 0 ->
    Five [l; d1; d2; d3; d4] (Some (decval [d1; d2; d3; d4] + 10000 * u))
| five_tilde w x y z a b c d : digit62 w = Some a -> digit62 x = Some b -> digit62 y = Some c ->
    digit62 z = Some d -> Five ["~"%char; w; x; y; z] (Some (620000 + val62 a b c d)).
(** the four columns of a comet number *)
Inductive Four : str -> option Z -> Prop :=
| four_blank : Four [" "; " "; " "; " "]%char None
| four_num d1 d2 d3 d4 : isdig d1 = true -> isdig d2 = true -> isdig d3 = true ->
    isdig d4 = true -> decval [d1; d2; d3; d4] <> 0 ->
    Four [d1; d2; d3; d4] (Some (decval [d1; d2; d3; d4])).
