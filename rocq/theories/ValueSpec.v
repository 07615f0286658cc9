(** What values the simple types of the schemas take that are not texts: decimal
    numbers and times; and which 80-column optical lines hold values the schema
    accepts (C43). *)
From Verif Require Export XsdPattern SexSpec.
From Verif Require Import Mpc80 Mpc80Spec.
Local Open Scope Z_scope.

(** * Decimal numbers (XML Schema 1.0 part 2, section 3.2.3) *)
(** the text s is a numeral of the value q: a sign, digits before and behind a point *)
Definition decimal_value (s : str) (q : Q) : Prop :=
  exists sg a b, (s = sg ++ a /\ b = [] \/ s = sg ++ a ++ $"." ++ b) /\ In sg [[]; $"+"; $"-"] /\
    forallb isdig (a ++ b) = true /\ a ++ b <> [] /\
    (q == (if streqb sg $"-" then -1 else 1) * (inject_Z (decval (a ++ b)) / inject_Z (10 ^ Z.of_nat (length b))))%Q.
(** white space around a number does not count *)
Definition xsd_space (c : ascii) : bool := existsb (ceqb c) [" "%char; tab; nl; cr].
Fixpoint trim_left (s : str) : str := match s with c :: s' => if xsd_space c then trim_left s' else s | [] => [] end.
Definition trim (s : str) : str := rev (trim_left (rev (trim_left s))).
(** one step of restriction: patterns and enumerated values are alternatives, the limits all hold *)
Definition number_allows (s : str) (q : Q) (fs : facets) : Prop :=
  ((exists p, In ($"xsd:pattern", p) fs) -> exists p, In ($"xsd:pattern", p) fs /\ matches p s) /\
  ((exists v, In ($"xsd:enumeration", v) fs) -> exists v, In ($"xsd:enumeration", v) fs /\ decimal_value v q) /\
  (forall v r, In ($"xsd:minInclusive", v) fs -> decimal_value v r -> (r <= q)%Q) /\
  (forall v r, In ($"xsd:maxInclusive", v) fs -> decimal_value v r -> (q <= r)%Q) /\
  (forall v r, In ($"xsd:minExclusive", v) fs -> decimal_value v r -> (r < q)%Q) /\
  (forall v r, In ($"xsd:maxExclusive", v) fs -> decimal_value v r -> (q < r)%Q).
Definition reads_decimals (F : derivation -> str -> Prop) : Prop :=
  forall steps s, F ($"xsd:decimal", steps) s <->
    exists q, decimal_value (trim s) q /\ Forall (number_allows (trim s) q) steps.

(** integers are decimal numbers without a point *)
Definition reads_integers (F : derivation -> str -> Prop) : Prop :=
  forall steps s, F ($"xsd:integer", steps) s <->
    ~ In "."%char (trim s) /\ exists q, decimal_value (trim s) q /\ Forall (number_allows (trim s) q) steps.

(** * Times (section 3.2.7): here only the ones in UTC, of days that exist, in the
    years 1600 to 9999, and only restrictions by patterns *)
Definition reads_times (F : derivation -> str -> Prop) : Prop :=
  forall steps y m d sec f, calendar y m d -> 0 <= sec < 86400 -> forallb isdig f = true ->
    (forall fs k v, In fs steps -> In (k, v) fs -> k = $"xsd:pattern") ->
    (F ($"xsd:dateTime", steps) (iso_time y m d sec f) <-> Forall (step_allows (iso_time y m d sec f)) steps).

(** a reading that is right for texts, numbers and times *)
Definition reads_values (F : derivation -> str -> Prop) : Prop :=
  reads_texts F /\ reads_decimals F /\ reads_integers F /\ reads_times F.

(** * The columns of an optical line *)
Definition alnum_ (c : ascii) : bool := isalnum c || ceqb c "_".
(** The packed designations that are unpacked to something the schema refuses.  With
    a letter in column 5 (comets and satellites): an interstellar object ("I/2017 U1"),
    a year before 1000 (column 6 is a digit), a satellite with the number 00. *)
Definition refused_designation (w : str) : bool :=
  match w with
  | [c1; _; _; _; c5; c6; _; _; _; c10; c11; _] =>
      negb (ceqb c1 "~") && (ceqb c5 "I" || isupper c5 && isdig c6 || ceqb c5 "S" && ceqb c10 "0" && ceqb c11 "0")
  | _ => false
  end.
(** a magnitude: nothing, or a number without needless zeros, -5 to 35 *)
Definition plain_number (s : str) (q : Q) : Prop :=
  decimal_value s q /\
  exists sg a t, s = sg ++ a :: t /\ In sg [[]; $"+"; $"-"] /\ isdig a = true /\
    (a = "0"%char -> forall b t', t = b :: t' -> isdig b = false).
Definition magnitude (w : str) : Prop := exists q, plain_number (strip w) q /\ (-5 <= q <= 35)%Q.
(** right ascensions below 24 hours, declinations of at most 90 degrees *)
Definition right_ascension (w : str) : Prop :=
  exists s X pr u, sexagesimal s X pr u /\ w = padr 12 s /\ (X < 24 * 3600)%Q.
Definition declination (w : str) : Prop :=
  exists neg s X pr u, sexagesimal s X pr u /\ w = padr 12 (sgn neg ++ s) /\ (X <= 90 * 3600)%Q.

(** The optical lines whose values the general schema takes: designation, station,
    right ascension, declination, magnitude and band, reference, catalogue. *)
Record takes (l : str) : Prop := {
  takes_id : refused_designation (cols 1 12 l) = false;
  takes_stn : forallb alnum_ (cols 78 80 l) = true;
  takes_ra : right_ascension (cols 33 44 l);
  takes_dec : declination (cols 45 56 l);
  takes_mag : blank (cols 66 70 l) = true \/
    magnitude (cols 66 70 l) /\ (blank (cols 71 71 l) = true \/ forallb alnum_ (cols 71 71 l) = true);
  takes_ref : ~ In "|"%char (cols 73 77 l);
  takes_cat : cols 72 72 l <> $"6"
}.
(** the eleven columns of a satellite's position: a sign, and a number without needless zeros *)
Definition signed_number (w : str) : Prop := exists c u q, w = c :: u /\ plain_number (c :: strip u) q.
(** the second line of a satellite record, and of a roving observer *)
Definition takes_satellite (m : str) : Prop := signed_number (cols 35 45 m) /\ signed_number (cols 47 57 m) /\ signed_number (cols 59 69 m).
Definition takes_rover (m : str) : Prop :=
  forall w, In w [cols 35 44 m; cols 46 55 m; cols 57 61 m] -> exists q, plain_number (strip w) q.

(** Radar: a delay or a Doppler shift, not both, with its uncertainty; positive numbers
    below 100000 of at most 14 and 6 characters. *)
Definition unsigned (s : str) : str := match s with c :: w => if one_of $"+-" c then w else s | [] => [] end.
Definition positive (n : nat) (s : str) : Prop :=
  exists q, plain_number s q /\ (0 < q)%Q /\ (q < 100000)%Q /\ unsigned s = s /\ (length s <= n)%nat.
Record takes_radar (l m : str) : Prop := {
  radar_id : refused_designation (cols 1 12 l) = false;
  radar_known : exists perm prov trk, unpackPackedID (cols 1 12 l) = Ok (perm, prov, trk) /\ (perm <> None \/ prov <> None);
  radar_trx : forallb alnum_ (cols 69 71 l) = true;
  radar_rcv : forallb alnum_ (cols 78 80 m) = true;
  radar_frq : exists q, decimal_value (strip (firstn 5 (cols 63 68 l) ++ $"." ++ skipn 5 (cols 63 68 l))) q /\ (0 < q)%Q;
  radar_ref : ~ In "|"%char (cols 72 77 l);
  radar_value :
    blank (cols 48 62 l) = true /\ blank (cols 48 62 m) = true /\
      positive 14 (strip (implied_point 5 (cols 33 47 l))) /\ positive 6 (strip (implied_point 10 (cols 34 47 m))) \/
    blank (cols 33 47 l) = true /\ blank (cols 34 47 m) = true /\
      (exists shift q, shift_of (cols 48 62 l) shift /\ plain_number shift q /\ (length (unsigned shift) <= 13)%nat) /\
      positive 6 (strip (implied_point 11 (cols 48 62 m)))
}.
