(** Vocabulary of C49: which valid submissions can be written in 80 columns. *)
From Verif Require Export Print80Spec SexSpec ValueSpec.
From Verif Require Import XmlToMpc80 Mpc80 Mpc80Spec.
Local Open Scope Z_scope.

(** the text of a field of a record, if there is one *)
Definition text_if (r : xml) (x : string) : option str := match rec_value r $x with [] => None | v => Some v end.
(** the two settings of the precisions: the default, and --lowPrec *)
Definition standard (o : opts80) : Prop :=
  o_precTime o = $"1" /\ o_precRA o = $"0.001" /\ o_precDec o = $"0.01" \/
  o_precTime o = $"10" /\ o_precRA o = $"0.01" /\ o_precDec o = $"0.1".
(** the digits then printed behind the points of the day, the seconds and the arc seconds *)
Definition places (o : opts80) (day ra dec : nat) : Prop :=
  o_precTime o = $"1" /\ day = 6%nat /\ ra = 3%nat /\ dec = 2%nat \/
  o_precTime o = $"10" /\ day = 5%nat /\ ra = 2%nat /\ dec = 1%nat.
(** a time in UTC, not within a leap second, with up to six decimals of a second *)
Definition plain_time (s : str) : Prop :=
  exists y m d sec f, calendar y m d /\ 0 <= sec < 86400 /\ forallb isdig f = true /\ (length f <= 6)%nat /\ s = iso_time y m d sec f.
(** float() reads the text *)
Definition readable (s : str) : Prop := exists f, pyfloat s = Ok f.

Local Open Scope string_scope.
Local Open Scope list_scope.
(** an artificial satellite, or a designation that can be packed *)
Definition identified (r : xml) : Prop :=
  text_if r "artSat" <> None \/ exists c, packTupleID (text_if r "permID", text_if r "provID", text_if r "trkSub") = Ok c.
(** the stations whose positions are taken from a star *)
Definition stellar : list string := ["275"; "244"].
Definition placed (r : xml) : Prop :=
  (xtag r = $"optical" /\ forall s, In s stellar -> rec_value r $"stn" <> $s) \/
  (xtag r = $"occultation" /\ rec_value r $"stn" = $"275") \/
  (xtag r = $"occultation" /\ rec_value r $"stn" = $"244" /\ text_if r "deltaRA" <> None /\
   readable (rec_value r $"raStar" ++ rec_value r $"deltaRA") /\ readable (rec_value r $"decStar" ++ rec_value r $"deltaDec")).
(** a code for column 15 *)
Definition modes : list string := ["CCD"; "CMO"; "VID"; "PHO"; "ENC"; "PMT"; "MIC"; "MER"; "OCC"; "OFF"; "NOR"; "PHo"; "ccd"].
Definition systems : list string := ["WGS84"; "ICRF_AU"; "ICRF_KM"].
Definition coded (r : xml) : Prop :=
  match text_if r "pos1" with
  | Some _ => exists s, In s systems /\ rec_value r $"sys" = $s
  | None => exists m, In m modes /\ rec_value r $"mode" = $m
  end.

(** * The lines of a record that fits *)
(** station codes of three characters (at 244 the texts of two numbers are put next to
    each other), names of at most 12, heights of at most 5 *)
Record fitting (r : xml) : Prop := {
  fit_station : length (rec_value r $"stn") = 3%nat /\ rec_value r $"stn" <> $"244";
  fit_name : (length (rec_value r $"artSat") <= 12)%nat;
  fit_height : rec_value r $"sys" = $"WGS84" -> (length (rec_value r $"pos3") <= 5)%nat }.
(** the position of the object, or of the star that it hides *)
Definition ra_of (r : xml) : str := rec_value r (if is_tag $"occultation" r then $"raStar" else $"ra").
Definition dec_of (r : xml) : str := rec_value r (if is_tag $"occultation" r then $"decStar" else $"dec").
(** "HH MM SS.s" with p decimals, for q degrees; the seconds may be 60 *)
Definition shows_ra (p : nat) (w : str) (q : Q) : Prop :=
  exists h m N, w = padr 12 (sec_text p h m N) /\ 0 <= h <= 24 /\ 0 <= m < 60 /\ 0 <= N <= 60 * 10 ^ Z.of_nat p /\
    (Qabs (inject_Z (3600 * h + 60 * m) + inject_Z N / inject_Z (10 ^ Z.of_nat p) - 240 * q) <= (52 # 100) / inject_Z (10 ^ Z.of_nat p))%Q.
(** "sDD MM SS.s"; the minutes may be 60 *)
Definition shows_dec (p : nat) (w : str) (q : Q) : Prop :=
  exists neg d m N, w = padr 12 (sgn neg ++ sec_text p d m N) /\ 0 <= d <= 90 /\ 0 <= m <= 60 /\ 0 <= N < 60 * 10 ^ Z.of_nat p /\
    (neg = true -> q <= 0)%Q /\ (neg = false -> 0 <= q)%Q /\
    (Qabs (inject_Z (3600 * d + 60 * m) + inject_Z N / inject_Z (10 ^ Z.of_nat p) - 3600 * Qabs q) <= (52 # 100) / inject_Z (10 ^ Z.of_nat p))%Q.
(** "YYYY MM DD.dddddd" with p decimals; the last moments of a day become its first *)
Definition shows_time (p : nat) (w s : str) : Prop :=
  exists y m d sec f V, s = iso_time y m d sec f /\ calendar y m d /\ 0 <= sec < 86400 /\ 0 <= V <= 10 ^ Z.of_nat p /\
    1000 * Z.abs (microseconds sec f * 10 ^ Z.of_nat p - V * 86400000000) <= 501 * 86400000000 /\
    w = date_text y m d p (if (V =? 10 ^ Z.of_nat p)%Z then 0%Z else V).

(** * Documents *)
Definition observations (t : xml) : list xml := flat_map block_data_of (xkids t).
Definition writable (r : xml) : Prop :=
  xtag r = $"offset" \/ In (xtag r) [$"optical"; $"occultation"] /\ identified r /\ placed r /\ coded r.
