(** Vocabulary of the sexagesimal properties (C29-C32). *)
From Verif Require Import SexVals.
From Coq Require Export Qabs.
Local Open Scope Z_scope.

(** the w-digit numeral of n *)
Definition num (w : nat) (n : Z) : str := zfill w (dec n).
(** N/10^p in decimal: two digits, and p digits behind a point *)
Definition fixed (p : nat) (N : Z) : str :=
  num 2 (N / 10 ^ Z.of_nat p) ++ match p with O => [] | _ => $"." ++ num p (N mod 10 ^ Z.of_nat p) end.
(** "HH MM SS.s", "HH MM.m" *)
Definition sec_text (p : nat) (h m N : Z) : str := num 2 h ++ $" " ++ num 2 m ++ $" " ++ fixed p N.
Definition min_text (q : nat) (h N : Z) : str := num 2 h ++ $" " ++ fixed q N.

(** [sexagesimal w X pr u]: the text w stands for X seconds; pr is its precision
    in seconds, its last digit stands for u seconds.  Minutes and seconds are
    below 60. *)
Inductive sexagesimal : str -> Q -> prec -> Q -> Prop :=
| sx_sec p h m N : (1 <= p)%nat -> 0 <= h < 100 -> 0 <= m < 60 -> 0 <= N < 60 * 10 ^ Z.of_nat p ->
    sexagesimal (sec_text p h m N)
      (inject_Z (3600 * h + 60 * m) + inject_Z N / inject_Z (10 ^ Z.of_nat p))%Q (PTen p) (/ inject_Z (10 ^ Z.of_nat p))
| sx_isec h m s : 0 <= h < 100 -> 0 <= m < 60 -> 0 <= s < 60 ->
    sexagesimal (sec_text 0 h m s) (inject_Z (3600 * h + 60 * m + s)) (PInt 1) 1
| sx_hund h N : 0 <= h < 100 -> 0 <= N < 6000 ->
    sexagesimal (min_text 2 h N) (inject_Z (3600 * h) + inject_Z N * (60 # 100))%Q PHund (60 # 100)
| sx_tenth h N : 0 <= h < 100 -> 0 <= N < 600 ->
    sexagesimal (min_text 1 h N) (inject_Z (3600 * h) + inject_Z N * 6)%Q (PInt 6) 6
| sx_imin h m : 0 <= h < 100 -> 0 <= m < 60 ->
    sexagesimal (min_text 0 h m) (inject_Z (3600 * h + 60 * m)) (PInt 60) 60.

(** a decimal text with d digits behind the point: sign, V/10^d *)
Definition decimal_text (neg : bool) (d : nat) (V : Z) : str :=
  (if neg then $"-" else []) ++ dec (V / 10 ^ Z.of_nat d) ++ $"." ++ num d (V mod 10 ^ Z.of_nat d).

(** [close X c u d V]: V/10^d is X seconds expressed in degrees (c degrees per
    second) up to about half a unit of the last of the d decimals, and up to a
    third of what the last digit of the sexagesimal text (u seconds) stands for *)
Definition close (X c u : Q) (d : nat) (V : Z) : Prop :=
  (Qabs (inject_Z V / inject_Z (10 ^ Z.of_nat d) - X * c) <= (52 # 100) / inject_Z (10 ^ Z.of_nat d) /\
   Qabs (inject_Z V / inject_Z (10 ^ Z.of_nat d) - X * c) <= (1 # 3) * (u * c))%Q.
Definition sgn (neg : bool) : str := if neg then $"-" else $"+".

(** [decimals p d]: a precision of p seconds calls for d decimals of a second: p is
    the float 10**-d, or lies between it and 10**-(d+1); seconds without decimals
    are used for precisions below 10 *)
Definition decimals (p : fl) (d : nat) : Prop :=
  fneg p = false /\
  ((fmag p == fmag (prec_fl (PTen d)))%Q \/
   ((/ inject_Z (10 ^ Z.of_nat (S d)) < fmag p)%Q /\ (fmag p < / inject_Z (10 ^ Z.of_nat d))%Q /\ ~ (fmag p == fmag (prec_fl (PTen (S d))))%Q) \/
   (d = 0%nat /\ (1 < fmag p)%Q /\ (fmag p < 10)%Q)).
(** the three precisions that mean: hundredths, tenths of minutes, whole minutes *)
Definition minutes_only (p : fl) : Prop := (fval p == fval f06 \/ fval p == 6 \/ fval p == 60)%Q.

(** * Dates *)
Definition calendar (y m d : Z) : Prop := 1600 <= y <= 9999 /\ 1 <= m <= 12 /\ 1 <= d <= month_days y m.
(** "YYYY MM DD.ffffff", with k digits f and blanks up to six *)
Definition date_text (y m d : Z) (k : nat) (N : Z) : str :=
  dec y ++ $" " ++ num 2 m ++ $" " ++ num 2 d ++ $"." ++ padr 6 (num k N).
(** "YYYY-MM-DDTHH:MM:SS" *)
Definition iso_day_time (y m d sec : Z) : str :=
  dec y ++ $"-" ++ num 2 m ++ $"-" ++ num 2 d ++ $"T" ++
  num 2 (sec / 3600) ++ $":" ++ num 2 (sec / 60 mod 60) ++ $":" ++ num 2 (sec mod 60).
(** the multiples j of 54 seconds (625 millionths of a day) for which the
    product of the floats for j * 0.000625 and 86400 falls short of 54 j *)
Definition short_by_rounding : list Z :=
  [35; 57; 69; 70; 113; 114; 115; 138; 139; 140; 201; 203; 205; 226; 228; 230; 251; 253; 255; 276; 278; 280; 301;
   303; 402; 406; 410; 427; 431; 435; 452; 456; 460; 477; 481; 485; 502; 506; 510; 527; 531; 535; 552; 556; 560;
   577; 581; 585; 602; 606; 804; 812; 820; 829; 837; 845; 854; 862; 870; 879; 887; 895; 904; 912; 920; 929; 937;
   945; 954; 962; 970; 979; 987; 995; 1004; 1012; 1020; 1029; 1037; 1045; 1054; 1062; 1070; 1079; 1087; 1095;
   1104; 1112; 1120; 1129; 1137; 1145; 1154; 1162; 1170; 1179; 1187; 1195; 1204; 1212].

(** an ISO time with a fraction of at most six digits; its microseconds since midnight *)
Definition iso_time (y m d sec : Z) (f : str) : str :=
  iso_day_time y m d sec ++ match f with [] => [] | _ => $"." ++ f end ++ $"Z".
Definition microseconds (sec : Z) (f : str) : Z := sec * 1000000 + decval f * 10 ^ (6 - Z.of_nat (length f)).
(** [day_decimals p k]: a precision of p millionths of a day calls for k decimals of a day *)
Definition day_decimals (p : fl) (k : nat) : Prop :=
  (k = 6%nat /\ decimals p 0) \/
  ((2 <= k <= 5)%nat /\ fneg p = false /\ (inject_Z (10 ^ (6 - Z.of_nat k)) <= fmag p)%Q /\ (fmag p < inject_Z (10 ^ (7 - Z.of_nat k)))%Q) \/
  (k = 1%nat /\ fneg p = false /\ (100000 <= fmag p)%Q).
