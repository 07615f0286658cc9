(** C29-C32: sexagesimal angles and dates of the 80-column format.  The
    vocabulary is in SexSpec.v.  padr n s is s with blanks up to n characters. *)
From Verif Require Import SexVals SexSpec SexProofs7 SexProofs11 SexProofs15 SexProofs16 SexProofs18.
Local Open Scope Z_scope.

(** * C30: right ascensions *)
(** Every RA of the format's five precisions that fits into its 12 columns is
    accepted; its decimal degrees are the right number up to rounding, and
    converting them back, with the precision recorded beside them, gives the
    original columns. *)
Theorem C30_round_trip s X pr u : sexagesimal s X pr u -> (length s <= 12)%nat ->
  exists d V, (1 <= d)%nat /\ 0 <= V /\
    checkRa (padr 12 s) = Ok (decimal_text false d V, pr) /\
    decRaToSexRa (decimal_text false d V) (prec_fl pr) = Ok (padr 12 s) /\
    close X (1 # 240) u d V.
Proof. exact (ra_canonical s X pr u). Qed.
(** Whatever else stands in the 12 columns is refused with RuntimeError. *)
Theorem C30_only w : (length w <= 12)%nat ->
  checkRa w = Err RuntimeError \/ exists s X pr u, sexagesimal s X pr u /\ w = padr 12 s.
Proof. exact (ra_complete w). Qed.
(** The precision is stored as text; reading the text gives the precision that
    is needed for the way back. *)
Theorem C30_precision s X pr u : sexagesimal s X pr u -> (length s <= 12)%nat ->
  pyfloat (prec_str pr) = Ok (prec_fl pr).
Proof.
  intros H L. destruct (prec_text s X pr u H L) as (f & E & A & B). rewrite E. f_equal.
  destruct f, (prec_fl pr); cbn in A, B; now subst.
Qed.
(** There is no check of the range: 25 hours are 375 degrees. *)
Theorem C30_range_refuted : checkRa $"25 00 00.00 " = Ok ($"375.00000", PTen 2).
Proof. vm_compute. reflexivity. Qed.
Example C30_example :
  sexagesimal (sec_text 2 12 34 5678) (inject_Z (3600 * 12 + 60 * 34) + inject_Z 5678 / inject_Z (10 ^ 2)) (PTen 2) (/ inject_Z (10 ^ 2)) /\
  sec_text 2 12 34 5678 = $"12 34 56.78" /\ checkRa $"12 34 56.78 " = Ok ($"188.73658", PTen 2) /\
  sexagesimal (min_text 1 1 234) (inject_Z 3600 + inject_Z 234 * 6) (PInt 6) 6 /\ min_text 1 1 234 = $"01 23.4".
Proof.
  split. { apply (sx_sec 2 12 34 5678); vm_compute; intuition congruence || lia. }
  split; [reflexivity|]. split; [vm_compute; reflexivity|]. split; [|reflexivity].
  apply (sx_tenth 1 234); lia.
Qed.

(** * C31: declinations *)
(** The same for declinations, sign included: also the sign of -00 00 00. *)
Theorem C31_round_trip neg s X pr u : sexagesimal s X pr u -> (length s <= 11)%nat ->
  exists d V, (1 <= d)%nat /\ 0 <= V /\
    checkDec (padr 12 (sgn neg ++ s)) = Ok (decimal_text neg d V, pr) /\
    degDeclToSexDecl (decimal_text neg d V) (prec_fl pr) = Ok (padr 12 (sgn neg ++ s)) /\
    close X (1 # 3600) u d V.
Proof. exact (dec_canonical neg s X pr u). Qed.
Theorem C31_only w : length w = 12%nat ->
  checkDec w = Err RuntimeError \/
  exists neg s X pr u, sexagesimal s X pr u /\ w = padr 12 (sgn neg ++ s).
Proof. exact (dec_complete w). Qed.
Theorem C31_range_refuted : checkDec $"+99 59 59.9 " = Ok ($"99.99997", PTen 1).
Proof. vm_compute. reflexivity. Qed.
Example C31_example :
  checkDec $"-00 00 00.0 " = Ok ($"-0.00000", PTen 1) /\
  degDeclToSexDecl $"-0.00000" (prec_fl (PTen 1)) = Ok $"-00 00 00.0 " /\
  sexagesimal $"12 34 56.7" (inject_Z (3600 * 12 + 60 * 34) + inject_Z 567 / inject_Z (10 ^ 1)) (PTen 1) (/ inject_Z (10 ^ 1)).
Proof.
  split; [vm_compute; reflexivity|]. split; [vm_compute; reflexivity|].
  change $"12 34 56.7" with (sec_text 1 12 34 567). apply (sx_sec 1 12 34 567); vm_compute; intuition congruence || lia.
Qed.

(** * C29: dates *)
(** N/10^k of a day is n millionths, 864 n / 10000 seconds.  The date is accepted
    with the right time, rounded to milliseconds, and converting it back gives
    the original columns -- unless n is one of 100 whole numbers of seconds
    (1600 of the million n are whole seconds). *)
Theorem C29_round_trip y m d k N : calendar y m d -> (1 <= k <= 6)%nat -> 0 <= N < 10 ^ Z.of_nat k ->
  let n := N * 10 ^ (6 - Z.of_nat k) in
  ~ In n (map (Z.mul 625) short_by_rounding) ->
  let iso := iso_day_time y m d (864 * n / 10000) ++ $"." ++ num 3 ((864 * n mod 10000 + 5) / 10) ++ $"Z" in
  checkDate (date_text y m d k N) false = Ok (iso, PInt (10 ^ (6 - Z.of_nat k))) /\
  isoToSexDate iso (prec_fl (PInt (10 ^ (6 - Z.of_nat k)))) = Ok (date_text y m d k N).
Proof. exact (date_ok y m d k N). Qed.
(** For the 100 others the fraction of a second is written .1000: the date is
    refused if it has six decimals, and accepted with a time that is 0.1 s late
    if it has fewer. *)
Theorem C29_whole_seconds_refuted y m d k N j : calendar y m d -> (1 <= k <= 6)%nat -> 0 <= N < 10 ^ Z.of_nat k ->
  N * 10 ^ (6 - Z.of_nat k) = 625 * j -> In j short_by_rounding ->
  sexDateToISO (date_text y m d k N) false false true =
    Ok (iso_day_time y m d (54 * j) ++ $".1000Z", PInt (10 ^ (6 - Z.of_nat k)), $"." ++ num k N) /\
  checkDate (date_text y m d k N) false =
    (if Nat.eqb k 6 then Err RuntimeError
     else Ok (iso_day_time y m d (54 * j) ++ $".1000Z", PInt (10 ^ (6 - Z.of_nat k)))).
Proof. exact (date_bad y m d k N j). Qed.
(** Radar times are rounded to seconds.  Every date of at most four decimals, and
    every longer one that is the nearest one to a whole second, survives. *)
Theorem C29_radar y m d k N : calendar y m d -> (1 <= k <= 6)%nat -> 0 <= N < 10 ^ Z.of_nat k ->
  let n := N * 10 ^ (6 - Z.of_nat k) in let R := (864 * n + 5000) / 10000 in
  ((k <= 4)%nat \/ exists s, 0 <= s < 86400 /\ 2 * Z.abs (N * 86400 - s * 10 ^ Z.of_nat k) < 86400) ->
  checkDate (date_text y m d k N) true = Ok (iso_day_time y m d R ++ $"Z", PInt (10 ^ (6 - Z.of_nat k))) /\
  isoToSexDate (iso_day_time y m d R ++ $"Z") (prec_fl (PInt (10 ^ (6 - Z.of_nat k)))) = Ok (date_text y m d k N).
Proof. exact (radar_ok y m d k N). Qed.
(** ... and no radar date that is not within half a digit of a whole second does. *)
Theorem C29_radar_only y m d k N r : calendar y m d -> (1 <= k <= 6)%nat -> 0 <= N < 10 ^ Z.of_nat k ->
  checkDate (date_text y m d k N) true = Ok r ->
  exists s, 0 <= s < 86400 /\ 2 * Z.abs (N * 86400 - s * 10 ^ Z.of_nat k) <= 86400.
Proof. exact (radar_only y m d k N r). Qed.
(** Only existing days, written in full, are accepted in the 17 columns. *)
Theorem C29_only w radar r : length w = 17%nat -> checkDate w radar = Ok r ->
  exists y m d k N, calendar y m d /\ (1 <= k <= 6)%nat /\ 0 <= N < 10 ^ Z.of_nat k /\ w = date_text y m d k N.
Proof. exact (date_only w radar r). Qed.
(** A day that does not exist is not refused with the RuntimeError the callers
    expect: a ValueError escapes. *)
Theorem C29_nonexistent_refuted y m d k N radar : 1600 <= y <= 9999 -> 1 <= m <= 12 -> month_days y m < d <= 31 ->
  (1 <= k)%nat -> 0 <= N < 10 ^ Z.of_nat k ->
  checkDate (date_text y m d k N) radar = Err ValueError.
Proof. exact (date_nonexistent y m d k N radar). Qed.
(** Which days exist: the Gregorian calendar, written out. *)
Definition days_in (y m : Z) : Z :=
  nth (Z.to_nat (m - 1))
    [31; if (y mod 4 =? 0) && (negb (y mod 100 =? 0) || (y mod 400 =? 0)) then 29 else 28; 31; 30; 31; 30; 31; 31; 30; 31; 30; 31] 0.
Theorem C29_days y m d radar : 1600 <= y <= 9999 -> 1 <= m <= 12 -> 1 <= d <= 31 ->
  ((exists r, checkDate (date_text y m d 1 0) radar = Ok r) <-> d <= days_in y m).
Proof.
  intros Y M D. assert (E : days_in y m = month_days y m).
  { unfold days_in, month_days, is_leap. assert (In m [1;2;3;4;5;6;7;8;9;10;11;12]) as I by (cbn [In]; lia).
    destruct I as [<-|[<-|[<-|[<-|[<-|[<-|[<-|[<-|[<-|[<-|[<-|[<-|[]]]]]]]]]]]]]; reflexivity. }
  rewrite E. split.
  - intros [r H]. destruct (Z_le_gt_dec d (month_days y m)) as [L|G]; [exact L|].
    rewrite (C29_nonexistent_refuted y m d 1 0 radar Y M) in H by lia. discriminate H.
  - intros L. destruct radar.
    + destruct (C29_radar y m d 1 0) as [A _]; [repeat split; lia|lia|cbn; lia|left; lia|]. eexists. exact A.
    + destruct (C29_round_trip y m d 1 0) as [A _]; [repeat split; lia|lia|cbn; lia| |eexists; exact A].
      intro I. apply in_map_iff in I as (j & Ej & I). assert (j = 0) by lia. subst j.
      repeat (destruct I as [I|I]; [discriminate I|]). exact I.
Qed.
Print Assumptions C29_days.
Example C29_days_example : days_in 1900 2 = 28 /\ days_in 2000 2 = 29 /\ days_in 2024 2 = 29 /\ days_in 2023 12 = 31.
Proof. repeat split. Qed.
Example C29_example :
  date_text 2017 2 28 5 12345 = $"2017 02 28.12345 " /\ calendar 2017 2 28 /\
  checkDate $"2017 02 28.12345 " false = Ok ($"2017-02-28T02:57:46.080Z", PInt 10) /\
  date_text 2017 1 2 6 21875 = $"2017 01 02.021875" /\ 21875 = 625 * 35 /\ In 35 short_by_rounding /\
  checkDate $"2017 01 02.021875" false = Err RuntimeError /\
  checkDate $"2017 02 28.04375 " false = Ok ($"2017-02-28T01:03:00.1000Z", PInt 10) /\
  checkDate $"2017 02 28.020833" true = Ok ($"2017-02-28T00:30:00Z", PInt 1) /\
  2 * Z.abs (20833 * 86400 - 1800 * 10 ^ 6) < 86400 /\
  checkDate $"2017 02 30.5     " false = Err ValueError.
Proof. unfold calendar. repeat split; try (vm_compute; congruence || reflexivity || tauto). Qed.

(** * C32: fields in range *)
(** An ISO time made from columns shows hours below 24, minutes and seconds
    below 60 and three digits of a second, for every date with up to six
    decimals that is not one of the 100 exceptions. *)
Theorem C32_iso y m d k N : calendar y m d -> (1 <= k <= 6)%nat -> 0 <= N < 10 ^ Z.of_nat k ->
  ~ In (N * 10 ^ (6 - Z.of_nat k)) (map (Z.mul 625) short_by_rounding) ->
  exists hh mm ss ms p, 0 <= hh < 24 /\ 0 <= mm < 60 /\ 0 <= ss < 60 /\ 0 <= ms < 1000 /\
    checkDate (date_text y m d k N) false =
      Ok (dec y ++ $"-" ++ num 2 m ++ $"-" ++ num 2 d ++ $"T" ++ num 2 hh ++ $":" ++ num 2 mm ++ $":" ++ num 2 ss ++
          $"." ++ num 3 ms ++ $"Z", p).
Proof. exact (iso_range y m d k N). Qed.
(** A right ascension that was accepted is printed back with minutes and seconds
    below 60 (the text s of [sexagesimal] has them); the same for declinations. *)
Theorem C32_ra w r : (length w <= 12)%nat -> checkRa w = Ok r ->
  exists s X u, sexagesimal s X (snd r) u /\ decRaToSexRa (fst r) (prec_fl (snd r)) = Ok (padr 12 s).
Proof. exact (ra_printed w r). Qed.
Theorem C32_dec w r : length w = 12%nat -> checkDec w = Ok r ->
  exists neg s X u, sexagesimal s X (snd r) u /\ degDeclToSexDecl (fst r) (prec_fl (snd r)) = Ok (padr 12 (sgn neg ++ s)).
Proof. exact (dec_printed w r). Qed.
(** Values from elsewhere are not safe: 60 seconds, 60 minutes, the last moment of
    a day shown as its first, and .1000 seconds for dates with more decimals. *)
Theorem C32_refuted :
  decRaToSexRa $"14.9999999" (prec_fl (PTen 3)) = Ok $"00 59 60.000" /\
  degDeclToSexDecl $"0.9999999" (prec_fl (PTen 2)) = Ok $"+00 60 00.00" /\
  isoToSexDate $"2017-12-31T23:59:59.999Z" (prec_fl (PInt 100)) = Ok $"2017 12 31.0000  " /\
  sexDateToISO $"2017 01 02.00001157" false false true = Ok ($"2017-01-02T00:00:00.1000Z", PTen 2, $".00001157").
Proof. repeat split; vm_compute; reflexivity. Qed.
Example C32_example :
  checkRa $"23 59 59.999" = Ok ($"359.999996", PTen 3) /\ decRaToSexRa $"359.999996" (prec_fl (PTen 3)) = Ok $"23 59 59.999" /\
  checkDec $"-89 59.9    " = Ok ($"-89.998", PInt 6) /\ degDeclToSexDecl $"-89.998" (prec_fl (PInt 6)) = Ok $"-89 59.9    ".
Proof. repeat split; vm_compute; reflexivity. Qed.

Print Assumptions C29_round_trip.
Print Assumptions C29_whole_seconds_refuted.
Print Assumptions C29_radar.
Print Assumptions C29_radar_only.
Print Assumptions C29_only.
Print Assumptions C29_nonexistent_refuted.
Print Assumptions C30_round_trip.
Print Assumptions C30_only.
Print Assumptions C30_precision.
Print Assumptions C31_round_trip.
Print Assumptions C31_only.
Print Assumptions C32_iso.
Print Assumptions C32_ra.
Print Assumptions C32_dec.
