(** C40: the sexagesimal text of any right ascension, declination and ISO time
    (values that need not come from an 80-column line).  The vocabulary is in
    SexSpec.v: sec_text, min_text are "HH MM SS.s" and "HH MM.m", padr 12 adds
    blanks up to 12 characters, fval and fmag are a float's value and magnitude. *)
From Verif Require Import SexVals SexSpec SexProofs4 SexProofs21 SexProofs22 SexProofs23 SexProofs24.
Local Open Scope Z_scope.

(** A decimal RA (degrees, not negative) with a precision of d decimals of a second
    is printed as hours, minutes, seconds that stand for it up to 0.51 of the last
    digit.  The seconds may be 60. *)
Theorem C40_ra_seconds t f p d : pyfloat t = Ok f -> fneg f = false -> (fval f <= 1499)%Q ->
  decimals p d -> (d <= 6)%nat -> ~ minutes_only p ->
  exists h m N, decRaToSexRa t p = Ok (padr 12 (sec_text d h m N)) /\
    0 <= h < 100 /\ 0 <= m < 60 /\ 0 <= N <= 60 * 10 ^ Z.of_nat d /\
    (Qabs (inject_Z (3600 * h + 60 * m) + inject_Z N / inject_Z (10 ^ Z.of_nat d) - 240 * fval f)
       <= (51 # 100) / inject_Z (10 ^ Z.of_nat d))%Q.
Proof. exact (ra_any_sec t f p d). Qed.
Theorem C40_ra_minutes t f q pr : pyfloat t = Ok f -> fneg f = false -> (fval f <= 1499)%Q ->
  In (q, pr) [(2%nat, PHund); (1%nat, PInt 6); (0%nat, PInt 60)] ->
  exists h N, decRaToSexRa t (prec_fl pr) = Ok (padr 12 (min_text q h N)) /\
    0 <= h < 100 /\ 0 <= N <= 60 * 10 ^ Z.of_nat q /\
    (Qabs (inject_Z (60 * h) + inject_Z N / inject_Z (10 ^ Z.of_nat q) - 4 * fval f) <= (51 # 100) / inject_Z (10 ^ Z.of_nat q))%Q.
Proof.
  intros A B C D. apply (ra_any_min t f q pr A B C). unfold min_prec. cbn [In] in D.
  destruct D as [D|[D|[D|[]]]]; injection D as <- <-; auto.
Qed.

(** A declination, unless it is within 1e-8 arc seconds of half a precision below a
    whole minute: degrees, minutes and seconds that stand for it up to 0.51 of the
    last digit, after its sign.  A zero gets "-" if its text starts with "-". *)
Theorem C40_dec_seconds t f p d : pyfloat t = Ok f -> (fmag f <= 99)%Q ->
  decimals p d -> (d <= 6)%nat -> (fmag p <= 1)%Q -> ~ minutes_only p ->
  (forall K, 1 # 100000000 <= Qabs (3600 * fmag f + (1 # 2) * fmag p - inject_Z (60 * K)))%Q ->
  exists neg h m N, degDeclToSexDecl t p = Ok (padr 12 (sgn neg ++ sec_text d h m N)) /\
    0 <= h < 100 /\ 0 <= m <= 60 /\ 0 <= N <= 60 * 10 ^ Z.of_nat d /\
    (Qabs (inject_Z (3600 * h + 60 * m) + inject_Z N / inject_Z (10 ^ Z.of_nat d) - 3600 * fmag f)
       <= (51 # 100) / inject_Z (10 ^ Z.of_nat d))%Q /\
    ((0 < fmag f)%Q -> neg = fneg f) /\ ((fmag f == 0)%Q -> neg = match t with c :: _ => ceqb c "-" | [] => false end) /\
    ((fmag p == fmag (prec_fl (PTen d)))%Q -> N < 60 * 10 ^ Z.of_nat d).
Proof. exact (dec_any_sec t f p d). Qed.
Theorem C40_dec_minutes t f q pr : pyfloat t = Ok f -> (fmag f <= 99)%Q ->
  In (q, pr) [(2%nat, PHund); (1%nat, PInt 6); (0%nat, PInt 60)] ->
  exists neg h N, degDeclToSexDecl t (prec_fl pr) = Ok (padr 12 (sgn neg ++ min_text q h N)) /\
    0 <= h < 100 /\ 0 <= N <= 60 * 10 ^ Z.of_nat q /\
    (Qabs (inject_Z (60 * h) + inject_Z N / inject_Z (10 ^ Z.of_nat q) - 60 * fmag f) <= (51 # 100) / inject_Z (10 ^ Z.of_nat q))%Q /\
    ((0 < fmag f)%Q -> neg = fneg f) /\ ((fmag f == 0)%Q -> neg = match t with c :: _ => ceqb c "-" | [] => false end).
Proof.
  intros A B D. apply (dec_any_min t f q pr A B). unfold min_prec. cbn [In] in D.
  destruct D as [D|[D|[D|[]]]]; injection D as <- <-; auto.
Qed.

(** An ISO time with up to six decimals: the same day with k decimals, off by at
    most 0.501 of the last one -- except that a time rounded up to the end of the
    day (V = 10^k) is printed as the beginning of the same day. *)
Theorem C40_date y m d q f p k : calendar y m d -> 0 <= q < 86400 -> forallb isdig f = true -> (length f <= 6)%nat -> day_decimals p k ->
  exists V, 0 <= V <= 10 ^ Z.of_nat k /\
    isoToSexDate (iso_time y m d q f) p = Ok (date_text y m d k (V mod 10 ^ Z.of_nat k)) /\
    1000 * Z.abs (microseconds q f * 10 ^ Z.of_nat k - V * 86400000000) <= 501 * 86400000000.
Proof. exact (date_any y m d q f p k). Qed.

(** Precisions of 10 seconds or more, other than 60 seconds, and precisions that
    are not positive are refused. *)
Theorem C40_coarse t f p : pyfloat t = Ok f -> ~ minutes_only p -> (fval p <= 0)%Q \/ (fneg p = false /\ (10 <= fmag p)%Q) ->
  decRaToSexRa t p = Err ValueError /\ degDeclToSexDecl t p = Err ValueError.
Proof. exact (coarse_ra t f p). Qed.
Print Assumptions C40_coarse.
Example C40_coarse_example : ~ minutes_only (of_Z 10) /\ fneg (of_Z 10) = false /\ (10 <= fmag (of_Z 10))%Q /\
  decRaToSexRa $"15.5" (of_Z 10) = Err ValueError.
Proof.
  split; [intros [H|[H|H]]; vm_compute in H; discriminate|]. split; [reflexivity|]. split; [vm_compute; discriminate|vm_compute; reflexivity].
Qed.

(** What is false of arbitrary values: 60 seconds, 60 minutes, the day that is not
    carried; a declination half a unit below a whole minute loses a digit
    ("+00 36 9.9" for 35 minutes and 59.95 seconds); with a precision of 5 seconds
    35 minutes and 57.84 seconds become "+00 36 8". *)
Theorem C40_refuted :
  decRaToSexRa $"14.9999999" (prec_fl (PTen 3)) = Ok $"00 59 60.000" /\
  degDeclToSexDecl $"0.9999999" (prec_fl (PTen 2)) = Ok $"+00 60 00.00" /\
  isoToSexDate $"2017-12-31T23:59:59.999Z" (prec_fl (PInt 100)) = Ok $"2017 12 31.0000  " /\
  degDeclToSexDecl $"0.599986111111111" (prec_fl (PTen 1)) = Ok (padr 12 $"+00 36 9.9") /\
  degDeclToSexDecl $"0.5994" (prec_fl (PInt 5)) = Ok (padr 12 $"+00 36 8").
Proof. do 4 (split; [vm_compute; reflexivity|]). vm_compute; reflexivity. Qed.
Example C40_example :
  (exists f, pyfloat $"123.4567891" = Ok f /\ fneg f = false /\ (fval f <= 1499)%Q) /\
  decimals (prec_fl (PTen 2)) 2 /\ ~ minutes_only (prec_fl (PTen 2)) /\
  decRaToSexRa $"123.4567891" (prec_fl (PTen 2)) = Ok $"08 13 49.63 " /\
  decRaToSexRa $"123.4567891" (prec_fl PHund) = Ok $"08 13.83    " /\
  degDeclToSexDecl $"-23.4567891" (prec_fl (PTen 2)) = Ok $"-23 27 24.44" /\
  degDeclToSexDecl $"-0.0" (prec_fl (PInt 6)) = Ok $"-00 00.0    " /\
  isoToSexDate (iso_time 2016 2 29 45296 $"789") (prec_fl (PInt 10)) = Ok $"2016 02 29.52427 " /\
  day_decimals (prec_fl (PInt 10)) 5.
Proof.
  split; [eexists; split; [vm_compute; reflexivity|split; [reflexivity|vm_compute; discriminate]]|].
  split; [split; [reflexivity|left; reflexivity]|].
  split; [intros [H|[H|H]]; vm_compute in H; discriminate|].
  do 5 (split; [vm_compute; reflexivity|]).
  right. left. split; [lia|]. split; [reflexivity|]. split; vm_compute; [discriminate|reflexivity].
Qed.
(** the exclusion around ties in C40_dec_seconds is met by ordinary values *)
Example C40_tie_example : (forall K, 1 # 100000000 <= Qabs (3600 * (1 # 2) + (1 # 2) * (1 # 100) - inject_Z (60 * K)))%Q.
Proof.
  intros K. assert (H : (K <= 30 \/ 31 <= K)) by lia.
  assert (E : (3600 * (1 # 2) + (1 # 2) * (1 # 100) == 1800 + (1 # 200))%Q) by reflexivity. rewrite E.
  destruct H as [H|H].
  - eapply Qle_trans; [|apply Qle_Qabs]. assert (inject_Z (60 * K) <= inject_Z 1800)%Q by (rewrite <- Zle_Qle; lia).
    change (inject_Z 1800) with 1800%Q in *. Lqa.lra.
  - rewrite Qabs_Qminus. eapply Qle_trans; [|apply Qle_Qabs]. assert (inject_Z 1860 <= inject_Z (60 * K))%Q by (rewrite <- Zle_Qle; lia).
    change (inject_Z 1860) with 1860%Q in *. Lqa.lra.
Qed.
Print Assumptions C40_ra_seconds.
Print Assumptions C40_ra_minutes.
Print Assumptions C40_dec_seconds.
Print Assumptions C40_dec_minutes.
Print Assumptions C40_date.
