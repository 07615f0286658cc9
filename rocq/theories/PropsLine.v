(** C33: the 80-column lines written from ADES elements.  Vocabulary: Line80Spec.v
    ([fill]: consecutive columns hold these fields), SexSpec.v, JustSpec.v. *)
From Verif Require Import JustSpec PyFloat SexVals SexSpec.
From Verif Require Import XmlToMpc80 Mpc80 Mpc80Spec Line80Spec SexProofs4 LineProofs1 LineProofs2 LineProofs3.

(** * C33 *)
(** An optical element whose fixed-width texts fit is written as one line, or two
    lines with a position, with each field in its columns ([optical_lines]). *)
Theorem C33_optical o d ls : fits o d -> printOpticalLine o d = Ok ls -> optical_lines o d ls.
Proof. exact (optical_cols o d ls). Qed.
(** A radar element is written as two lines. *)
Theorem C33_radar d ls : radar_fits d -> printRadarLine d = Ok ls -> radar_lines d ls.
Proof. exact (radar_cols d ls). Qed.
(** All of them have 80 columns. *)
Theorem C33_optical_80 o d ls l : fits o d -> printOpticalLine o d = Ok ls -> In l ls -> length l = 80%nat.
Proof.
  intros F H I. destruct (optical_cols o d ls F H) as (id & n & c & date & cat & ref & l1 & rest & _ & _ & _ & _ & _ & L1 & -> & R).
  destruct L1 as (? & ? & ? & ? & ? & ? & ? & ? & _ & _ & _ & _ & _ & _ & _ & _ & _ & L1).
  assert (E1 : length l1 = 80%nat) by (apply fill_length in L1; cbn in L1; lia).
  destruct I as [<-|I]; [exact E1|]. destruct (kmem $"pos1" d).
  - destruct R as (m & -> & R). destruct I as [<-|[]].
    destruct R as [(_ & ? & ? & _ & _ & R)|[(_ & ? & ? & ? & _ & _ & _ & R)|[(_ & ? & ? & ? & _ & _ & _ & R)|[_ ->]]]]; try exact E1; apply fill_length in R; cbn in R; lia.
  - subst rest. destruct I.
Qed.
Theorem C33_radar_80 d ls l : radar_fits d -> printRadarLine d = Ok ls -> In l ls -> length l = 80%nat.
Proof.
  intros F H I. destruct (radar_cols d ls F H) as (? & ? & ? & ? & ? & ? & ? & l1 & m & _ & _ & _ & _ & _ & _ & _ & -> & A & B).
  apply fill_length in A, B. cbn in A, B. destruct I as [<-|[<-|[]]]; lia.
Qed.
(** The dates, right ascensions and declinations fit: *)
Theorem C33_date_fits y m d q f p k w : calendar y m d -> 0 <= q < 86400 -> forallb isdig f = true -> (length f <= 6)%nat ->
  day_decimals p k -> isoToSexDate (iso_time y m d q f) p = Ok w -> length w = 17%nat.
Proof. exact (date_width y m d q f p k w). Qed.
Theorem C33_ra_fits t f p w : pyfloat t = Ok f -> fneg f = false -> (fval f <= 1499)%Q ->
  (exists d, decimals p d /\ (d <= 3)%nat /\ ~ minutes_only p) \/ In p (map prec_fl [PHund; PInt 6; PInt 60]) ->
  decRaToSexRa t p = Ok w -> length w = 12%nat.
Proof.
  intros A B C [(d & D1 & D2 & D3)|D] H; [exact (ra_width t f p d w A B C D1 D2 D3 H)|]. cbn [map In] in D.
  destruct D as [<-|[<-|[<-|[]]]]; eapply (ra_width_min t f); eauto; unfold min_prec; eauto.
Qed.
Theorem C33_dec_fits t f p w : pyfloat t = Ok f -> (fmag f <= 99)%Q ->
  (exists d, decimals p d /\ (d <= 2)%nat /\ (fmag p <= 1)%Q /\ ~ minutes_only p /\
     (forall K, 1 # 100000000 <= Qabs (3600 * fmag f + (1 # 2) * fmag p - inject_Z (60 * K)))%Q) \/
  In p (map prec_fl [PHund; PInt 6; PInt 60]) ->
  degDeclToSexDecl t p = Ok w -> length w = 12%nat.
Proof.
  intros A C [(d & D1 & D2 & D3 & D4 & D5)|D] H; [exact (dec_width t f p d w A C D1 D2 D3 D4 D5 H)|]. cbn [map In] in D.
  destruct D as [<-|[<-|[<-|[]]]]; eapply (dec_width_min t f); eauto; unfold min_prec; eauto.
Qed.

Definition ex_dict : fields :=
  [($"provID", $"2017 AA"); ($"mode", $"CCD"); ($"stn", $"I41"); ($"obsTime", $"2017-01-01T02:57:46.080Z"); ($"ra", $"15.51437");
   ($"dec", $"1.03428"); ($"astCat", $"Gaia2"); ($"mag", $"18.5"); ($"band", $"Vj"); ($"ref", $"MPS  12345");
   ($"precTime", $"10"); ($"precRA", $"0.01"); ($"precDec", $"0.1")].
Definition ex_radar : fields :=
  [($"permID", $"433"); ($"trx", $"251"); ($"rcv", $"253"); ($"obsTime", $"2017-01-01T12:00:00Z"); ($"delay", $"12.345678");
   ($"rmsDelay", $"0.5"); ($"frq", $"2380"); ($"com", $"1"); ($"ref", $"JPLRS")].
Example C33_example :
  fits opts_default ex_dict /\
  printOpticalLine opts_default ex_dict = Ok [$"     K17A00A  C2017 01 01.12345 01 02 03.45 +01 02 03.4          18.5 VVb2345I41"] /\
  printOpticalLine opts_default (ex_dict ++ [($"pos1", $"+1234.5"); ($"pos2", $"-2.5"); ($"pos3", $"+0.25"); ($"sys", $"ICRF_KM")]) =
    Ok [$"     K17A00A  S2017 01 01.12345 01 02 03.45 +01 02 03.4          18.5 VVb2345I41";
        $"     K17A00A  s2017 01 01.12345 1 + 1234.5    -    2.5    +    0.25     b2345I41"] /\
  printRadarLine ex_radar =
    Ok [$"00433         R2017 01 01.500000" ++ $"   12345678    " ++ spaces 15 ++ $" 2380 " ++ $"251 JPLRS253";
        $"00433         r2017 01 01.500000" ++ $"C" ++ $"         05   " ++ spaces 15 ++ spaces 6 ++ $"251 JPLRS253"].
Proof.
  split.
  { split; [vm_compute; lia|reflexivity|vm_compute; lia|discriminate|reflexivity|intros _; vm_compute; lia| | |].
    - intros p w P H. unfold precision in P. vm_compute in P. injection P as <-. vm_compute in H. injection H as <-. reflexivity.
    - intros t p w A P H. unfold precision in P. vm_compute in P. injection P as <-. vm_compute in A. injection A as <-. vm_compute in H. injection H as <-. reflexivity.
    - intros t p w A P H. unfold precision in P. vm_compute in P. injection P as <-. vm_compute in A. injection A as <-. vm_compute in H. injection H as <-. reflexivity. }
  split; [vm_compute; reflexivity|]. split; [vm_compute; reflexivity|]. vm_compute. reflexivity.
Qed.
(** What is not checked: a station code of four characters, a deprecated text longer
    than one character, and time precisions below a millionth of a day make lines
    longer than 80 columns; *)
Theorem C33_width_refuted :
  let d k v := dset k v ex_dict in
  (exists l, printOpticalLine opts_default (d $"stn" $"I411") = Ok [l] /\ length l = 81%nat) /\
  (exists l, printOpticalLine opts_default (d $"deprecated" $"true") = Ok [l] /\ length l = 83%nat) /\
  (exists l, printOpticalLine opts_default (d $"precTime" $"0.1") = Ok [l] /\ length l = 81%nat) /\
  (exists l, printOpticalLine opts_default (d $"precDec" $"0.001") = Ok [l] /\ length l = 81%nat).
Proof. do 3 (split; [eexists; split; [vm_compute; reflexivity|reflexivity]|]). eexists; split; [vm_compute; reflexivity|reflexivity]. Qed.
(** a delay of a second and more with six digits before the point loses one of them (123456.5 becomes 12345.5);
    a radar element without a reference, or whose com is neither 0 nor 1, is not written but fails;
    a deprecated observation with a position in an unknown system is printed twice. *)
Theorem C33_others_refuted :
  (exists l m, printRadarLine (dset $"delay" $"123456.5" ex_radar) = Ok [l; m] /\ cols 33 47 l = $"12345.5        ") /\
  printRadarLine (filter (fun kv => negb (streqb (fst kv) $"ref")) ex_radar) = Err KeyError /\
  printRadarLine (dset $"com" $"2" ex_radar) = Err UnboundLocalError /\
  (exists l, printOpticalLine opts_default (ex_dict ++ [($"deprecated", $"X"); ($"pos1", $"1"); ($"sys", $"ITRF")]) = Ok [l; l]).
Proof.
  split; [do 2 eexists; split; [vm_compute; reflexivity|vm_compute; reflexivity]|].
  split; [vm_compute; reflexivity|]. split; [vm_compute; reflexivity|]. eexists. vm_compute. reflexivity.
Qed.
Print Assumptions C33_optical.
Print Assumptions C33_radar.
Print Assumptions C33_optical_80.
Print Assumptions C33_radar_80.
Print Assumptions C33_date_fits.
Print Assumptions C33_ra_fits.
Print Assumptions C33_dec_fits.
