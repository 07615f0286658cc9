(** C33: radar lines; widths of dates and angles. *)
From Verif Require Import PyStrProofs JustSpec JustProofs PackProofs8 PackProofs13 PyFloat SexVals SexSpec SexProofs1 SexProofs4 SexProofs7 SexProofs12 SexProofs21 SexProofs22 SexProofs23.
From Verif Require Import XmlToMpc80 Mpc80 Mpc80Spec Mpc80Proofs1 Mpc80Proofs11 Line80Spec LineProofs1 LineProofs2.
Local Open Scope nat_scope.

Lemma drop_without p s : 1 <= p -> drop_at (p - 1) s = without p s.
Proof. intros P. unfold drop_at, without. now replace (S (p - 1)) with p by lia. Qed.
Lemma without_len p s : 1 <= p -> p <= length s -> length (without p s) = length s - 1.
Proof. intros P L. unfold without. rewrite app_length, firstn_length, skipn_length. lia. Qed.
Lemma padD_narrow s l p r : padD s l p = Ok r -> narrow s l p -> Z.of_nat (length r) = l.
Proof.
  unfold padD, narrow. destruct (applyPaddingAndJustification s l $"D" p) as [[[r' w] q]|e] eqn:E; [|discriminate]. cbn [rbind]. intros H [N1 N2]. apply OkI in H. subst r'.
  change (just_decimal s l p = Ok (r, w, q)) in E. apply just_D in E as (_ & _ & a & b & _ & Ew & Eq & Ea & E2). unfold wid in *. lia.
Qed.
Lemma pointless_spec d k w p m a : 1 <= p -> p <= S w ->
  padD (hasKeyOrVal d k (spaces m)) (Z.of_nat (S w)) (Z.of_nat p) = Ok a ->
  padD (spaces m) (Z.of_nat (S w)) (Z.of_nat p) = Ok (spaces (S w)) ->
  (forall s, dget k d = Some s -> narrow s (Z.of_nat (S w)) (Z.of_nat p)) ->
  pointless d k w p (drop_at (p - 1) a) /\ length (drop_at (p - 1) a) = w.
Proof.
  intros P1 P2 H B N. rewrite drop_without by auto. unfold hasKeyOrVal in H. unfold pointless.
  assert (L : length a = S w /\ match dget k d with None => a = spaces (S w) | Some s => aligned s (Z.of_nat (S w)) (Z.of_nat p) a end).
  { destruct (dget k d) as [s|].
    - split; [apply padD_narrow in H; [lia|now apply N]|]. now apply padD_len in H.
    - rewrite B in H. apply OkI in H. subst a. unfold spaces at 1. rewrite repeat_length. auto. }
  destruct L as [L A]. split; [|rewrite without_len; lia].
  destruct (dget k d) as [s|]; [eauto|]. subst a. unfold without, spaces.
  rewrite <- (firstn_skipn (p - 1) (repeat " "%char w)).
  assert (R : forall n x, firstn n (repeat " "%char x) = repeat " "%char (min n x)).
  { clear. induction n; intros [|x]; cbn; [reflexivity|reflexivity|reflexivity|]. now rewrite IHn. }
  assert (R2 : forall n x, skipn n (repeat " "%char x) = repeat " "%char (x - n)).
  { clear. induction n; intros [|x]; cbn; [reflexivity|reflexivity|reflexivity|]. now rewrite IHn. }
  rewrite !R, !R2. f_equal; f_equal; lia.
Qed.
Theorem radar_cols d ls : radar_fits d -> printRadarLine d = Ok ls -> radar_lines d ls.
Proof.
  intros F H. unfold printRadarLine in H.
  destruct (packTupleID _) as [id|] eqn:Eid in H; [|discriminate H]. cbn [rbind] in H. cbv zeta in H. pose proof (c09 _ _ Eid) as Lid.
  destruct (kget $"obsTime" d) as [ot|] eqn:Eot in H; [|discriminate H]. cbn [rbind] in H. apply kget_ok in Eot.
  destruct (isoToSexDate ot (of_Z 1)) as [date|] eqn:Edate in H; [|discriminate H]. cbn [rbind] in H.
  destruct (packRef _) as [ref0|] eqn:Eref0 in H; [|discriminate H]. cbn [rbind] in H.
  destruct (unPackSigned _ 16 12) as [dop|] eqn:Edop in H; [|discriminate H]. cbn [rbind] in H.
  destruct (padD _ 16 12) as [rdop|] eqn:Erdop in H; [|discriminate H]. cbn [rbind] in H.
  destruct (padD _ 16 6) as [del|] eqn:Edel in H; [|discriminate H]. cbn [rbind] in H.
  destruct (padD _ 15 11) as [rdel|] eqn:Erdel in H; [|discriminate H]. cbn [rbind] in H.
  destruct (padD _ 7 6) as [frq|] eqn:Efrq in H; [|discriminate H]. cbn [rbind] in H.
  destruct (kget $"trx" d) as [trx|] eqn:Etrx in H; [|discriminate H]. cbn [rbind] in H. apply kget_ok in Etrx.
  destruct (kget $"ref" d) as [ref|] eqn:Eref in H; [|discriminate H]. cbn [rbind] in H. apply kget_ok in Eref.
  destruct (kget $"rcv" d) as [rcv|] eqn:Ercv in H; [|discriminate H]. cbn [rbind] in H. apply kget_ok in Ercv.
  pose proof (rf_trx d F) as Ltrx. pose proof (rf_ref d F) as Lref. pose proof (rf_rcv d F) as Lrcv.
  rewrite (given_some _ _ _ _ Etrx) in Ltrx. rewrite (given_some _ _ _ _ Eref) in Lref. rewrite (given_some _ _ _ _ Ercv) in Lrcv.
  assert (Ldate : length date = 17). { apply (rf_date d F). now rewrite (given_some _ _ _ _ Eot). }
  apply (pointless_spec d $"delay" 15 6 15 del) in Edel as [Pdel Ldel]; [|lia|lia|vm_compute; reflexivity|exact (rf_delay d F)].
  apply (pointless_spec d $"rmsDelay" 14 11 14 rdel) in Erdel as [Prdel Lrdel]; [|lia|lia|vm_compute; reflexivity|exact (rf_rmsDelay d F)].
  apply (pointless_spec d $"rmsDoppler" 15 12 15 rdop) in Erdop as [Prdop Lrdop]; [|lia|lia|vm_compute; reflexivity|exact (rf_rmsDoppler d F)].
  apply (pointless_spec d $"frq" 6 6 7 frq) in Efrq as [Pfrq Lfrq]; [|lia|lia|vm_compute; reflexivity|exact (rf_frq d F)].
  change (6 - 1) with 5 in *. change (11 - 1) with 10 in *. change (12 - 1) with 11 in *.
  assert (PD : match dget $"doppler" d with None => drop_at 11 dop = spaces 15 | Some s => exists a, unPackSigned s 16 12 = Ok a /\ drop_at 11 dop = without 12 a end /\ length (drop_at 11 dop) = 15).
  { unfold hasKeyOrVal in Edop. change 11 with (12 - 1). rewrite drop_without by lia. destruct (dget $"doppler" d) as [s|] eqn:ED.
    - split; [eauto|]. pose proof (rf_doppler d F s dop ED Edop). rewrite without_len; lia.
    - assert (X : unPackSigned (spaces 15) 16 12 = Ok (spaces 16)) by (vm_compute; reflexivity). rewrite X in Edop. apply OkI in Edop. subst dop. split; reflexivity. }
  destruct PD as [PD Ldop]. set (sh := drop_at 11 dop) in *. set (fr := drop_at 5 frq) in *. set (dl := drop_at 5 del) in *. set (rl := drop_at 10 rdel) in *. set (rp := drop_at 11 rdop) in *.
  clearbody sh fr dl rl rp. pose proof (rf_disc d F) as Ld. pose proof (rf_notes d F) as Ln.
  change (hasKeyOrVal d $"disc" $" ") with (given d $"disc" $" ") in *. change (hasKeyOrVal d $"notes" $" ") with (given d $"notes" $" ") in *.
  change (hasKeyOrVal d $"com" $"0") with (given d $"com" $"0") in *. set (com := given d $"com" $"0") in *.
  set (disc := given d $"disc" $" ") in *. set (nt := given d $"notes" $" ") in *.
  assert (S : exists sc, (if streqb com $"1" then Some $"C" else if streqb com $"0" then Some $"S" else None) = Some sc /\ sc = (if streqb com $"1" then $"C" else $"S") /\ length sc = 1).
  { destruct (streqb com $"1"); [eauto|]. destruct (streqb com $"0"); [eauto|]. discriminate H. }
  destruct S as (sc & S1 & S2 & S3). rewrite S1 in H. cbn [rbind] in H. apply OkI in H. subst ls.
  exists id, date, dl, sh, fr, rl, rp. do 2 eexists. split; [exact Eid|]. split; [now rewrite (given_some _ _ _ _ Eot)|].
  split; [exact Pdel|]. split; [exact Prdel|]. split; [exact Prdop|]. split; [exact Pfrq|]. split; [exact PD|]. split; [reflexivity|].
  rewrite (given_some _ _ _ _ Etrx), (given_some _ _ _ _ Eref), (given_some _ _ _ _ Ercv). fold com. rewrite <- S2. fold disc nt.
  split; (apply fill_line; [cbn [map snd concat]; rewrite ?app_nil_r, <- ?app_assoc; reflexivity|widths|widths]).
Qed.

(** widths of dates and angles *)
From Verif Require Import SexSpec.
Local Open Scope Z_scope.
Lemma padr_len n s : length (padr n s) = Nat.max n (length s).
Proof. unfold padr. rewrite app_length. unfold spaces. rewrite repeat_length. lia. Qed.
Lemma num_len w n : (1 <= w)%nat -> 0 <= n < 10 ^ Z.of_nat w -> length (num w n) = w.
Proof. intros W N. now apply num_spec. Qed.
Lemma month_days_31 y m : month_days y m <= 31.
Proof. unfold month_days. repeat match goal with |- context [if ?b then _ else _] => destruct b end; lia. Qed.
Lemma date_width y m d q f p k w : calendar y m d -> 0 <= q < 86400 -> forallb isdig f = true -> (length f <= 6)%nat -> day_decimals p k ->
  isoToSexDate (iso_time y m d q f) p = Ok w -> length w = 17%nat.
Proof.
  intros C Q A L K H. destruct (date_any y m d q f p k C Q A L K) as (V & HV & E & _). rewrite E in H. apply OkI in H. subst w.
  destruct (day_log p k K) as (_ & K1 & _). destruct C as (C1 & C2 & C3). pose proof (month_days_31 y m).
  assert (P : 0 < 10 ^ Z.of_nat k) by (apply Z.pow_pos_nonneg; lia). pose proof (Z.mod_pos_bound V _ P).
  unfold date_text. rewrite !app_length, padr_len, !num_len by (cbn; lia). rewrite (dec_length y 3) by (cbn; lia). change (length $" ") with 1%nat. change (length $".") with 1%nat. lia.
Qed.
Lemma ra_width t f p d w : pyfloat t = Ok f -> fneg f = false -> (fval f <= 1499)%Q -> decimals p d -> (d <= 3)%nat -> ~ minutes_only p ->
  decRaToSexRa t p = Ok w -> length w = 12%nat.
Proof.
  intros A B C D E M H. destruct (ra_any_sec t f p d A B C D ltac:(lia) M) as (h & m & N & R & H1 & H2 & H3 & _).
  rewrite R in H. apply OkI in H. subst w. assert (P : 0 < 10 ^ Z.of_nat d) by (apply Z.pow_pos_nonneg; lia).
  unfold sec_text. rewrite padr_len, !app_length, !num_len, fixed_length by (try change (10 ^ Z.of_nat 2) with 100; lia). change (length $" ") with 1%nat. destruct d; lia.
Qed.
Lemma ra_width_min t f q pr w : pyfloat t = Ok f -> fneg f = false -> (fval f <= 1499)%Q -> min_prec q pr ->
  decRaToSexRa t (prec_fl pr) = Ok w -> length w = 12%nat.
Proof.
  intros A B C D H. destruct (ra_any_min t f q pr A B C D) as (h & N & R & H1 & H3 & _).
  rewrite R in H. apply OkI in H. subst w. assert (P : 0 < 10 ^ Z.of_nat q) by (apply Z.pow_pos_nonneg; lia).
  assert (q <= 2)%nat by (destruct D as [[-> _]|[[-> _]|[-> _]]]; lia).
  unfold min_text. rewrite padr_len, !app_length, !num_len, fixed_length by (try change (10 ^ Z.of_nat 2) with 100; lia). change (length $" ") with 1%nat. destruct q; lia.
Qed.
Lemma dec_width t f p d w : pyfloat t = Ok f -> (fmag f <= 99)%Q -> decimals p d -> (d <= 2)%nat -> (fmag p <= 1)%Q -> ~ minutes_only p ->
  (forall K, 1 # 100000000 <= Qabs (3600 * fmag f + (1 # 2) * fmag p - inject_Z (60 * K)))%Q ->
  degDeclToSexDecl t p = Ok w -> length w = 12%nat.
Proof.
  intros A C D E P1 M T H. destruct (dec_any_sec t f p d A C D ltac:(lia) P1 M T) as (sg & h & m & N & R & H1 & H2 & H3 & _).
  rewrite R in H. apply OkI in H. subst w. assert (P : 0 < 10 ^ Z.of_nat d) by (apply Z.pow_pos_nonneg; lia).
  unfold sec_text. rewrite padr_len, !app_length, !num_len, fixed_length by (try change (10 ^ Z.of_nat 2) with 100; lia). change (length $" ") with 1%nat. replace (length (sgn sg)) with 1%nat by (destruct sg; reflexivity). destruct d; lia.
Qed.
Lemma dec_width_min t f q pr w : pyfloat t = Ok f -> (fmag f <= 99)%Q -> min_prec q pr ->
  degDeclToSexDecl t (prec_fl pr) = Ok w -> length w = 12%nat.
Proof.
  intros A C D H. destruct (dec_any_min t f q pr A C D) as (sg & h & N & R & H1 & H3 & _).
  rewrite R in H. apply OkI in H. subst w. assert (P : 0 < 10 ^ Z.of_nat q) by (apply Z.pow_pos_nonneg; lia).
  assert (q <= 2)%nat by (destruct D as [[-> _]|[[-> _]|[-> _]]]; lia).
  unfold min_text. rewrite padr_len, !app_length, !num_len, fixed_length by (try change (10 ^ Z.of_nat 2) with 100; lia). change (length $" ") with 1%nat. replace (length (sgn sg)) with 1%nat by (destruct sg; reflexivity). destruct q; lia.
Qed.
