(** Dates: forward, back, together. *)
From Verif Require Import PyStrProofs PyReInv PackProofs2 PsvLines RoundProofs1 PyFloat PyFloatProofs SexVals SexSpec SexProofs1 SexProofs2 SexProofs3 SexProofs4 SexProofs5 SexProofs6 SexProofs7 SexProofs12 SexProofs13 SexProofs14.
From Coq Require Import Lqa.
Open Scope Z_scope.

Lemma py_int_num k n : (1 <= k)%nat -> 0 <= n < 10 ^ Z.of_nat k -> py_int (num k n) = Ok n.
Proof.
  intros K H. destruct (num_spec k n K H) as (L & A & V). rewrite py_int_digits; [now rewrite V|exact A|].
  intros E. rewrite E in L. cbn in L. lia.
Qed.
Lemma mk_date_ok y m d : calendar y m d -> mk_date y m d = Ok {| d_y := y; d_m := m; d_d := d |}.
Proof.
  intros (Y & M & D). unfold mk_date.
  replace ((1 <=? y) && (y <=? 9999) && (1 <=? m) && (m <=? 12) && (1 <=? d) && (d <=? month_days y m)) with true; [reflexivity|].
  symmetry. repeat (apply andb_true_intro; split); apply Z.leb_le; lia.
Qed.
Lemma mk_date_bad y m d : month_days y m < d -> mk_date y m d = Err ValueError.
Proof.
  intros D. unfold mk_date. destruct (Z.leb_spec d (month_days y m)); [lia|]. now rewrite andb_false_r.
Qed.
Lemma month_days_le y m : 28 <= month_days y m <= 31.
Proof. unfold month_days. repeat match goal with |- context [if ?b then _ else _] => destruct b end; lia. Qed.
Lemma iso_day_fields y m d s tl : iso_day_time y m d s ++ tl = iso_fields y m d (s / 3600) (s / 60 mod 60) (s mod 60) tl.
Proof. unfold iso_day_time, iso_fields. rewrite <- !app_assoc. reflexivity. Qed.
Lemma iso_text_day y m d us : iso_text {| d_y := y; d_m := m; d_d := d |} us = iso_day_time y m d (us / 1000000).
Proof. reflexivity. Qed.
Lemma strp r iso y m d h mi s f g : calendar y m d -> 0 <= h < 24 -> 0 <= mi < 60 -> 0 <= s < 60 ->
  re_match r iso = Some g -> fields_of g iso y m d h mi s f ->
  strptime r iso = Ok ({| d_y := y; d_m := m; d_d := d |}, (h * 3600 + mi * 60 + s) * 1000000 + decval (f ++ repeat "0"%char (6 - length f))).
Proof.
  intros C Hh Hmi Hs M (E1 & E2 & E3 & E4 & E5 & E6 & E7 & E8). pose proof C as (Y & Mo & D). pose proof (month_days_le y m).
  unfold strptime. rewrite M, E1, E2, E3, E4, E5, E6, E7, E8, Nat.eqb_refl. cbn [negb].
  rewrite py_int_dec by lia. rewrite !(py_int_num 2) by (change (10 ^ Z.of_nat 2) with 100; lia). cbn [rbind]. rewrite mk_date_ok by auto. cbn [rbind].
  destruct (Z.ltb_spec 59 s); [lia|]. reflexivity.
Qed.
Lemma sec_split q : 0 <= q < 86400 -> 0 <= q / 3600 < 24 /\ 0 <= q / 60 mod 60 < 60 /\ 0 <= q mod 60 < 60 /\ q / 3600 * 3600 + q / 60 mod 60 * 60 + q mod 60 = q.
Proof. intros H. lia. Qed.
Lemma parse3 y m d q ms : calendar y m d -> 0 <= q < 86400 -> 0 <= ms < 1000 ->
  strptime re_isof (iso_day_time y m d q ++ $"." ++ num 3 ms ++ $"Z") = Ok ({| d_y := y; d_m := m; d_d := d |}, q * 1000000 + ms * 1000).
Proof.
  intros C Q Hm. destruct (sec_split q Q) as (A1 & A2 & A3 & A4). pose proof C as (Y & Mo & D). pose proof (month_days_le y m).
  destruct (num_spec 3 ms ltac:(lia) Hm) as (L & A & V). destruct (len3 _ L) as (u & v & w & E). rewrite E in *.
  apply alldig_cons in A as [Au A]. apply alldig_cons in A as [Av A]. apply alldig_cons in A as [Aw _].
  rewrite iso_day_fields. destruct (isof_match3 y m d (q / 3600) (q / 60 mod 60) (q mod 60) u v w Au Av Aw) as (g & G & F); try lia.
  rewrite (strp _ _ _ _ _ _ _ _ _ _ C A1 A2 A3 G F), A4. do 3 f_equal.
  change (decval ([u; v; w] ++ repeat "0"%char (6 - length [u; v; w]))) with (10 * (10 * (10 * decval [u; v; w] + 0) + 0) + 0). rewrite V. lia.
Qed.
Lemma parse4 y m d q : calendar y m d -> 0 <= q < 86400 ->
  strptime re_isof (iso_day_time y m d q ++ $"." ++ $"1000" ++ $"Z") = Ok ({| d_y := y; d_m := m; d_d := d |}, q * 1000000 + 100000).
Proof.
  intros C Q. destruct (sec_split q Q) as (A1 & A2 & A3 & A4). pose proof C as (Y & Mo & D). pose proof (month_days_le y m).
  change $"1000" with ["1"%char; "0"%char; "0"%char; "0"%char].
  rewrite iso_day_fields. destruct (isof_match4 y m d (q / 3600) (q / 60 mod 60) (q mod 60) "1"%char "0"%char "0"%char "0"%char eq_refl eq_refl eq_refl eq_refl) as (g & G & F); try lia.
  rewrite (strp _ _ _ _ _ _ _ _ _ _ C A1 A2 A3 G F), A4. reflexivity.
Qed.
Lemma parse0 y m d q : calendar y m d -> 0 <= q < 86400 ->
  match strptime re_isof (iso_day_time y m d q ++ $"Z") with Err _ => strptime re_iso (iso_day_time y m d q ++ $"Z") | x => x end =
    Ok ({| d_y := y; d_m := m; d_d := d |}, q * 1000000 + 0).
Proof.
  intros C Q. destruct (sec_split q Q) as (A1 & A2 & A3 & A4). pose proof C as (Y & Mo & D). pose proof (month_days_le y m).
  rewrite iso_day_fields. unfold strptime at 1. rewrite isof_none by lia. cbn iota.
  destruct (iso_match0 y m d (q / 3600) (q / 60 mod 60) (q mod 60)) as (g & G & F); try lia.
  rewrite (strp _ _ _ _ _ _ _ _ _ _ C A1 A2 A3 G F), A4. reflexivity.
Qed.

(** n millionths of a day *)
Lemma n_of k N : (1 <= k <= 6)%nat -> 0 <= N < 10 ^ Z.of_nat k ->
  0 <= N * 10 ^ (6 - Z.of_nat k) < 1000000 /\
  (inject_Z N * i10 k == inject_Z (N * 10 ^ (6 - Z.of_nat k)) * (1 # 1000000))%Q.
Proof.
  intros K H. nat_upto k; try lia;
    (match goal with |- context [10 ^ (6 - Z.of_nat ?a)] => let v := eval vm_compute in (10 ^ (6 - Z.of_nat a)) in change (10 ^ (6 - Z.of_nat a)) with v end;
     match type of H with context [10 ^ Z.of_nat ?a] => let v := eval vm_compute in (10 ^ Z.of_nat a) in change (10 ^ Z.of_nat a) with v in H end;
     split; [lia|]; unfold i10; rewrite inject_Z_mult; cbn; field).
Qed.
Lemma sexdate_fwd y m d k N : calendar y m d -> (1 <= k <= 6)%nat -> 0 <= N < 10 ^ Z.of_nat k ->
  let n := N * 10 ^ (6 - Z.of_nat k) in let t := {| d_y := y; d_m := m; d_d := d |} in
  forall radar, sexDateToISO (date_text y m d k N) radar false true =
    (do (t', us) <- add_us t (if radar then (864 * n + 5000) / 10000 * 1000000 else tus_q (secs n));
     Ok (iso_text t' us ++ (if radar then [] else $"." ++ zfill 3 (dec (ms_q (secs n)))) ++ $"Z", PInt (10 ^ (6 - Z.of_nat k)), $"." ++ num k N)).
Proof.
  intros C K H n t radar. pose proof C as (Y & Mo & D). pose proof (month_days_le y m).
  destruct (num_spec k N ltac:(lia) H) as (L & A & V). assert (Ne : num k N <> []) by (intros E; rewrite E in L; cbn in L; lia).
  destruct (date_match y m d (num k N) (6 - length (num k N)) Y Mo ltac:(lia) A Ne) as (g & G & G1 & G3 & G5 & G6).
  unfold sexDateToISO. replace (date_text y m d k N) with (dec y ++ $" " ++ num 2 m ++ $" " ++ num 2 d ++ $"." ++ num k N ++ spaces (6 - length (num k N))) by reflexivity.
  rewrite G, G1, G3, G5, G6. rewrite py_int_dec by lia. rewrite !(py_int_num 2) by (change (10 ^ Z.of_nat 2) with 100; lia). cbn [rbind].
  destruct (pyfloat_frac (num k N) A Ne) as (x & -> & I). cbn [rbind]. rewrite V, L in I. destruct (n_of k N K H) as [R E]. fold n in R, E.
  pose proof (secs_isp x _ n I E) as S. rewrite L. rewrite mk_date_ok by auto.
  assert (P : date_prec k = PInt (10 ^ (6 - Z.of_nat k))) by (unfold date_prec; destruct (Nat.leb_spec k 6); [reflexivity|lia]). rewrite P.
  pose proof (secs_near n R) as NS. assert (n0 : (0 <= inject_Z n)%Q) by (apply (injZ_le 0); lia). assert (n1 : (inject_Z n <= 1000000)%Q) by (apply (injZ_le _ 1000000); lia).
  assert (S0 : (0 <= secs n)%Q) by apply rnd_nonneg.
  assert (S1 : (secs n <= 90000)%Q) by (unfold near in NS; set (s := secs n) in *; clearbody s; lra).
  destruct radar.
  - cbn [Z.eqb rbind]. fold t.
    rewrite (isp_round _ _ S), (round_secs n R). set (r := (864 * n + 5000) / 10000). assert (Hr : 0 <= r <= 86400) by (unfold r; lia).
    rewrite (tus_isp _ (inject_Z r)) by (apply isp_Z; lia).
    replace (tus_q (inject_Z r)) with (r * 1000000). { reflexivity. }
    unfold tus_q. rewrite Qfloor_Z. rewrite (rheQ_comp _ (inject_Z 0)), rheQ_Z; [lia|].
    rewrite rnd_0; [reflexivity|]. ring.
  - change (3 =? 0) with false. cbn [rbind]. cbn iota. rewrite (tus_isp _ _ S), (ms_isp _ _ S S0 S1). fold t.
    change (Z.to_nat 3) with 3%nat. reflexivity.
Qed.
Lemma add_us_same t us : 0 <= us < 86400 * 1000000 -> add_us t us = Ok (t, us).
Proof. intros H. unfold add_us. rewrite Z.div_small, Z.mod_small by exact H. reflexivity. Qed.

(** the ISO text of an optical date *)
Lemma fwd_ok y m d k N : calendar y m d -> (1 <= k <= 6)%nat -> 0 <= N < 10 ^ Z.of_nat k ->
  let n := N * 10 ^ (6 - Z.of_nat k) in
  ~ In n (map (Z.mul 625) short_by_rounding) ->
  sexDateToISO (date_text y m d k N) false false true =
    Ok (iso_day_time y m d (864 * n / 10000) ++ $"." ++ num 3 ((864 * n mod 10000 + 5) / 10) ++ $"Z", PInt (10 ^ (6 - Z.of_nat k)), $"." ++ num k N) /\
  0 <= 864 * n / 10000 < 86400 /\ 0 <= (864 * n mod 10000 + 5) / 10 <= 998.
Proof.
  intros C K H n NB. destruct (n_of k N K H) as [R _]. fold n in R.
  rewrite (sexdate_fwd y m d k N C K H false). fold n. cbv iota.
  assert (Q0 : 0 <= 864 * n / 10000 < 86400) by lia.
  assert (R1 : exists e, 864 * n mod 10000 = 16 * e) by (exists (54 * n - 625 * (864 * n / 10000)); lia). destruct R1 as (e & R1).
  split; [|split; [exact Q0|lia]].
  destruct (Z.eq_dec (864 * n mod 10000) 0) as [Z|NZ].
  - assert (J : exists j, n = 625 * j /\ 0 <= j < 1600). { exists (n / 625). lia. } destruct J as (j & -> & J).
    destruct (whole_case j J) as (W1 & W2 & _).
    rewrite W1, W2 by (intros I; apply NB, in_map; exact I). rewrite add_us_same by lia. cbn [rbind]. rewrite iso_text_day, Z.div_mul by lia.
    replace (864 * (625 * j) / 10000) with (54 * j) by lia. rewrite Z. change ((0 + 5) / 10) with 0. reflexivity.
  - destruct (part_case n (864 * n / 10000) (864 * n mod 10000) R ltac:(lia) ltac:(lia)) as (W1 & W2).
    rewrite W1, W2, add_us_same by lia. cbn [rbind]. rewrite iso_text_day.
    replace ((864 * n / 10000 * 1000000 + 100 * (864 * n mod 10000)) / 1000000) with (864 * n / 10000) by lia. reflexivity.
Qed.
Lemma fwd_bad y m d k N j : calendar y m d -> (1 <= k <= 6)%nat -> 0 <= N < 10 ^ Z.of_nat k ->
  N * 10 ^ (6 - Z.of_nat k) = 625 * j -> In j short_by_rounding ->
  sexDateToISO (date_text y m d k N) false false true =
    Ok (iso_day_time y m d (54 * j) ++ $".1000Z", PInt (10 ^ (6 - Z.of_nat k)), $"." ++ num k N) /\ 0 <= j < 1600.
Proof.
  intros C K H E I. destruct (n_of k N K H) as [R _]. rewrite E in R. assert (J : 0 <= j < 1600) by lia. split; [|exact J].
  rewrite (sexdate_fwd y m d k N C K H false), E. cbv iota. destruct (whole_case j J) as (W1 & _ & W2).
  rewrite W1, W2, add_us_same by (exact I || lia). cbn [rbind]. rewrite iso_text_day, Z.div_mul by lia. reflexivity.
Qed.
Lemma k_pow k : (1 <= k <= 6)%nat -> 10 ^ Z.of_nat k * 10 ^ (6 - Z.of_nat k) = 1000000.
Proof. intros K. rewrite <- Z.pow_add_r by lia. replace (Z.of_nat k + (6 - Z.of_nat k)) with 6 by lia. reflexivity. Qed.
Lemma date_ok y m d k N : calendar y m d -> (1 <= k <= 6)%nat -> 0 <= N < 10 ^ Z.of_nat k ->
  let n := N * 10 ^ (6 - Z.of_nat k) in
  ~ In n (map (Z.mul 625) short_by_rounding) ->
  let iso := iso_day_time y m d (864 * n / 10000) ++ $"." ++ num 3 ((864 * n mod 10000 + 5) / 10) ++ $"Z" in
  checkDate (date_text y m d k N) false = Ok (iso, PInt (10 ^ (6 - Z.of_nat k))) /\
  isoToSexDate iso (prec_fl (PInt (10 ^ (6 - Z.of_nat k)))) = Ok (date_text y m d k N).
Proof.
  intros C K H n NB iso. destruct (fwd_ok y m d k N C K H NB) as (F & Q0 & M0). fold n in F, Q0, M0.
  destruct (n_of k N K H) as [R _]. fold n in R.
  assert (B : isoToSexDate iso (prec_fl (PInt (10 ^ (6 - Z.of_nat k)))) = Ok (date_text y m d k N)).
  { apply (iso_back iso y m d (864 * n / 10000) ((864 * n mod 10000 + 5) / 10 * 1000) k N K Q0); [lia| |exact H|unfold iso; now rewrite parse3 by (auto; lia)].
    set (W := 864 * n / 10000 * 1000000 + (864 * n mod 10000 + 5) / 10 * 1000). assert (B1 : Z.abs (W - 86400 * n) <= 500) by (unfold W; lia).
    pose proof (k_pow k K) as KP. pose proof (p10_pos k) as P. assert (P6 : 10 ^ Z.of_nat k <= 1000000) by (change 1000000 with (10 ^ 6); apply Z.pow_le_mono_r; lia).
    assert (E : 86400 * n * 10 ^ Z.of_nat k = N * 86400000000) by (unfold n; nia).
    set (T := 10 ^ Z.of_nat k) in *. clearbody T W.
    replace (W * T - N * 86400000000) with ((W - 86400 * n) * T) by lia. rewrite Z.abs_mul. nia. }
  split; [|exact B]. unfold checkDate. fold iso in F. rewrite F. cbn [rbind]. destruct (prec_log k K) as (_ & _ & ->).
  rewrite B. cbn [rbind]. now rewrite streqb_refl.
Qed.
Lemma date_bad y m d k N j : calendar y m d -> (1 <= k <= 6)%nat -> 0 <= N < 10 ^ Z.of_nat k ->
  N * 10 ^ (6 - Z.of_nat k) = 625 * j -> In j short_by_rounding ->
  sexDateToISO (date_text y m d k N) false false true =
    Ok (iso_day_time y m d (54 * j) ++ $".1000Z", PInt (10 ^ (6 - Z.of_nat k)), $"." ++ num k N) /\
  checkDate (date_text y m d k N) false =
    (if Nat.eqb k 6 then Err RuntimeError else Ok (iso_day_time y m d (54 * j) ++ $".1000Z", PInt (10 ^ (6 - Z.of_nat k)))).
Proof.
  intros C K H E I. destruct (fwd_bad y m d k N j C K H E I) as (F & J). split; [exact F|].
  unfold checkDate. rewrite F. cbn [rbind]. destruct (prec_log k K) as (_ & _ & ->).
  pose proof (k_pow k K) as KP. pose proof (p10_pos k) as P.
  assert (PR : match strptime re_isof (iso_day_time y m d (54 * j) ++ $".1000Z") with Err _ => strptime re_iso (iso_day_time y m d (54 * j) ++ $".1000Z") | x => x end =
               Ok ({| d_y := y; d_m := m; d_d := d |}, 54 * j * 1000000 + 100000)).
  { change $".1000Z" with ($"." ++ $"1000" ++ $"Z"). rewrite parse4 by (auto; lia). reflexivity. }
  destruct (Nat.eqb_spec k 6) as [->|K6].
  - change (6 - Z.of_nat 6) with 0 in *. change (10 ^ 0) with 1 in *. change (10 ^ Z.of_nat 6) with 1000000 in *.
    rewrite (iso_back _ y m d (54 * j) 100000 6 (N + 1) K ltac:(lia) ltac:(lia)); [|change (10 ^ Z.of_nat 6) with 1000000; lia..|exact PR].
    cbn [rbind]. rewrite (proj2 (streqb_neq _ _)); [reflexivity|].
    unfold date_text. intros X. rewrite !app_assoc in X. rewrite <- !app_assoc in X. repeat apply app_inv_head in X.
    unfold padr in X. destruct (num_spec 6 (N + 1) ltac:(lia) ltac:(change (10 ^ Z.of_nat 6) with 1000000; lia)) as (L1 & _).
    destruct (num_spec 6 N ltac:(lia) H) as (L2 & _). rewrite L1, L2 in X. apply app_inv_tail in X.
    apply num_inj in X; (lia || (change (10 ^ Z.of_nat 6) with 1000000; lia)).
  - rewrite (iso_back _ y m d (54 * j) 100000 k N K ltac:(lia) ltac:(lia)); [| |exact H|exact PR].
    + cbn [rbind]. now rewrite streqb_refl.
    + assert (P6 : 10 ^ Z.of_nat k <= 100000) by (change 100000 with (10 ^ 5); apply Z.pow_le_mono_r; lia).
      set (T := 10 ^ Z.of_nat k) in *. set (D := 10 ^ (6 - Z.of_nat k)) in *. clearbody T D.
      assert (E2 : 54 * j * 1000000 * T = N * 86400000000) by nia.
      replace ((54 * j * 1000000 + 100000) * T - N * 86400000000) with (100000 * T) by lia. lia.
Qed.
