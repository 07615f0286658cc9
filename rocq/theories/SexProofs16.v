(** Dates: radar (whole seconds). *)
From Verif Require Import PyStrProofs PyReInv PackProofs2 PsvLines RoundProofs1 PyFloat PyFloatProofs SexVals SexSpec SexProofs1 SexProofs2 SexProofs3 SexProofs4 SexProofs5 SexProofs6 SexProofs7 SexProofs12 SexProofs13 SexProofs14 SexProofs15.
From Coq Require Import Lqa.
Open Scope Z_scope.

Definition whole_second (k : nat) (N s : Z) : Prop := 0 <= s < 86400 /\ 2 * Z.abs (N * 86400 - s * 10 ^ Z.of_nat k) < 86400.
Ltac pows k H := match goal with |- context [10 ^ (6 - Z.of_nat k)] => let v := eval vm_compute in (10 ^ (6 - Z.of_nat k)) in change (10 ^ (6 - Z.of_nat k)) with v in * end.
Lemma radar_near k N R : (1 <= k <= 6)%nat -> 0 <= N < 10 ^ Z.of_nat k ->
  R = (864 * (N * 10 ^ (6 - Z.of_nat k)) + 5000) / 10000 ->
  (k <= 4)%nat \/ whole_second k N R ->
  0 <= R < 86400 /\ 1000 * Z.abs ((R * 1000000 + 0) * 10 ^ Z.of_nat k - N * 86400000000) <= 499 * 86400000000.
Proof.
  intros K H ER C. nat_upto k; try lia;
  match type of H with context [10 ^ Z.of_nat ?a] =>
     let v := eval vm_compute in (10 ^ Z.of_nat a) in change (10 ^ Z.of_nat a) with v in *;
     let v := eval vm_compute in (10 ^ (6 - Z.of_nat a)) in change (10 ^ (6 - Z.of_nat a)) with v in * end;
  (destruct C as [C|[C1 C2]]; [lia|]).
  - change (10 ^ Z.of_nat 5) with 100000 in C2. split; [exact C1|lia].
  - change (10 ^ Z.of_nat 6) with 1000000 in C2. split; [exact C1|lia].
Qed.
Lemma radar_second k N s : (5 <= k <= 6)%nat -> 0 <= N < 10 ^ Z.of_nat k -> whole_second k N s -> s = (864 * (N * 10 ^ (6 - Z.of_nat k)) + 5000) / 10000.
Proof.
  intros K H [S C]. nat_upto k; try lia;
  match type of H with context [10 ^ Z.of_nat ?a] =>
     let v := eval vm_compute in (10 ^ Z.of_nat a) in change (10 ^ Z.of_nat a) with v in *;
     let v := eval vm_compute in (10 ^ (6 - Z.of_nat a)) in change (10 ^ (6 - Z.of_nat a)) with v in * end; lia.
Qed.
Lemma radar_ok y m d k N : calendar y m d -> (1 <= k <= 6)%nat -> 0 <= N < 10 ^ Z.of_nat k ->
  let n := N * 10 ^ (6 - Z.of_nat k) in let R := (864 * n + 5000) / 10000 in
  ((k <= 4)%nat \/ exists s, whole_second k N s) ->
  checkDate (date_text y m d k N) true = Ok (iso_day_time y m d R ++ $"Z", PInt (10 ^ (6 - Z.of_nat k))) /\
  isoToSexDate (iso_day_time y m d R ++ $"Z") (prec_fl (PInt (10 ^ (6 - Z.of_nat k)))) = Ok (date_text y m d k N).
Proof.
  intros C K H n R W.
  assert (W' : (k <= 4)%nat \/ whole_second k N R).
  { destruct W as [W|(s & W)]; [now left|]. destruct (Nat.le_gt_cases k 4); [now left|right]. now rewrite (radar_second k N s ltac:(lia) H W) in W. }
  destruct (radar_near k N R K H eq_refl W') as (HR & HB).
  assert (F : sexDateToISO (date_text y m d k N) true false true = Ok (iso_day_time y m d R ++ $"Z", PInt (10 ^ (6 - Z.of_nat k)), $"." ++ num k N)).
  { rewrite (sexdate_fwd y m d k N C K H true). fold n. cbv iota. fold R. rewrite add_us_same by lia. cbn [rbind]. rewrite iso_text_day, Z.div_mul by lia. reflexivity. }
  assert (B : isoToSexDate (iso_day_time y m d R ++ $"Z") (prec_fl (PInt (10 ^ (6 - Z.of_nat k)))) = Ok (date_text y m d k N)).
  { apply (iso_back _ y m d R 0 k N K HR); [lia|exact HB|exact H|]. now apply parse0. }
  split; [|exact B]. unfold checkDate. rewrite F. cbn [rbind]. destruct (prec_log k K) as (_ & _ & ->). rewrite B. cbn [rbind]. now rewrite streqb_refl.
Qed.

(** what isoToSexDate prints in general *)
Lemma day_digits_gen q k : 0 <= q < 86400 -> (1 <= k <= 6)%nat ->
  exists V, fmtf k (day_fl q 0) = dec (V / 10 ^ Z.of_nat k) ++ $"." ++ num k (V mod 10 ^ Z.of_nat k) /\
    1000 * Z.abs (q * 10 ^ Z.of_nat k - V * 86400) <= 501 * 86400.
Proof.
  intros Q K. destruct (day_near q 0 Q ltac:(lia)) as (y & [I1 I2] & N). set (V := rheQ (fmag (day_fl q 0) * inject_Z (10 ^ Z.of_nat k))). exists V.
  split. { rewrite (fmtf_pos k _ V I1 eq_refl). destruct k; [lia|reflexivity]. }
  pose proof (rheQ_near (fmag (day_fl q 0) * inject_Z (10 ^ Z.of_nat k))) as B. fold V in B. rewrite I2 in B. clearbody V.
  pose proof (p10_pos k) as P. assert (P6 : 10 ^ Z.of_nat k <= 1000000) by (change 1000000 with (10 ^ 6); apply Z.pow_le_mono_r; lia).
  set (T := 10 ^ Z.of_nat k) in *. clearbody T. nears. change (inject_Z 0) with 0%Q in N.
  assert (T0 : (0 <= inject_Z T)%Q) by (apply (injZ_le 0); lia). destruct N as [N1 N2].
  assert (N1' := Qmult_le_compat_r _ _ _ N1 T0). assert (N2' := Qmult_le_compat_r _ _ _ N2 T0). clear N1 N2.
  assert (WT : (0 <= inject_Z q * inject_Z T <= 86400 * 1000000)%Q).
  { split; rewrite <- inject_Z_mult.
    - apply (injZ_le 0). nia.
    - apply (injZ_le _ (86400 * 1000000)). nia. }
  setoid_replace ((inject_Z q * 1000000 + 0) * (1 # 86400000000) * (1 - (1 # 100000000000000)) * inject_Z T)%Q with (inject_Z q * inject_Z T * ((1 # 86400) * (1 - (1 # 100000000000000))))%Q in N1' by ring.
  setoid_replace ((inject_Z q * 1000000 + 0) * (1 # 86400000000) * (1 + (1 # 100000000000000)) * inject_Z T)%Q with (inject_Z q * inject_Z T * ((1 # 86400) * (1 + (1 # 100000000000000))))%Q in N2' by ring.
  set (yt := (y * inject_Z T)%Q) in *.
  assert (G : (Qabs (1000 * (inject_Z q * inject_Z T - inject_Z V * 86400)) <= 501 * 86400)%Q).
  { apply Qabs_Qle_condition. set (wt := (inject_Z q * inject_Z T)%Q) in *. clearbody yt wt. set (v := inject_Z V) in *. clearbody v. split; lra. }
  apply Qabs_Qle_condition in G. destruct G as [G1 G2].
  assert (E : (1000 * (inject_Z q * inject_Z T - inject_Z V * 86400) == inject_Z (1000 * (q * T - V * 86400)))%Q).
  { rewrite inject_Z_mult. unfold Z.sub. rewrite inject_Z_plus, inject_Z_opp, !inject_Z_mult. reflexivity. }
  rewrite E in G1, G2. change (501 * 86400)%Q with (inject_Z (501 * 86400)) in G1, G2. rewrite <- inject_Z_opp in G1. rewrite <- Zle_Qle in G1, G2. lia.
Qed.
Lemma iso_back_gen iso y m d q k : (1 <= k <= 6)%nat -> 0 <= q < 86400 ->
  match strptime re_isof iso with Err _ => strptime re_iso iso | x => x end = Ok ({| d_y := y; d_m := m; d_d := d |}, q * 1000000 + 0) ->
  exists V, isoToSexDate iso (prec_fl (PInt (10 ^ (6 - Z.of_nat k)))) = Ok (date_text y m d k (V mod 10 ^ Z.of_nat k)) /\
    1000 * Z.abs (q * 10 ^ Z.of_nat k - V * 86400) <= 501 * 86400.
Proof.
  intros K Q E. destruct (day_digits_gen q k Q K) as (V & F & B). exists V. split; [|exact B].
  pose proof (p10_pos k) as P. assert (HV : 0 <= V mod 10 ^ Z.of_nat k < 10 ^ Z.of_nat k) by (apply Z.mod_pos_bound; lia).
  assert (V0 : 0 <= V) by nia.
  unfold isoToSexDate. rewrite E. cbn [rbind]. destruct (prec_log k K) as (-> & -> & _).
  rewrite Z.div_add_l, Z.div_small, Z.add_0_r by lia.
  replace ((q * 1000000 + 0) mod 1000000) with 0 by (rewrite Z.add_0_r, Z.mod_mul by lia; reflexivity).
  replace (6 - (6 - Z.of_nat k)) with (Z.of_nat k) by lia. destruct (Z.leb_spec (Z.of_nat k) 0); [lia|]. rewrite Nat2Z.id.
  fold (day_fl q 0). rewrite F. change ($"." ++ num k (V mod 10 ^ Z.of_nat k)) with ("."%char :: num k (V mod 10 ^ Z.of_nat k)).
  rewrite splitc_cons by (apply alldig_notin; [reflexivity|apply dec_alldig, Z.div_pos; lia]).
  rewrite splitc_one by (apply alldig_notin; [reflexivity|apply num_alldig; lia]).
  unfold date_text, sex_text, d2, num. cbn [d_y d_m d_d]. rewrite <- !app_assoc. reflexivity.
Qed.
Lemma date_text_inj y m d k N y' m' d' k' N' : calendar y m d -> calendar y' m' d' -> (1 <= k)%nat -> 0 <= N < 10 ^ Z.of_nat k -> 0 <= N' < 10 ^ Z.of_nat k ->
  k = k' -> date_text y m d k N = date_text y' m' d' k' N' -> (y, m, d) = (y', m', d') /\ N = N'.
Proof.
  intros (Y & M & D) (Y' & M' & D') K H H' <- E. pose proof (month_days_le y m). pose proof (month_days_le y' m').
  unfold date_text in E. destruct (year_shape y Y) as (a & b & c & e & Ey & _). destruct (year_shape y' Y') as (a' & b' & c' & e' & Ey' & _).
  assert (X : dec y = dec y'). { rewrite Ey, Ey' in *. cbn [app] in E. injection E as -> -> -> -> _. reflexivity. }
  rewrite X in E. apply app_inv_head in E. apply app_inv_head in E.
  assert (V : y = y') by (apply (f_equal py_int) in X; rewrite !py_int_dec in X by lia; congruence). subst y'.
  destruct (num2 m ltac:(lia)) as (m1 & m2 & Em & _ & _ & Pm). destruct (num2 m' ltac:(lia)) as (m1' & m2' & Em' & _ & _ & Pm').
  destruct (num2 d ltac:(lia)) as (d1 & d2 & Ed & _ & _ & Pd). destruct (num2 d' ltac:(lia)) as (d1' & d2' & Ed' & _ & _ & Pd').
  rewrite Em, Em', Ed, Ed' in E. cbn [app] in E. injection E as -> -> -> -> E.
  assert (m = m') by congruence. assert (d = d') by congruence. subst. split; [reflexivity|].
  destruct (num_spec k N K H) as (L & _ & V1). destruct (num_spec k N' K H') as (L' & _ & V2).
  unfold padr in E. rewrite L, L' in E. apply app_inv_tail in E. congruence.
Qed.
Lemma next_day_ne t t' : next_day t = Ok t' -> (d_y t', d_m t', d_d t') <> (d_y t, d_m t, d_d t).
Proof.
  unfold next_day. destruct t as [y m d]. cbn [d_y d_m d_d]. intros E X.
  destruct (Z.ltb_spec d (month_days y m)); [|destruct (Z.ltb_spec m 12); [|destruct (Z.ltb_spec y 9999); [|discriminate]]];
    injection E as E; subst t'; cbn [d_y d_m d_d] in X; injection X; intros; lia.
Qed.
Lemma next_day_cal y m d t' : calendar y m d -> next_day {| d_y := y; d_m := m; d_d := d |} = Ok t' -> calendar (d_y t') (d_m t') (d_d t').
Proof.
  intros (Y & M & D) E. unfold next_day in E. cbn [d_y d_m d_d] in E. 
  destruct (Z.ltb_spec d (month_days y m)); [|destruct (Z.ltb_spec m 12); [|destruct (Z.ltb_spec y 9999); [|discriminate]]];
    injection E as E; subst t'; unfold calendar; cbn [d_y d_m d_d]; (split; [lia|split; [lia|]]); [lia| |];
    match goal with |- context [month_days ?a ?b] => pose proof (month_days_le a b); lia end.
Qed.
Lemma radar_only y m d k N r : calendar y m d -> (1 <= k <= 6)%nat -> 0 <= N < 10 ^ Z.of_nat k ->
  checkDate (date_text y m d k N) true = Ok r -> exists s, 0 <= s < 86400 /\ 2 * Z.abs (N * 86400 - s * 10 ^ Z.of_nat k) <= 86400.
Proof.
  intros C K H E. set (n := N * 10 ^ (6 - Z.of_nat k)). set (R := (864 * n + 5000) / 10000).
  destruct (n_of k N K H) as [Rn _]. fold n in Rn. assert (HR : 0 <= R <= 86400) by (unfold R; lia).
  unfold checkDate in E. rewrite (sexdate_fwd y m d k N C K H true) in E. fold n in E. cbv iota in E. fold R in E.
  pose proof (p10_pos k) as P.
  destruct (Z.eq_dec R 86400) as [X|X].
  - (* the next day *)
    exfalso. rewrite X in E. unfold add_us in E. change (Z.to_nat (86400 * 1000000 / (86400 * 1000000))) with 1%nat in E.
    change (86400 * 1000000 mod (86400 * 1000000)) with 0 in E. cbn [add_days rbind] in E.
    destruct (next_day {| d_y := y; d_m := m; d_d := d |}) as [t'|] eqn:ND; [|discriminate]. cbn [rbind app] in E.
    destruct (prec_log k K) as (_ & _ & L). rewrite L in E. destruct t' as [y' m' d']. pose proof (next_day_cal _ _ _ _ C ND) as C'. cbn [d_y d_m d_d] in C'.
    rewrite iso_text_day in E. change (0 / 1000000) with 0 in E.
    destruct (iso_back_gen (iso_day_time y' m' d' 0 ++ $"Z") y' m' d' 0 k K ltac:(lia) (parse0 y' m' d' 0 C' ltac:(lia))) as (V & B & _).
    rewrite B in E. cbn [rbind] in E. destruct (streqb _ _) eqn:S; [|discriminate]. apply streqb_eq in S.
    apply (date_text_inj y' m' d' k _ y m d k N C' C ltac:(lia) ltac:(apply Z.mod_pos_bound; lia) H eq_refl) in S as [S _].
    now apply (next_day_ne _ _ ND).
  - assert (HR' : 0 <= R < 86400) by lia. rewrite add_us_same in E by lia. cbn [rbind app] in E. rewrite iso_text_day, Z.div_mul in E by lia.
    destruct (prec_log k K) as (_ & _ & L). rewrite L in E.
    destruct (iso_back_gen (iso_day_time y m d R ++ $"Z") y m d R k K HR' (parse0 y m d R C HR')) as (V & B & D).
    rewrite B in E. cbn [rbind] in E. destruct (streqb _ _) eqn:S; [|discriminate]. apply streqb_eq in S.
    apply (date_text_inj y m d k _ y m d k N C C ltac:(lia) ltac:(apply Z.mod_pos_bound; lia) H eq_refl) in S as [_ S].
    exists R. split; [exact HR'|].
    clear - S D HR' H K. unfold R, n in *. clear R n. nat_upto k; try lia;
    match type of H with context [10 ^ Z.of_nat ?a] =>
     let v := eval vm_compute in (10 ^ Z.of_nat a) in change (10 ^ Z.of_nat a) with v in *;
     let v := eval vm_compute in (10 ^ (6 - Z.of_nat a)) in change (10 ^ (6 - Z.of_nat a)) with v in * end; lia.
Qed.
