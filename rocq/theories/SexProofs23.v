(** Any ISO time: what isoToSexDate prints. *)
From Verif Require Import PyStrProofs PyReInv PackProofs2 PsvLines RoundProofs1 PyFloat PyFloatProofs SexVals SexSpec SexProofs1 SexProofs2 SexProofs3 SexProofs4 SexProofs5 SexProofs6 SexProofs7 SexProofs12 SexProofs13 SexProofs14 SexProofs15 SexProofs19 SexProofs20 SexProofs21.
From Coq Require Import Lqa Qpower.
Open Scope Z_scope.

Definition dot_match (f : str) : Prop := forall y m d h mi s,
  1600 <= y <= 9999 -> 1 <= m <= 12 -> 1 <= d <= 31 -> 0 <= h < 24 -> 0 <= mi < 60 -> 0 <= s < 60 ->
  exists g, re_match re_isof (iso_fields y m d h mi s ($"." ++ f ++ $"Z")) = Some g /\
    fields_of g (iso_fields y m d h mi s ($"." ++ f ++ $"Z")) y m d h mi s f.
Lemma isof_match1 u : isdig u = true -> dot_match [u].
Proof. intros Hu y m d h mi s. allI ltac:(goI re_isof) [ch "."%char; dg u]. Qed.
Lemma isof_match2 u v : isdig u = true -> isdig v = true -> dot_match [u; v].
Proof. intros Hu Hv y m d h mi s. allI ltac:(goI re_isof) [ch "."%char; dg u; dg v]. Qed.
Lemma isof_match5 u v w z a : isdig u = true -> isdig v = true -> isdig w = true -> isdig z = true -> isdig a = true -> dot_match [u; v; w; z; a].
Proof. intros Hu Hv Hw Hz Ha' y m d h mi s. allI ltac:(goI re_isof) [ch "."%char; dg u; dg v; dg w; dg z; dg a]. Qed.
Lemma isof_match6 u v w z a b : isdig u = true -> isdig v = true -> isdig w = true -> isdig z = true -> isdig a = true -> isdig b = true -> dot_match [u; v; w; z; a; b].
Proof. intros Hu Hv Hw Hz Ha' Hb' y m d h mi s. allI ltac:(goI re_isof) [ch "."%char; dg u; dg v; dg w; dg z; dg a; dg b]. Qed.

Lemma dot_any f : alldig f = true -> (1 <= length f <= 6)%nat -> dot_match f.
Proof.
  intros A L. assert (H : (length f = 1 \/ length f = 2 \/ length f = 3 \/ length f = 4 \/ length f = 5 \/ length f = 6)%nat) by lia.
  destruct f as [|a [|b [|c [|e [|g [|i [|? ?]]]]]]]; cbn [length] in H; try lia; clear H L;
    repeat (apply alldig_cons in A; let X := fresh in destruct A as [X A]).
  - now apply isof_match1.
  - now apply isof_match2.
  - red. intros. now apply isof_match3.
  - red. intros. now apply isof_match4.
  - now apply isof_match5.
  - now apply isof_match6.
Qed.
Lemma decval_pad f k : decval (f ++ repeat "0"%char k) = decval f * 10 ^ Z.of_nat k.
Proof. rewrite decval_app, repeat_length. rewrite decval_zeros. lia. Qed.
Lemma parse_any y m d q f : calendar y m d -> 0 <= q < 86400 -> alldig f = true -> (length f <= 6)%nat ->
  match strptime re_isof (iso_time y m d q f) with Err _ => strptime re_iso (iso_time y m d q f) | x => x end =
    Ok ({| d_y := y; d_m := m; d_d := d |}, microseconds q f).
Proof.
  intros C Q A L. unfold iso_time, microseconds. destruct f as [|c f'].
  - cbn [app]. rewrite parse0 by auto. reflexivity.
  - set (f := c :: f') in *. destruct (sec_split q Q) as (A1 & A2 & A3 & A4). pose proof C as (Y & Mo & D). pose proof (month_days_le y m).
    rewrite <- app_assoc, iso_day_fields.
    destruct (dot_any f A ltac:(unfold f in *; cbn [length] in *; lia) y m d (q / 3600) (q / 60 mod 60) (q mod 60)) as (g & G & F); try lia.
    rewrite (strp _ _ _ _ _ _ _ _ _ _ C A1 A2 A3 G F), A4, decval_pad. assert (LL : (length f <= 6)%nat) by exact L. rewrite Nat2Z.inj_sub by exact LL. reflexivity.
Qed.
Lemma micro_bound q f : 0 <= q < 86400 -> alldig f = true -> (length f <= 6)%nat ->
  exists mi, microseconds q f = q * 1000000 + mi /\ 0 <= mi < 1000000.
Proof.
  intros Q A L. exists (decval f * 10 ^ (6 - Z.of_nat (length f))). split; [reflexivity|].
  pose proof (decval_bound f A) as B. assert (E : 10 ^ Z.of_nat (length f) * 10 ^ (6 - Z.of_nat (length f)) = 1000000).
  { rewrite <- Z.pow_add_r by lia. replace (Z.of_nat (length f) + (6 - Z.of_nat (length f))) with 6 by lia. reflexivity. }
  assert (0 < 10 ^ (6 - Z.of_nat (length f))) by (apply Z.pow_pos_nonneg; lia). nia.
Qed.

Lemma up_le x : forall g k, k <= log10_up g x k.
Proof.
  induction g as [|g IHg]; intros k; cbn [log10_up].
  - apply Z.le_refl.
  - destruct (Qle_bool _ _).
    + specialize (IHg (k + 1)). lia.
    + apply Z.le_refl.
Qed.
Lemma up_ge x c : (t10 c <= x)%Q -> forall f j, j <= c -> c - j <= Z.of_nat f -> c <= log10_up f x j.
Proof.
  intros A. induction f as [|f IH]; intros j J F; [cbn; lia|]. cbn [log10_up].
  destruct (Qle_bool (decimal 1 (j + 1)) x) eqn:E.
  - destruct (Z.eq_dec j c) as [->|].
    + pose proof (up_le x f (c + 1)). lia.
    + apply IH; lia.
  - destruct (Z.eq_dec j c); [lia|]. assert (T : Qle_bool (decimal 1 (j + 1)) x = true); [|congruence].
    apply Qle_bool_iff. rewrite decimal_t10. eapply Qle_trans; [apply t10_mono|exact A]. lia.
Qed.
Lemma day_log p k : day_decimals p k -> Qle_bool (fval p) 0 = false /\ (1 <= k <= 6)%nat /\
  (let n := 6 - int_log10 (fmag p) in if n <=? 0 then 1 else n) = Z.of_nat k.
Proof.
  intros [[-> H]|[(K & N & H1 & H2)|(-> & N & H)]]; cbv zeta.
  - destruct (decimals_pos p 0 H) as [P E]. split; [|split; [lia|rewrite (decimals_log p 0 H); reflexivity]].
    destruct (Qle_bool (fval p) 0) eqn:L; [|reflexivity]. apply Qle_bool_iff in L. lra.
  - assert (EV : (fval p == fmag p)%Q) by (unfold fval; now rewrite N).
    assert (P1 : (1 <= inject_Z (10 ^ (6 - Z.of_nat k)))%Q) by (apply (injZ_le 1); pose proof (Z.pow_pos_nonneg 10 (6 - Z.of_nat k)); lia).
    split; [|split; [lia|]].
    { destruct (Qle_bool (fval p) 0) eqn:L; [|reflexivity]. apply Qle_bool_iff in L. lra. }
    rewrite <- t10_Z in H1 by lia. rewrite <- t10_Z in H2 by lia.
    assert (E : int_log10 (fmag p) = 6 - Z.of_nat k).
    { destruct (Qeq_dec (fmag p) (rnd (t10 (6 - Z.of_nat k)))) as [E|E]; [now apply log_power|].
      assert (X : forall j, 0 <= j <= 6 -> (rnd (t10 j) == t10 j)%Q).
      { intros j J. rewrite (rnd_comp _ _ (t10_Z j ltac:(lia))), (t10_Z j) by lia. apply rnd_Z. pose proof (p10_le j 6 ltac:(lia) ltac:(lia)). pose proof (Z.pow_nonneg 10 j). change (10 ^ 6) with 1000000 in *. lia. }
      rewrite (log_between _ (6 - Z.of_nat k)).
      - destruct (Z.ltb_spec (6 - Z.of_nat k) 0); lia.
      - rewrite X in E by lia. destruct (Qlt_le_dec (t10 (6 - Z.of_nat k)) (fmag p)) as [G|G]; [exact G|]. exfalso. apply E. apply Qle_antisym; auto.
      - replace (6 - Z.of_nat k + 1) with (7 - Z.of_nat k) by lia. exact H2.
      - exact E.
      - replace (6 - Z.of_nat k + 1) with (7 - Z.of_nat k) by lia. rewrite X by lia. intros E2. rewrite E2 in H2. lra. }
    rewrite E. destruct (Z.leb_spec (6 - (6 - Z.of_nat k)) 0); lia.
  - assert (EV : (fval p == fmag p)%Q) by (unfold fval; now rewrite N).
    split; [|split; [lia|]].
    { destruct (Qle_bool (fval p) 0) eqn:L; [|reflexivity]. apply Qle_bool_iff in L. lra. }
    assert (F : 5 <= log10_floor (fmag p)).
    { unfold log10_floor. assert (L : Qle_bool 1 (fmag p) = true) by (apply Qle_bool_iff; lra). rewrite L. apply up_ge; [|lia|].
      - rewrite t10_Z by lia. exact H.
      - rewrite Nat2Z.inj_add, Z2Nat.id by apply Z.log2_nonneg. set (x := fmag p) in *. destruct x as [n dd]. unfold Qle in H. cbn [Qnum Qden] in *.
        assert (100000 <= n) by nia. assert (A : 2 ^ 5 <= n) by (change (2 ^ 5) with 32; lia). apply Z.log2_le_mono in A. rewrite Z.log2_pow2 in A by lia. lia. }
    assert (G : 5 <= int_log10 (fmag p)).
    { unfold int_log10, log10_exact. destruct (Qeq_bool _ _); [auto|]. destruct (Qeq_bool _ _); [lia|]. destruct (Z.ltb_spec (log10_floor (fmag p)) 0); lia. }
    destruct (Z.leb_spec (6 - int_log10 (fmag p)) 0); lia.
Qed.

Lemma date_any y m d q f p k : calendar y m d -> 0 <= q < 86400 -> alldig f = true -> (length f <= 6)%nat -> day_decimals p k ->
  exists V, 0 <= V <= 10 ^ Z.of_nat k /\ isoToSexDate (iso_time y m d q f) p = Ok (date_text y m d k (V mod 10 ^ Z.of_nat k)) /\
    1000 * Z.abs (microseconds q f * 10 ^ Z.of_nat k - V * 86400000000) <= 501 * 86400000000.
Proof.
  intros C Q A L Hp. destruct (day_log p k Hp) as (P1 & K & P2). destruct (micro_bound q f Q A L) as (mi & Em & M).
  unfold isoToSexDate. rewrite (parse_any y m d q f C Q A L). cbn [rbind]. rewrite P1. cbv zeta in P2. cbv zeta. rewrite P2, Nat2Z.id, Em.
  rewrite Z.div_add_l, Z.div_small, Z.add_0_r by lia.
  replace ((q * 1000000 + mi) mod 1000000) with mi by (rewrite Z.add_comm, Z.mod_add, Z.mod_small by lia; reflexivity).
  fold (day_fl q mi). destruct (day_near q mi Q M) as (y0 & [I1 I2] & N).
  set (W := q * 1000000 + mi) in *. assert (U : 0 <= W < 86400000000) by (unfold W; lia).
  assert (EW : (inject_Z q * 1000000 + inject_Z mi == inject_Z W)%Q) by (unfold W; rewrite inject_Z_plus, inject_Z_mult; reflexivity).
  pose proof (p10_pos k) as P. assert (P6 : 10 ^ Z.of_nat k <= 1000000) by (change 1000000 with (10 ^ 6); apply Z.pow_le_mono_r; lia).
  set (T := 10 ^ Z.of_nat k) in *. set (V := rheQ (fmag (day_fl q mi) * inject_Z T)).
  assert (EV : V = rheQ (y0 * inject_Z T)) by (apply rheQ_comp; now rewrite I2).
  pose proof (rheQ_near (y0 * inject_Z T)) as [R1 R2]. rewrite <- EV in R1, R2.
  assert (WT : (0 <= inject_Z W * inject_Z T <= 86400000000 * 1000000)%Q).
  { split; rewrite <- inject_Z_mult; [apply (injZ_le 0); nia|apply (injZ_le _ (86400000000 * 1000000)); nia]. }
  assert (T0 : (0 <= inject_Z T)%Q) by (apply (injZ_le 0); lia).
  assert (NT : (Qabs (inject_Z V * 86400000000 - inject_Z W * inject_Z T) <= (501 # 1000) * 86400000000)%Q).
  { destruct N as [N1 N2]. rewrite EW in N1, N2. assert (N1' := Qmult_le_compat_r _ _ _ N1 T0). assert (N2' := Qmult_le_compat_r _ _ _ N2 T0).
    set (yt := (y0 * inject_Z T)%Q) in *. unfold e14 in *.
    setoid_replace (inject_Z W * (1 # 86400000000) * (1 - (1 # 100000000000000)) * inject_Z T)%Q with (inject_Z W * inject_Z T * ((1 # 86400000000) * (1 - (1 # 100000000000000))))%Q in N1' by ring.
    setoid_replace (inject_Z W * (1 # 86400000000) * (1 + (1 # 100000000000000)) * inject_Z T)%Q with (inject_Z W * inject_Z T * ((1 # 86400000000) * (1 + (1 # 100000000000000))))%Q in N2' by ring.
    set (wt := (inject_Z W * inject_Z T)%Q) in *. set (vv := inject_Z V) in *. clearbody yt wt vv. clear - N1' N2' R1 R2 WT.
    apply Qabs_Qle_condition. split; lra. }
  assert (NZ : 1000 * Z.abs (W * T - V * 86400000000) <= 501 * 86400000000).
  { apply Qabs_Qle_condition in NT as [B1 B2]. rewrite <- inject_Z_mult in B1, B2.
    assert (B1' : (inject_Z (1000 * (W * T) - 501 * 86400000000) <= inject_Z (1000 * (V * 86400000000)))%Q).
    { unfold Z.sub. rewrite inject_Z_plus, inject_Z_opp, !inject_Z_mult. rewrite inject_Z_mult in B1. change (inject_Z 1000) with 1000%Q. change (inject_Z 501) with 501%Q. change (inject_Z 86400000000) with 86400000000%Q. lra. }
    assert (B2' : (inject_Z (1000 * (V * 86400000000)) <= inject_Z (1000 * (W * T) + 501 * 86400000000))%Q).
    { rewrite inject_Z_plus, !inject_Z_mult. rewrite inject_Z_mult in B2. change (inject_Z 1000) with 1000%Q. change (inject_Z 501) with 501%Q. change (inject_Z 86400000000) with 86400000000%Q. lra. }
    rewrite <- Zle_Qle in B1', B2'. lia. }
  assert (V0 : 0 <= V) by (unfold V; apply rheQ_nonneg; rewrite I2; destruct N as [N1 _]; rewrite EW in N1; apply mul_nonneg; auto; assert (0 <= inject_Z W)%Q by (apply (injZ_le 0); lia); unfold e14 in N1; lra).
  assert (V1 : V <= T) by nia.
  exists V. split; [lia|]. split; [|exact NZ].
  assert (HM : 0 <= V mod T < T) by (apply Z.mod_pos_bound; lia).
  destruct k as [|k']; [lia|]. set (k := S k') in *.
  rewrite (fmtf_pos k _ V I1 eq_refl). fold T.
  assert (D0 : 0 <= V / T) by (apply Z.div_pos; lia).
  change (match k with O => [] | _ => $"." ++ num k (V mod T) end) with ($"." ++ num k (V mod T)). change ($"." ++ num k (V mod T)) with ("."%char :: num k (V mod T)).
  rewrite splitc_cons by (apply alldig_notin; [reflexivity|now apply dec_alldig]).
  assert (NI : ~ In "."%char (num k (V mod T))) by (apply alldig_notin; [reflexivity|apply num_alldig; unfold k; [lia|exact HM]]).
  rewrite splitc_one by exact NI.
  unfold date_text, sex_text, d2, num. cbn [d_y d_m d_d]. rewrite <- !app_assoc. reflexivity.
Qed.
