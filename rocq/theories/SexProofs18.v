(** Dates: nothing else is accepted. *)
From Verif Require Import PyStrProofs PyReInv PackProofs2 PsvLines RoundProofs1 PyFloat PyFloatProofs SexVals SexSpec SexProofs1 SexProofs2 SexProofs3 SexProofs4 SexProofs5 SexProofs6 SexProofs7 SexProofs9 SexProofs11 SexProofs12 SexProofs13 SexProofs14 SexProofs15 SexProofs16 SexProofs17.
Open Scope Z_scope.

Definition nonl (s : str) : bool := forallb (fun c => negb (ceqb c nl)) s.
Lemma nonl_app a b : nonl (a ++ b) = nonl a && nonl b.
Proof. apply forallb_app. Qed.
Lemma nonl_dig s : alldig s = true -> nonl s = true.
Proof.
  intros A. unfold nonl, alldig in *. rewrite forallb_forall in *. intros c I. specialize (A c I).
  destruct (ceqb c nl) eqn:E; [|reflexivity]. apply ceqb_eq in E. subst. discriminate.
Qed.
Lemma nonl_dec z : nonl (dec z) = true.
Proof.
  destruct (Z.lt_ge_cases z 0) as [L|L]; [|now apply nonl_dig, dec_alldig].
  assert (E : dec z = "-"%char :: dec (- z)) by (unfold dec; destruct (Z.ltb_spec z 0); [|lia]; destruct (Z.ltb_spec (- z) 0); [lia|reflexivity]).
  rewrite E. cbn [nonl forallb]. apply nonl_dig, dec_alldig. lia.
Qed.
Lemma nonl_zeros n : nonl (repeat "0"%char n) = true.
Proof. induction n; [reflexivity|]. cbn [repeat nonl forallb]. exact IHn. Qed.
Lemma nonl_spaces n : nonl (spaces n) = true.
Proof. induction n; [reflexivity|]. exact IHn. Qed.
Lemma nonl_zfill n z : nonl (zfill n (dec z)) = true.
Proof. unfold zfill. rewrite nonl_app, nonl_zeros, nonl_dec. reflexivity. Qed.
Lemma nonl_fmtf n f : nonl (fmtf n f) = true.
Proof.
  unfold fmtf. rewrite !nonl_app, nonl_dec. destruct (fneg f); destruct n; cbn [andb]; try reflexivity;
    rewrite nonl_app, nonl_zfill; reflexivity.
Qed.
Lemma nonl_split sep s : nonl s = true -> Forall (fun w => nonl w = true) (splitc sep s).
Proof.
  induction s as [|c s IH]; cbn [splitc]; intros H; [repeat constructor|]. cbn [nonl forallb] in H. apply andb_prop in H as [H1 H2]. specialize (IH H2).
  destruct (ceqb c sep); [now constructor|]. destruct (splitc sep s); [constructor; [cbn [nonl forallb]; now rewrite H1|constructor]|].
  inversion IH; subst. constructor; [|assumption]. cbn [nonl forallb]. now rewrite H1.
Qed.
Lemma nonl_back iso p s : isoToSexDate iso p = Ok s -> nonl s = true.
Proof.
  unfold isoToSexDate. destruct (match strptime re_isof iso with Ok _ => _ | Err _ => _ end) as [[t us]|]; [|discriminate]. cbn [rbind].
  destruct (Qle_bool (fval p) 0); [discriminate|].
  match goal with |- context [splitc "." ?x] => pose proof (nonl_split "." x (nonl_fmtf _ _)) as F; destruct (splitc "." x) as [|a [|b l]]; try discriminate end.
  intros E. injection E as <-. inversion F as [|? ? _ F']; subst. inversion F' as [|? ? Hb _]; subst.
  unfold sex_text, d2, padr. rewrite !nonl_app, !nonl_zfill, nonl_dec.
  change (nonl ("."%char :: b ++ spaces (6 - length b)) = true). cbn [nonl forallb]. fold (nonl (b ++ spaces (6 - length b))). rewrite nonl_app, Hb, nonl_spaces. reflexivity.
Qed.
Lemma date_only w radar r : length w = 17%nat -> checkDate w radar = Ok r ->
  exists y m d k N, calendar y m d /\ (1 <= k <= 6)%nat /\ 0 <= N < 10 ^ Z.of_nat k /\ w = date_text y m d k N.
Proof.
  intros L H. unfold checkDate in H.
  destruct (sexDateToISO w radar false true) as [[[iso p] fd]|] eqn:E; [|discriminate]. cbn [rbind] in H.
  destruct (fltb (prec_fl p) (of_Z 1)); [discriminate|].
  destruct (isoToSexDate iso (prec_fl p)) as [s|] eqn:B; [|discriminate]. cbn [rbind] in H. destruct (streqb s w) eqn:S; [|discriminate].
  apply streqb_eq in S. subst s. apply nonl_back in B.
  unfold sexDateToISO in E. destruct (re_match re_date w) as [g|] eqn:M; [|discriminate].
  apply date_inv in M as (y & m & d & f & j & e & Y & Mo & D & F & Nf & Ee & -> & G1 & G3 & G5 & G6).
  rewrite G1, G3, G5, G6 in E. rewrite py_int_dec in E by lia. rewrite !(py_int_num 2) in E by (change (10 ^ Z.of_nat 2) with 100; lia). cbn [rbind] in E.
  destruct (pyfloat ($"." ++ f)) as [x|]; [|discriminate]. cbn [rbind] in E.
  destruct (mk_date y m d) as [t|] eqn:MD; [|discriminate]. clear E.
  assert (C : calendar y m d).
  { split; [exact Y|]. split; [exact Mo|]. split; [lia|]. destruct (Z.le_gt_cases d (month_days y m)); [assumption|]. now rewrite mk_date_bad in MD by assumption. }
  destruct Ee as [->| ->].
  2: { rewrite !nonl_app in B. rewrite !andb_true_iff in B. exfalso. decompose [and] B. discriminate. }
  rewrite app_nil_r in *.
  assert (Lf : (length f + j = 6)%nat).
  { rewrite !app_length in L. destruct (year_shape y Y) as (y1 & y2 & y3 & y4 & Ey & _). rewrite Ey in L.
    destruct (num2 m ltac:(lia)) as (m1 & m2 & Em & _). destruct (num2 d ltac:(lia)) as (d1 & d2 & Ed & _). rewrite Em, Ed in L.
    unfold spaces in L. rewrite repeat_length in L. change (length $" ") with 1%nat in L. change (length $".") with 1%nat in L. cbn [length] in L. lia. }
  assert (K : (1 <= length f)%nat) by (destruct f; [congruence|cbn; lia]).
  exists y, m, d, (length f), (decval f). split; [exact C|]. split; [lia|]. split; [apply decval_bound, F|].
  unfold date_text. rewrite <- (num_uniq (length f) f K F eq_refl). unfold padr. now replace (6 - length f)%nat with j by lia.
Qed.
Lemma date_nonexistent y m d k N radar : 1600 <= y <= 9999 -> 1 <= m <= 12 -> month_days y m < d <= 31 -> (1 <= k)%nat -> 0 <= N < 10 ^ Z.of_nat k ->
  checkDate (date_text y m d k N) radar = Err ValueError.
Proof.
  intros Y Mo D K H. pose proof (month_days_le y m). unfold checkDate, sexDateToISO.
  destruct (num_spec k N ltac:(lia) H) as (L & A & V). assert (Ne : num k N <> []) by (intros E; rewrite E in L; cbn in L; lia).
  destruct (date_match y m d (num k N) (6 - length (num k N)) Y Mo ltac:(lia) A Ne) as (g & G & G1 & G3 & G5 & G6).
  replace (date_text y m d k N) with (dec y ++ $" " ++ num 2 m ++ $" " ++ num 2 d ++ $"." ++ num k N ++ spaces (6 - length (num k N))) by reflexivity.
  rewrite G, G1, G3, G5, G6. rewrite py_int_dec by lia. rewrite !(py_int_num 2) by (change (10 ^ Z.of_nat 2) with 100; lia). cbn [rbind].
  destruct (pyfloat_frac (num k N) A Ne) as (x & -> & I). cbn [rbind]. rewrite mk_date_bad by lia. reflexivity.
Qed.

Lemma iso_range y m d k N : calendar y m d -> (1 <= k <= 6)%nat -> 0 <= N < 10 ^ Z.of_nat k ->
  ~ In (N * 10 ^ (6 - Z.of_nat k)) (map (Z.mul 625) short_by_rounding) ->
  exists hh mm ss ms p, 0 <= hh < 24 /\ 0 <= mm < 60 /\ 0 <= ss < 60 /\ 0 <= ms < 1000 /\
    checkDate (date_text y m d k N) false =
      Ok (dec y ++ $"-" ++ num 2 m ++ $"-" ++ num 2 d ++ $"T" ++ num 2 hh ++ $":" ++ num 2 mm ++ $":" ++ num 2 ss ++
          $"." ++ num 3 ms ++ $"Z", p).
Proof.
  intros C K H NB. destruct (date_ok y m d k N C K H NB) as [E _]. destruct (fwd_ok y m d k N C K H NB) as (_ & Q & M).
  set (n := N * 10 ^ (6 - Z.of_nat k)) in *. destruct (sec_split _ Q) as (A1 & A2 & A3 & _).
  exists (864 * n / 10000 / 3600), (864 * n / 10000 / 60 mod 60), (864 * n / 10000 mod 60), ((864 * n mod 10000 + 5) / 10), (PInt (10 ^ (6 - Z.of_nat k))).
  split; [exact A1|]. split; [exact A2|]. split; [exact A3|]. split; [lia|]. rewrite E, iso_day_fields. reflexivity.
Qed.
Lemma ra_printed w r : (length w <= 12)%nat -> checkRa w = Ok r ->
  exists s X u, sexagesimal s X (snd r) u /\ decRaToSexRa (fst r) (prec_fl (snd r)) = Ok (padr 12 s).
Proof.
  intros L E. destruct (ra_complete w L) as [F|(s & X & pr & u & S & ->)]; [congruence|].
  assert (Ls : (length s <= 12)%nat) by (unfold padr in L; rewrite app_length in L; lia).
  destruct (ra_canonical s X pr u S Ls) as (d & V & _ & _ & F & B & _). rewrite F in E. injection E as <-. eauto 6.
Qed.
Lemma dec_printed w r : length w = 12%nat -> checkDec w = Ok r ->
  exists neg s X u, sexagesimal s X (snd r) u /\ degDeclToSexDecl (fst r) (prec_fl (snd r)) = Ok (padr 12 (sgn neg ++ s)).
Proof.
  intros L E. destruct (dec_complete w L) as [F|(neg & s & X & pr & u & S & ->)]; [congruence|].
  assert (Ls : (length s <= 11)%nat) by (unfold padr in L; rewrite !app_length in L; destruct neg; cbn [sgn] in L; change (length $"-") with 1%nat in L; change (length $"+") with 1%nat in L; lia).
  destruct (dec_canonical neg s X pr u S Ls) as (d & V & _ & _ & F & B & _). rewrite F in E. injection E as <-. eauto 7.
Qed.
