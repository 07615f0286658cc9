(** Lemmas of C49, part 1: float() of decimal numerals; values of RAType and DeclinationType. *)
From Verif Require Import PyStrProofs SchemaProofs1 SchemaProofs2 SchemaProofs3 PyFloat PyFloatProofs SexVals SexSpec SexProofs1 SexProofs2 SexProofs3 SexProofs4 SexProofs5.
From Verif Require Import XsdPattern XsdFiles XsdMatch IdSpec IdProofs3 IdProofs4 IdProofs5 ValueSpec ValueProofs1 ValueProofs2 ValueProofs3 ValueProofs4 LexProofs1 LexProofs2.
From Coq Require Import Lqa.
Local Open Scope Z_scope.

(** * Numerals *)
Lemma body_nospace : forall c, body_char c = true -> pyspace c = false.
Proof. apply implf_ascii. vm_compute. reflexivity. Qed.
Lemma body_nosign : forall c, body_char c = true -> ceqb c "-" = false /\ ceqb c "+" = false.
Proof. intros c H. split; revert c H; apply implf_ascii; vm_compute; reflexivity. Qed.
Lemma numeral_strip sg w a b : In sg [[]; $"+"; $"-"] -> numeral w a b -> strip (sg ++ w) = sg ++ w.
Proof.
  intros I H. destruct (numeral_chars _ _ _ H) as [C N]. apply strip_no_space; [destruct I as [<-|[<-|[<-|[]]]]; [exact N|intro X; discriminate X|intro X; discriminate X]|].
  rewrite forallb_app. apply andb_true_intro. split; [destruct I as [<-|[<-|[<-|[]]]]; reflexivity|].
  revert C. apply forallb_imp. intros c Hc. now rewrite (body_nospace c Hc).
Qed.
Lemma decimal_strip s q : decimal_value s q -> strip s = s /\ s <> [].
Proof.
  intro D. apply decimal_numeral in D as (sg & w & a & b & -> & I & N & _). split; [now apply (numeral_strip sg w a b)|].
  destruct (numeral_chars _ _ _ N) as [_ N']. intro X. apply app_eq_nil in X. tauto.
Qed.
Lemma numeral_mag w a b : numeral w a b -> exists m, float_mag w = Some m /\ (m == magnitude_of a b)%Q.
Proof.
  intro H. unfold magnitude_of. destruct H as [a D N|a b Da Db N].
  - exists (decimal (decval (a ++ [])) 0). split.
    + unfold float_mag. rewrite <- (app_nil_r a) at 1. rewrite (take_digits_app a [] D I). destruct a; [congruence|]. reflexivity.
    + unfold decimal. cbn [Z.leb Z.compare length Z.of_nat]. change (10 ^ 0) with 1. rewrite inject_Z_mult. change (inject_Z 1) with 1%Q. field.
  - exists (decimal (decval (a ++ b)) (- Z.of_nat (length b))). split.
    + unfold float_mag. rewrite (take_digits_app a (point :: b) Da eq_refl). unfold point at 1. rewrite ceqb_refl.
      rewrite <- (app_nil_r b) at 1. rewrite (take_digits_app b [] Db I). destruct (a ++ b) eqn:E; [congruence|]. reflexivity.
    + destruct (length b) as [|n] eqn:Lb; [|now rewrite decimal_neg by lia].
      change (- Z.of_nat 0) with 0. unfold decimal. cbn [Z.leb Z.compare Z.of_nat]. change (10 ^ 0) with 1. rewrite inject_Z_mult. change (inject_Z 1) with 1%Q. field.
Qed.
Lemma pyfloat_numeral sg w a b : In sg [[]; $"+"; $"-"] -> numeral w a b ->
  exists m, pyfloat (sg ++ w) = Ok (PyFloat.F (streqb sg $"-") (rnd m)) /\ (m == magnitude_of a b)%Q.
Proof.
  intros I H. destruct (numeral_mag w a b H) as (m & M & E). exists m. split; [|exact E]. unfold pyfloat. rewrite (numeral_strip sg w a b I H).
  destruct (numeral_chars _ _ _ H) as [C N].
  destruct I as [<-|[<-|[<-|[]]]].
  - change ([] ++ w) with w. destruct w as [|c w]; [congruence|]. cbn [forallb] in C. apply andb_prop in C as [C _]. destruct (body_nosign c C) as [-> ->]. rewrite M. reflexivity.
  - change ($"+" ++ w) with ("+"%char :: w). cbv iota beta. replace (ceqb "+" "-") with false by reflexivity. replace (ceqb "+" "+") with true by reflexivity. cbv iota beta. rewrite M. reflexivity.
  - change ($"-" ++ w) with ("-"%char :: w). cbv iota beta. replace (ceqb "-" "-") with true by reflexivity. cbv iota beta. rewrite M. reflexivity.
Qed.
Lemma magnitude_pos a b : forallb isdig (a ++ b) = true -> (0 <= magnitude_of a b)%Q.
Proof.
  intro D. unfold magnitude_of. pose proof (decval_bound (a ++ b) D) as [B _]. apply Qle_shift_div_l; [apply (injZ_lt 0), p10_pos|]. rewrite Qmult_0_l. now apply (injZ_le 0).
Qed.
Lemma numeral_dig w a b : numeral w a b -> forallb isdig (a ++ b) = true.
Proof. intros [x D N|x y D E N]; [now rewrite app_nil_r|]. now rewrite forallb_app, D, E. Qed.
(** float() of a decimal number: nearly its value *)
Lemma pyfloat_decimal s q : decimal_value s q -> (Qabs q <= 1000)%Q -> exists f, pyfloat s = Ok f /\
  (Qabs (fmag f - Qabs q) <= 1 # 1000000000000)%Q /\ ((0 < Qabs q)%Q -> (0 < fmag f)%Q /\ (fneg f = true <-> (q < 0)%Q)) /\ ((q == 0)%Q -> (fmag f == 0)%Q) /\
  fneg f = match s with c :: _ => ceqb c "-" | [] => false end.
Proof.
  intros D B. apply decimal_numeral in D as (sg & w & a & b & -> & I & N & Q). unfold signed_q in Q.
  destruct (pyfloat_numeral sg w a b I N) as (m & P & M). exists (PyFloat.F (streqb sg $"-") (rnd m)). split; [exact P|].
  pose proof (magnitude_pos a b (numeral_dig _ _ _ N)) as P0. rewrite <- M in P0.
  assert (Qabs q == m)%Q as A.
  { rewrite Q, <- M. destruct (streqb sg $"-"); [|rewrite Qmult_1_l; now apply Qabs_pos].
    rewrite Qabs_Qmult. change (Qabs (-1)) with 1%Q. rewrite Qmult_1_l. now apply Qabs_pos. }
  rewrite A in B. pose proof (rnd_e m P0) as [R1 R2]. cbn [fmag fneg]. split; [|split; [|split]].
  - rewrite A. apply Qabs_case; intros _; lra.
  - rewrite A. intro Pm. split; [lra|]. rewrite Q, <- M. destruct (streqb sg $"-"); [split; [intros _; lra|reflexivity]|]. split; [intro H; discriminate H|intro H; exfalso; lra].
  - intro Z. assert (m == 0)%Q as Z' by (rewrite <- A, Z; reflexivity). lra.
  - destruct (numeral_chars _ _ _ N) as [C NE]. destruct I as [<-|[<-|[<-|[]]]]; [|reflexivity|reflexivity].
    change ([] ++ w) with w. destruct w as [|c w]; [congruence|]. cbn [forallb] in C. apply andb_prop in C as [C _]. destruct (body_nosign c C) as [-> _]. reflexivity.
Qed.

(** * The two types *)
Section Types.
Variable F : derivation -> str -> Prop.
Variable R : reads_decimals F.
Let G := general_xsd.
Lemma ra_chars : forall s, matches ra_pattern s -> forallb body_char s = true.
Proof.
  intros s M. apply (matches_lang _ _ _ ra_read), lang_chars in M. revert M. apply forallb_imp. apply imp_ascii. vm_compute. reflexivity.
Qed.
Lemma number_steps t l s : chain_of G $"xsd:decimal" 6 $t = Some l -> simple F G $t s -> exists q, decimal_value (strip s) q /\ Forall (number_allows (strip s) q) l.
Proof.
  intros H V. apply (proj1 (chain_of_simple F G $"xsd:decimal" 6 $t l s eq_refl H)) in V. apply R in V as (q & D & A). exists q.
  assert (strip s = trim s) as ->; [|now split]. apply literal_strip; [now apply (decimal_strip _ q)|].
  apply decimal_numeral in D as (sg & w & a & b & -> & I & N & _). destruct (numeral_chars _ _ _ N) as [C _]. rewrite forallb_app. apply andb_true_intro. split; [destruct I as [<-|[<-|[<-|[]]]]; reflexivity|].
  revert C. apply forallb_imp. apply imp_ascii. vm_compute. reflexivity.
Qed.
Lemma ra_value s : simple F G $"RAType" s -> exists q f, decimal_value (strip s) q /\ (0 <= q < 360)%Q /\
  pyfloat (strip s) = Ok f /\ fneg f = false /\ (Qabs (fval f - q) <= 1 # 1000000000000)%Q.
Proof.
  intro V. destruct (number_steps "RAType" [[($"xsd:minInclusive", $"0.0"); ($"xsd:maxExclusive", $"360.0"); ($"xsd:pattern", ra_pattern)]] s ltac:(vm_compute; reflexivity) V) as (q & D & A).
  apply Forall_inv in A. apply (proj1 (num_below_pattern _ _ _ _ _ _ _ lit_0 lit_360)) in A as ((A1 & A2) & M).
  destruct (pyfloat_decimal _ q D) as (f & P & E & _ & _ & Ng); [rewrite Qabs_pos; lra|]. exists q, f. split; [exact D|]. split; [split; assumption|]. split; [exact P|].
  assert (fneg f = false) as Nf. { rewrite Ng. pose proof (ra_chars _ M) as C. destruct (strip s) as [|c v]; [reflexivity|]. cbn [forallb] in C. apply andb_prop in C as [C _]. now apply body_nosign. }
  split; [exact Nf|]. unfold fval. rewrite Nf. now rewrite (Qabs_pos q A1) in E.
Qed.
(** at most nine decimals *)
Lemma dd_decimals s q : matches dd_pattern s -> decimal_value s q -> exists N, (q == inject_Z N / inject_Z (10 ^ 9))%Q.
Proof.
  intros M D. destruct D as (sg & a & b & E & I & Dg & Ne & Q).
  assert (length b <= 9)%nat as L.
  { destruct E as [[_ ->]|E]; [cbn [length]; lia|].
    apply (matches_lang _ _ _ dd_read) in M. apply lang_seq in M as (x & y & Exy & Hx & Hy). apply lang_seq in Hy as (y1 & y2 & -> & Hy1 & Hy2). apply (proj1 (lang_end _ _)) in Hy2.
    apply lang_chars in Hx, Hy1. apply (proj1 (lang_opt _ _)) in Hy2.
    assert (forallb (fun c => negb (ceqb c ".")) x = true) as Px by (revert Hx; apply forallb_imp, imp_ascii; vm_compute; reflexivity).
    assert (forallb (fun c => negb (ceqb c ".")) y1 = true) as Py by (revert Hy1; apply forallb_imp, imp_ascii; vm_compute; reflexivity).
    rewrite E in Exy. rewrite forallb_app in Dg. apply andb_prop in Dg as [Da Db].
    assert (forallb (fun c => negb (ceqb c ".")) (sg ++ a) = true) as Pz.
    { rewrite forallb_app. apply andb_true_intro. split; [destruct I as [<-|[<-|[<-|[]]]]; reflexivity|]. revert Da. apply forallb_imp, imp_ascii. vm_compute. reflexivity. }
    assert (forall u u' t t', forallb (fun c => negb (ceqb c ".")) u = true -> forallb (fun c => negb (ceqb c ".")) u' = true -> u ++ point :: t = u' ++ point :: t' -> t = t') as K.
    { clear. induction u as [|c u IH]; intros [|c' u'] t t' H H' E; cbn [app] in E.
      - now injection E.
      - injection E as <- _. discriminate H'.
      - injection E as -> _. discriminate H.
      - injection E as -> E. cbn [forallb] in H, H'. apply andb_prop in H as [_ H], H' as [_ H']. exact (IH u' t t' H H' E). }
    destruct Hy2 as [-> | Hz].
    - exfalso. rewrite app_nil_r in Exy. assert (In point (x ++ y1)) as J by (rewrite <- Exy; apply in_or_app; right; apply in_or_app; right; left; reflexivity).
      assert (forallb (fun c => negb (ceqb c ".")) (x ++ y1) = true) as P by now rewrite forallb_app, Px, Py. rewrite forallb_forall in P. discriminate (P _ J).
    - unfold dd_frac in Hz. apply lang_char in Hz as (b' & -> & Hb). apply (proj1 (lang_end _ _)) in Hb. apply (proj1 (lang_rep_set _ _ _ _ _)) in Hb as (_ & _ & Lb).
      enough (b = b') by (subst; exact Lb). apply (K (sg ++ a) (x ++ y1)); [exact Pz|now rewrite forallb_app, Px, Py|].
      rewrite <- !app_assoc. exact Exy. }
  exists ((if streqb sg $"-" then -1 else 1) * decval (a ++ b) * 10 ^ (9 - Z.of_nat (length b))). rewrite Q.
  assert (10 ^ 9 = 10 ^ Z.of_nat (length b) * 10 ^ (9 - Z.of_nat (length b)))%Z as T by (rewrite <- Z.pow_add_r by lia; f_equal; lia).
  assert (0 < 10 ^ (9 - Z.of_nat (length b)))%Z as T0 by (apply Z.pow_pos_nonneg; lia). pose proof (p10_pos (length b)) as T1.
  rewrite T, !inject_Z_mult.
  assert (~ inject_Z (10 ^ Z.of_nat (length b)) == 0)%Q as Z1 by (change 0%Q with (inject_Z 0); rewrite inject_Z_injective; lia).
  assert (~ inject_Z (10 ^ (9 - Z.of_nat (length b))) == 0)%Q as Z2 by (change 0%Q with (inject_Z 0); rewrite inject_Z_injective; lia).
  destruct (streqb sg $"-").
  - change (inject_Z (-1)) with (-1)%Q. field. split; assumption.
  - change (inject_Z 1) with 1%Q. field. split; assumption.
Qed.
Lemma dec_value s : simple F G $"DeclinationType" s -> exists q f N, decimal_value (strip s) q /\ (-90 <= q <= 90)%Q /\ (q == inject_Z N / inject_Z (10 ^ 9))%Q /\
  pyfloat (strip s) = Ok f /\ (Qabs (fmag f - Qabs q) <= 1 # 1000000000000)%Q /\
  ((0 < Qabs q)%Q -> (0 < fmag f)%Q /\ (fneg f = true <-> (q < 0)%Q)) /\ ((q == 0)%Q -> (fmag f == 0)%Q).
Proof.
  intro V. destruct (number_steps "DeclinationType" [[($"xsd:minInclusive", $"-90.0"); ($"xsd:maxInclusive", $"90.0"); ($"xsd:pattern", dd_pattern)]] s ltac:(vm_compute; reflexivity) V) as (q & D & A).
  apply Forall_inv in A. apply (proj1 (num_limits_pattern _ _ _ _ _ _ _ lit_m90 lit_90)) in A as ((A1 & A2) & M).
  destruct (dd_decimals _ q M D) as (N & Q).
  destruct (pyfloat_decimal _ q D) as (f & P & E & S & Z & _); [apply Qabs_case; intros _; lra|].
  exists q, f, N. repeat (split; [first [assumption|split; assumption]|]). exact Z.
Qed.
(** declinations are not half a unit below a whole minute *)
Lemma no_tie q N f d K : (q == inject_Z N / inject_Z (10 ^ 9))%Q -> (-90 <= q <= 90)%Q -> (Qabs (fmag f - Qabs q) <= 1 # 1000000000000)%Q -> In d [1; 2]%nat ->
  (1 # 100000000 <= Qabs (3600 * fmag f + (1 # 2) * fmag (prec_fl (PTen d)) - inject_Z (60 * K)))%Q.
Proof.
  intros Q B E Hd.
  assert (exists M, Qabs q == inject_Z M / inject_Z (10 ^ 9))%Q as (M & QM).
  { destruct (Qlt_le_dec q 0) as [H|H].
    - exists (- N). rewrite Qabs_neg by lra. rewrite Q. rewrite inject_Z_opp. field. intro X. discriminate X.
    - exists N. rewrite Qabs_pos by exact H. exact Q. }
  assert (exists c, (c mod 3 = 2)%Z /\ (Qabs ((1 # 2) * fmag (prec_fl (PTen d)) - inject_Z c / inject_Z (10 ^ 7)) <= 1 # 1000000000000)%Q) as (c & C3 & C).
  { destruct Hd as [<-|[<-|[]]]; [exists 500000|exists 50000]; (split; [reflexivity|vm_compute; intro X; discriminate X]). }
  set (X := 36 * M + c - 600000000 * K).
  assert (X <> 0) as NX by (unfold X; intro Z; assert ((36 * M + c - 600000000 * K) mod 3 = 2) as Y by (replace (36 * M + c - 600000000 * K) with (c + (12 * M - 200000000 * K) * 3) by ring; rewrite Z.mod_add by lia; exact C3); rewrite Z in Y; discriminate Y).
  assert (3600 * Qabs q + inject_Z c / inject_Z (10 ^ 7) - inject_Z (60 * K) == inject_Z X / inject_Z (10 ^ 7))%Q as EX.
  { rewrite QM. unfold X, Z.sub. rewrite !inject_Z_plus, inject_Z_opp, !inject_Z_mult. change (inject_Z (10 ^ 9)) with 1000000000%Q. change (inject_Z (10 ^ 7)) with 10000000%Q.
    change (inject_Z 36) with 36%Q. change (inject_Z 600000000) with 600000000%Q. change (inject_Z 60) with 60%Q. field. }
  assert (1 # 10000000 <= Qabs (inject_Z X / inject_Z (10 ^ 7)))%Q as AX.
  { assert (inject_Z X / inject_Z (10 ^ 7) == (1 # 10000000) * inject_Z X)%Q as -> by (change (inject_Z (10 ^ 7)) with 10000000%Q; field).
    assert (X <= -1 \/ 1 <= X) as [H|H] by lia.
    - apply (injZ_le X (-1)) in H. change (inject_Z (-1)) with (-1)%Q in H. rewrite Qabs_neg; lra.
    - apply (injZ_le 1 X) in H. change (inject_Z 1) with 1%Q in H. rewrite Qabs_pos; lra. }
  rewrite <- EX in AX. clear EX.
  set (u := (3600 * Qabs q + inject_Z c / inject_Z (10 ^ 7) - inject_Z (60 * K))%Q) in *.
  set (v := (3600 * fmag f + (1 # 2) * fmag (prec_fl (PTen d)) - inject_Z (60 * K))%Q).
  assert (v - u == 3600 * (fmag f - Qabs q) + ((1 # 2) * fmag (prec_fl (PTen d)) - inject_Z c / inject_Z (10 ^ 7)))%Q as DV by (unfold u, v; ring).
  assert (Qabs (v - u) <= 3601 # 1000000000000)%Q as DU.
  { rewrite DV. eapply Qle_trans; [apply Qabs_triangle|]. rewrite Qabs_Qmult. change (Qabs 3600) with 3600%Q. lra. }
  assert (Qabs u <= Qabs (v - u) + Qabs v)%Q as T.
  { assert (u == - (v - u) + v)%Q as Eu by ring. rewrite Eu at 1. eapply Qle_trans; [apply Qabs_triangle|]. rewrite Qabs_opp. apply Qle_refl. }
  lra.
Qed.
End Types.
