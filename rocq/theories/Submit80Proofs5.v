(** Lemmas of C49, part 5: the columns of the lines. *)
From Verif Require Import SchemaSpec PyStrProofs RoundProofs2 SchemaProofs1 SchemaProofs2 SchemaProofs3 RecordProofs1 RecordProofs2 RecordProofs3 RecordProofs4 RecordProofs6 RecordProofs12 AdesMasterTables PropsSchema.
From Verif Require Import Schema XsdSpec SchemaSpec XsdPattern XsdFiles ValueSpec ValidSpec ValidSpec2 LexSpec LexProofs1 LexProofs2 LexProofs3 IdProofs5 ValueProofs1 ValueProofs2 ValueProofs3 ValueProofs4.
From Verif Require Import PyFloat SexVals XmlToMpc80 Print80Proofs1 PsvSpec2 LayoutSpec Mpc80 Mpc80Spec Line80Spec LineProofs1 PropsLine PropsSexAny Submit80Spec Submit80Proofs1 Submit80Proofs2 Submit80Proofs3 Submit80Proofs4.
From Coq Require Import Lqa.
Local Open Scope Z_scope.

(** * The angles *)
Lemma ten_decimals d : In d [1; 2; 3]%nat -> decimals (prec_fl (PTen d)) d /\ ~ minutes_only (prec_fl (PTen d)) /\ (fmag (prec_fl (PTen d)) <= 1)%Q.
Proof.
  intro H. split; [split; [destruct H as [<-|[<-|[<-|[]]]]; vm_compute; reflexivity|left; reflexivity]|].
  destruct H as [<-|[<-|[<-|[]]]]; (split; [intros [H|[H|H]]; vm_compute in H; discriminate H|vm_compute; intro X; discriminate X]).
Qed.
Lemma near p x y f q c : (Qabs (x - c * f) <= y)%Q -> (Qabs (f - q) <= 1 # 1000000000000)%Q -> (0 <= c <= 3600)%Q -> In p [1; 2; 3]%nat -> (y == (51 # 100) / inject_Z (10 ^ Z.of_nat p))%Q ->
  (Qabs (x - c * q) <= (52 # 100) / inject_Z (10 ^ Z.of_nat p))%Q.
Proof.
  intros A B C P Y. assert (x - c * q == (x - c * f) + c * (f - q))%Q as -> by ring. eapply Qle_trans; [apply Qabs_triangle|].
  rewrite Qabs_Qmult, (Qabs_pos c) by lra. assert (c * Qabs (f - q) <= 3600 * (1 # 1000000000000))%Q as D.
  { pose proof (Qabs_nonneg (f - q)). apply Qle_trans with (3600 * Qabs (f - q))%Q; [apply Qmult_le_compat_r; lra|lra]. }
  rewrite Y in A. destruct P as [<-|[<-|[<-|[]]]];
   [change (inject_Z (10 ^ Z.of_nat 1)) with 10%Q in *|change (inject_Z (10 ^ Z.of_nat 2)) with 100%Q in *|change (inject_Z (10 ^ Z.of_nat 3)) with 1000%Q in *];
   match goal with |- (_ <= _ / ?c)%Q => let e := eval vm_compute in (Qred ((52 # 100) / c)) in assert ((52 # 100) / c == e)%Q as -> by (vm_compute; reflexivity) end;
   match type of A with (_ <= _ / ?c)%Q => let e := eval vm_compute in (Qred ((51 # 100) / c)) in assert ((51 # 100) / c == e)%Q as E by (vm_compute; reflexivity); rewrite E in A end; lra.
Qed.
Lemma units_low N p : 0 <= N -> (0 <= inject_Z N / inject_Z (10 ^ Z.of_nat p))%Q.
Proof. intro H. apply Qle_shift_div_l; [apply (Qlt_le_trans _ 1); [reflexivity|]; change 1%Q with (inject_Z 1); rewrite <- Zle_Qle; pose proof (Z.pow_pos_nonneg 10 (Z.of_nat p)); lia|]. rewrite Qmult_0_l. change 0%Q with (inject_Z 0). now rewrite <- Zle_Qle. Qed.
Lemma small_unit p : In p [1; 2; 3]%nat -> ((52 # 100) / inject_Z (10 ^ Z.of_nat p) <= 1)%Q.
Proof. intros [<-|[<-|[<-|[]]]]; vm_compute; intro X; discriminate X. Qed.
Lemma shows_ra_ok t f q p w : pyfloat t = Ok f -> fneg f = false -> (Qabs (fval f - q) <= 1 # 1000000000000)%Q -> (0 <= q < 360)%Q -> In p [1; 2; 3]%nat ->
  decRaToSexRa t (prec_fl (PTen p)) = Ok w -> shows_ra p w q.
Proof.
  intros P N E Q Hp H. destruct (ten_decimals p Hp) as (D & M & _).
  assert (fval f <= 1499)%Q as B by (apply Qabs_Qle_condition in E; lra).
  destruct (C40_ra_seconds t f _ p P N B D ltac:(destruct Hp as [<-|[<-|[<-|[]]]]; lia) M) as (h & m & n & Ew & Hh & Hm & Hn & A). rewrite Ew in H. injection H as <-.
  assert (Qabs (inject_Z (3600 * h + 60 * m) + inject_Z n / inject_Z (10 ^ Z.of_nat p) - 240 * q) <= (52 # 100) / inject_Z (10 ^ Z.of_nat p))%Q as C.
  { apply (near p _ _ (fval f) q 240 A E); [lra|exact Hp|reflexivity]. }
  exists h, m, n. split; [reflexivity|]. split.
  { split; [lia|]. pose proof (small_unit p Hp) as U. pose proof (units_low n p (proj1 Hn)) as L. apply Qabs_Qle_condition in C as [_ C].
    assert (inject_Z (3600 * h + 60 * m) < inject_Z 86402)%Q as X by (change (inject_Z 86402) with 86402%Q; lra). rewrite <- Zlt_Qlt in X. lia. }
  split; [lia|]. split; [exact Hn|exact C].
Qed.
Lemma shows_dec_ok t f q N0 p w : pyfloat t = Ok f -> (-90 <= q <= 90)%Q -> (q == inject_Z N0 / inject_Z (10 ^ 9))%Q -> (Qabs (fmag f - Qabs q) <= 1 # 1000000000000)%Q ->
  ((0 < Qabs q)%Q -> (0 < fmag f)%Q /\ (fneg f = true <-> (q < 0)%Q)) -> ((q == 0)%Q -> (fmag f == 0)%Q) -> In p [1; 2]%nat ->
  degDeclToSexDecl t (prec_fl (PTen p)) = Ok w -> shows_dec p w q.
Proof.
  intros P B Q E Sg Z Hp H. assert (In p [1; 2; 3]%nat) as Hp3 by (destruct Hp as [<-|[<-|[]]]; cbn [In]; tauto). destruct (ten_decimals p Hp3) as (D & M & M1).
  assert (Qabs q <= 90)%Q as Bq by (apply Qabs_Qle_condition; lra).
  assert (fmag f <= 99)%Q as Bf by (apply Qabs_Qle_condition in E; lra).
  destruct (C40_dec_seconds t f _ p P Bf D ltac:(destruct Hp as [<-|[<-|[]]]; lia) M1 M (fun K => no_tie q N0 f p K Q B E Hp)) as (neg & h & m & n & Ew & Hh & Hm & Hn & A & S1 & S2 & Hn2).
  rewrite Ew in H. injection H as <-. specialize (Hn2 (Qeq_refl _)).
  assert (Qabs (inject_Z (3600 * h + 60 * m) + inject_Z n / inject_Z (10 ^ Z.of_nat p) - 3600 * Qabs q) <= (52 # 100) / inject_Z (10 ^ Z.of_nat p))%Q as C.
  { apply (near p _ _ (fmag f) (Qabs q) 3600 A E); [lra|exact Hp3|reflexivity]. }
  exists neg, h, m, n. split; [reflexivity|]. split.
  { split; [lia|]. pose proof (small_unit p Hp3) as U. pose proof (units_low n p (proj1 Hn)) as L. apply Qabs_Qle_condition in C as [_ C].
    assert (inject_Z (3600 * h + 60 * m) < inject_Z 324002)%Q as X by (change (inject_Z 324002) with 324002%Q; lra). rewrite <- Zlt_Qlt in X. lia. }
  split; [exact Hm|]. split; [lia|].
  destruct (Q_dec q 0) as [[L|L]|L].
  - assert (0 < Qabs q)%Q as Pq by (rewrite Qabs_neg; lra). destruct (Sg Pq) as [Pf Sn]. rewrite (S1 Pf). split; [intros _; lra|]. split; [|exact C]. intro X. apply Sn in L. congruence.
  - assert (0 < Qabs q)%Q as Pq by (rewrite Qabs_pos; lra). destruct (Sg Pq) as [Pf Sn]. rewrite (S1 Pf). split; [intro X; apply Sn in X; lra|]. split; [intros _; lra|exact C].
  - split; [intros _; lra|]. split; [intros _; lra|exact C].
Qed.
Lemma shows_time_ok s p k w : plain_time s -> day_decimals p k -> isoToSexDate s p = Ok w -> shows_time k w s.
Proof.
  intros (y & m & d & sec & f & C & S & Df & L & ->) D H. destruct (C40_date y m d sec f p k C S Df L D) as (V & HV & E & A). rewrite E in H. injection H as <-.
  exists y, m, d, sec, f, V. split; [reflexivity|]. split; [exact C|]. split; [exact S|]. split; [exact HV|]. split; [exact A|]. f_equal.
  destruct (Z.eqb_spec V (10 ^ Z.of_nat k)) as [->|N]; [apply Z.mod_same; pose proof (Z.pow_pos_nonneg 10 (Z.of_nat k)); lia|apply Z.mod_small; lia].
Qed.

(** * The line *)
Section Columns.
Variable F : derivation -> str -> Prop.
Variable RV : reads_values F.
Variable r : xml.
Hypothesis V : valid F submit_xsd r.
Variable o : opts80.
Hypothesis So : standard o.
Hypothesis Tg : In (xtag r) [$"optical"; $"occultation"].
Hypothesis PT : plain_time (rec_value r $"obsTime").
Hypothesis Fi : fitting r.
Let h := occurs_in (xkids r).
Let d := subDict_of r.
Let K4 : In (xtag r) kinds4. Proof. exact (tag4 r Tg). Qed.
Lemma dgiven x df : given d $x df = match rec_value r $x with [] => df | v => v end.
Proof. unfold given, d. rewrite dict. unfold text_if. destruct (rec_value r $x); reflexivity. Qed.
Lemma given_nil x : given d $x [] = rec_value r $x.
Proof. rewrite dgiven. destruct (rec_value r $x); reflexivity. Qed.
Lemma no_reserved x : In $x (map lit reserved) -> dget $x d = None.
Proof. intro I. exact (none_reserved F r V Tg x I). Qed.
Lemma angle_ra t : angle d $"ra" $"raStar" $"deltaRA" t -> t = ra_of r /\ h (if is_tag $"occultation" r then $"raStar" else $"ra") = true.
Proof.
  destruct Fi as [[L3 N244] _ _]. unfold angle. cbv zeta. rewrite (given_nil "stn").
  assert (streqb (rec_value r $"stn") $"244" = false) as -> by (destruct (streqb (rec_value r $"stn") $"244") eqn:Q; [apply streqb_eq in Q; contradiction|reflexivity]).
  unfold d. rewrite !dict. unfold ra_of, is_tag.
  assert (forall x u, text_if r x = Some u -> u = rec_value r $x /\ h $x = true) as K.
  { intros x u Q. unfold text_if in Q. destruct (rec_value r $x) eqn:X; [discriminate Q|]. injection Q as <-. split; [reflexivity|]. apply value_occurs. rewrite X. intro Y. discriminate Y. }
  destruct Tg as [T0|[T0|[]]]; pose proof (eq_sym T0) as T; rewrite T.
  - change (streqb $"optical" $"occultation") with false. cbv iota. destruct (streqb (rec_value r $"stn") $"275"); [|apply K].
    rewrite (none_text r "raStar"); [intro Q; discriminate Q|]. apply (not_field F r V (xtag r)); [exact K4|reflexivity|rewrite T; vm_compute; reflexivity].
  - change (streqb $"occultation" $"occultation") with true. cbv iota. destruct (streqb (rec_value r $"stn") $"275"); [apply K|].
    rewrite (none_text r "ra"); [intro Q; discriminate Q|]. apply (not_field F r V (xtag r)); [exact K4|reflexivity|rewrite T; vm_compute; reflexivity].
Qed.
Lemma angle_dec t : angle d $"dec" $"decStar" $"deltaDec" t -> t = dec_of r /\ h (if is_tag $"occultation" r then $"decStar" else $"dec") = true.
Proof.
  destruct Fi as [[L3 N244] _ _]. unfold angle. cbv zeta. rewrite (given_nil "stn").
  assert (streqb (rec_value r $"stn") $"244" = false) as -> by (destruct (streqb (rec_value r $"stn") $"244") eqn:Q; [apply streqb_eq in Q; contradiction|reflexivity]).
  unfold d. rewrite !dict. unfold dec_of, is_tag.
  assert (forall x u, text_if r x = Some u -> u = rec_value r $x /\ h $x = true) as K.
  { intros x u Q. unfold text_if in Q. destruct (rec_value r $x) eqn:X; [discriminate Q|]. injection Q as <-. split; [reflexivity|]. apply value_occurs. rewrite X. intro Y. discriminate Y. }
  destruct Tg as [T0|[T0|[]]]; pose proof (eq_sym T0) as T; rewrite T.
  - change (streqb $"optical" $"occultation") with false. cbv iota. destruct (streqb (rec_value r $"stn") $"275"); [|apply K].
    rewrite (none_text r "decStar"); [intro Q; discriminate Q|]. apply (not_field F r V (xtag r)); [exact K4|reflexivity|rewrite T; vm_compute; reflexivity].
  - change (streqb $"occultation" $"occultation") with true. cbv iota. destruct (streqb (rec_value r $"stn") $"275"); [apply K|].
    rewrite (none_text r "dec"); [intro Q; discriminate Q|]. apply (not_field F r V (xtag r)); [exact K4|reflexivity|rewrite T; vm_compute; reflexivity].
Qed.
Lemma ra_facts : h (if is_tag $"occultation" r then $"raStar" else $"ra") = true -> exists q f, decimal_value (ra_of r) q /\ (0 <= q < 360)%Q /\
  pyfloat (ra_of r) = Ok f /\ fneg f = false /\ (Qabs (fval f - q) <= 1 # 1000000000000)%Q.
Proof.
  unfold ra_of. destruct (is_tag $"occultation" r); intro H;
  [apply (ra_field F RV r _ K4 eq_refl V "raStar" ltac:(right; left; reflexivity) H)|apply (ra_field F RV r _ K4 eq_refl V "ra" ltac:(left; reflexivity) H)].
Qed.
Lemma dec_facts : h (if is_tag $"occultation" r then $"decStar" else $"dec") = true -> exists q f N, decimal_value (dec_of r) q /\ (-90 <= q <= 90)%Q /\ (q == inject_Z N / inject_Z (10 ^ 9))%Q /\
  pyfloat (dec_of r) = Ok f /\ (Qabs (fmag f - Qabs q) <= 1 # 1000000000000)%Q /\
  ((0 < Qabs q)%Q -> (0 < fmag f)%Q /\ (fneg f = true <-> (q < 0)%Q)) /\ ((q == 0)%Q -> (fmag f == 0)%Q).
Proof.
  unfold dec_of. destruct (is_tag $"occultation" r); intro H;
  [apply (dec_field F RV r _ K4 eq_refl V "decStar" ltac:(right; left; reflexivity) H)|apply (dec_field F RV r _ K4 eq_refl V "dec" ltac:(left; reflexivity) H)].
Qed.
Lemma disc_len : length (given d $"disc" $" ") = 1%nat.
Proof.
  rewrite dgiven. destruct (rec_value r $"disc") as [|c s] eqn:E; [reflexivity|]. rewrite <- E.
  assert (h $"disc" = true) as H by (apply value_occurs; rewrite E; intro X; discriminate X).
  destruct (field_value F r _ K4 eq_refl V $"disc" "DiscType" H ltac:(apply neq_local; vm_compute; reflexivity) ltac:(vm_compute; reflexivity)) as (v & S & ->). apply (disc_type F (proj1 RV)) in S.
  destruct S as [<-|[<-|[]]]; vm_compute; reflexivity.
Qed.
Lemma band_given : given d $"band" $" " <> [].
Proof. rewrite dgiven. destruct (rec_value r $"band"); intro X; discriminate X. Qed.
Lemma prec_default k x p : In $k (map lit reserved) -> precision d $k x p -> pyfloat x = Ok p.
Proof. intros I. unfold precision, given. rewrite (no_reserved k I). exact (fun H => H). Qed.
Ltac res := apply smem_iff; vm_compute; reflexivity.
Lemma fits_o : fits o d.
Proof.
  destruct (standard_facts o So) as (pt & pr & pd & k & a & b & PF). destruct Fi as [[L3 N244] LA LP].
  assert (forall x y : str, match x with [] => y | v => v end = y \/ match x with [] => y | v => v end = x) as MM by (intros [|? ?] ?; [left|right]; reflexivity).
  split.
  - rewrite dgiven. destruct (rec_value r $"artSat"); exact LA.
  - exact disc_len.
  - unfold given. rewrite no_reserved by res. cbn [length]. lia.
  - exact band_given.
  - rewrite dgiven. destruct (rec_value r $"stn"); exact L3.
  - unfold d. rewrite dict. intro Sy. fold d. rewrite dgiven. assert (rec_value r $"sys" = $"WGS84") as Q by (unfold text_if in Sy; destruct (rec_value r $"sys"); [discriminate Sy|congruence]).
    specialize (LP Q). destruct (rec_value r $"pos3"); exact LP.
  - intros p w P H. apply prec_default in P; [|res]. rewrite (pf_time _ _ _ _ _ _ _ PF) in P. injection P as <-. rewrite (given_nil "obsTime") in H.
    destruct PT as (y & m & dd & sec & f & C & S & Df & Lf & E). rewrite E in H. exact (C33_date_fits y m dd sec f pt k w C S Df Lf (pf_day _ _ _ _ _ _ _ PF) H).
  - intros t p w A P H. apply prec_default in P; [|res]. rewrite (pf_ra _ _ _ _ _ _ _ PF) in P. injection P as <-. apply angle_ra in A as [-> Hh].
    destruct (ra_facts Hh) as (q & f & _ & B & Pf & Nf & E). apply (C33_ra_fits (ra_of r) f pr w Pf Nf); [apply Qabs_Qle_condition in E; lra| |exact H].
    left. exists a. pose proof (pf_a _ _ _ _ _ _ _ PF) as Ia. rewrite (pf_pr _ _ _ _ _ _ _ PF). destruct (ten_decimals a ltac:(destruct Ia as [<-|[<-|[]]]; cbn [In]; tauto)) as (D & M & _).
    split; [exact D|]. split; [destruct Ia as [<-|[<-|[]]]; lia|exact M].
  - intros t p w A P H. apply prec_default in P; [|res]. rewrite (pf_dec _ _ _ _ _ _ _ PF) in P. injection P as <-. apply angle_dec in A as [-> Hh].
    destruct (dec_facts Hh) as (q & f & N & _ & B & Q & Pf & E & _). assert (Qabs q <= 90)%Q as Bq by (apply Qabs_Qle_condition; lra).
    apply (C33_dec_fits (dec_of r) f pd w Pf); [apply Qabs_Qle_condition in E; lra| |exact H].
    left. exists b. pose proof (pf_b _ _ _ _ _ _ _ PF) as Ib. rewrite (pf_pd _ _ _ _ _ _ _ PF). destruct (ten_decimals b ltac:(destruct Ib as [<-|[<-|[]]]; cbn [In]; tauto)) as (D & M & M1).
    split; [exact D|]. split; [destruct Ib as [<-|[<-|[]]]; lia|]. split; [exact M1|]. split; [exact M|]. intro K. exact (no_tie q N f b K Q B E Ib).
Qed.
Theorem columns ls : record80 o r ls -> (forall l, In l ls -> length l = 80%nat) /\
  exists l rest i j k q q', ls = l :: rest /\ places o i j k /\ shows_time i (cols 16 32 l) (rec_value r $"obsTime") /\
    decimal_value (ra_of r) q /\ shows_ra j (cols 33 44 l) q /\ decimal_value (dec_of r) q' /\ shows_dec k (cols 45 56 l) q'.
Proof.
  intro H. apply (print_optical r o ls Tg) in H. fold d in H. split; [intros l I; exact (C33_optical_80 o d ls l fits_o H I)|].
  destruct (C33_optical o d ls fits_o H) as (id & n & c & date & cat & ref & l & rest & _ & _ & _ & _ & _ & L & -> & _).
  destruct (standard_facts o So) as (pt & pr & pd & k & a & b & PF).
  destruct L as (pt' & tra & pra & ra & tde & pde & de & mag & P1 & D1 & A1 & P2 & D2 & A2 & P3 & D3 & _ & Fl).
  apply prec_default in P1; [|res]. apply prec_default in P2; [|res]. apply prec_default in P3; [|res].
  rewrite (pf_time _ _ _ _ _ _ _ PF) in P1. injection P1 as <-. rewrite (pf_ra _ _ _ _ _ _ _ PF) in P2. injection P2 as <-. rewrite (pf_dec _ _ _ _ _ _ _ PF) in P3. injection P3 as <-.
  apply angle_ra in A1 as [-> H1]. apply angle_dec in A2 as [-> H2].
  destruct (ra_facts H1) as (q & f & Dq & B & Pf & Nf & E). destruct (dec_facts H2) as (q' & f' & N' & Dq' & B' & Q' & Pf' & E' & S' & Z').
  exists l, rest, k, a, b, q, q'. split; [reflexivity|]. split; [exact (pf_places _ _ _ _ _ _ _ PF)|].
  cbn [fill Nat.add Nat.sub] in Fl. destruct Fl as (_ & _ & _ & _ & _ & _ & _ & _ & Cd & _ & Cr & _ & Ce & _). rewrite Cd, Cr, Ce.
  pose proof (pf_a _ _ _ _ _ _ _ PF) as Ia. rewrite (pf_pr _ _ _ _ _ _ _ PF) in D2. rewrite (pf_pd _ _ _ _ _ _ _ PF) in D3.
  split. { rewrite (given_nil "obsTime") in D1.
    exact (shows_time_ok _ pt k date PT (pf_day _ _ _ _ _ _ _ PF) D1). }
  split; [exact Dq|]. split; [exact (shows_ra_ok _ f q a ra Pf Nf E B ltac:(destruct Ia as [<-|[<-|[]]]; cbn [In]; tauto) D2)|].
  split; [exact Dq'|]. exact (shows_dec_ok _ f' q' N' b de Pf' B' Q' E' S' Z' (pf_b _ _ _ _ _ _ _ PF) D3).
Qed.
End Columns.
