(** Lemmas about Back80Spec, part 2: dates, right ascensions, declinations and their precisions. *)
From Verif Require Import PyStrProofs PyReInv PackProofs2 PyFloat PyFloatProofs SexVals SexSpec SexProofs1 SexProofs2 SexProofs3 SexProofs4 SexProofs5 SexProofs6 SexProofs7 SexProofs9 SexProofs11 SexProofs12 SexProofs13 SexProofs15 SexProofs18.
From Verif Require Import Back80Proofs1.
From Verif Require Import SexSpec.
Local Open Scope Z_scope.

Definition texty (s : str) : Prop := strip s = s /\ s <> [].
Lemma texty_i s : begins s -> ends s -> texty s.
Proof. intros B E. split; [now apply tidy_ends|]. destruct B as (c & m & -> & _). discriminate. Qed.
Lemma dec_begins z : begins (dec z).
Proof.
  unfold dec. destruct (Z.ltb_spec z 0).
  - now apply lit_b.
  - destruct (decn_spec z) as (A & _ & B & _); [lia|]. apply dark_begins; [now apply dig_dark|exact B].
Qed.
Lemma alldig_texty w : forallb isdig w = true -> w <> [] -> texty w.
Proof. intros A N. apply texty_i; [apply dark_begins|apply dark_ends]; auto; now apply dig_dark. Qed.
Lemma num_texty k N : (1 <= k)%nat -> 0 <= N < 10 ^ Z.of_nat k -> texty (num k N).
Proof.
  intros K H. destruct (num_spec k N K H) as (L & A & _). apply alldig_texty; [exact A|]. intros E. rewrite E in L. cbn in L. lia.
Qed.
Lemma texty_begins s : texty s -> begins s.
Proof.
  intros [T N]. destruct s as [|c s]; [congruence|]. exists c, s. split; [reflexivity|]. destruct (pyspace c) eqn:E; [|reflexivity]. exfalso.
  pose proof (strip_is_trimmed (c :: s)) as K. rewrite T in K. unfold trimmed in K. rewrite E in K. discriminate K.
Qed.
Lemma texty_ends s : texty s -> ends s.
Proof.
  intros [T N]. destruct (exists_last N) as (m & d & ->). exists m, d. split; [reflexivity|]. destruct (pyspace d) eqn:E; [|reflexivity]. exfalso.
  pose proof (strip_is_trimmed (m ++ [d])) as K. rewrite T in K. unfold trimmed in K.
  destruct (m ++ [d]) as [|x y] eqn:Q; [now destruct m|]. rewrite <- Q, lastc_app, E in K. now rewrite andb_false_r in K.
Qed.
Lemma decimal_texty neg d V : (1 <= d)%nat -> 0 <= V -> texty (decimal_text neg d V).
Proof.
  intros D H. assert (0 < 10 ^ Z.of_nat d) as P by (apply Z.pow_pos_nonneg; lia). unfold decimal_text. apply texty_i.
  - destruct neg; [now apply lit_b|]. cbn [app]. apply begins_app, dec_begins.
  - do 3 apply ends_app. apply texty_ends, num_texty; [exact D|]. now apply Z.mod_pos_bound.
Qed.
Lemma date_back w radar t p : length w = 17%nat -> checkDate w radar = Ok (t, p) ->
  texty t /\ texty (prec_str p) /\ pyfloat (prec_str p) = Ok (prec_fl p) /\ isoToSexDate t (prec_fl p) = Ok w /\
  exists y m d k N, calendar y m d /\ (1 <= k <= 6)%nat /\ 0 <= N < 10 ^ Z.of_nat k /\ w = date_text y m d k N /\ p = PInt (10 ^ (6 - Z.of_nat k)).
Proof.
  intros L H. destruct (date_only w radar (t, p) L H) as (y & m & d & k & N & C & K & B & ->).
  unfold checkDate in H. rewrite (sexdate_fwd y m d k N C K B) in H. cbv zeta in H.
  destruct (add_us _ _) as [[t' us]|]; [|discriminate H]. cbn [rbind] in H.
  destruct (fltb _ _); [discriminate H|]. destruct (isoToSexDate _ _) as [s|] eqn:I; [|discriminate H]. cbn [rbind] in H.
  destruct (streqb s _) eqn:E; [|discriminate H]. apply streqb_eq in E. subst s. injection H as <- <-. split.
  { apply texty_i.
    - apply begins_app. unfold iso_text. apply begins_app, dec_begins.
    - do 2 apply ends_app. apply dark_ends; [reflexivity|discriminate]. }
  assert (Hk : (k = 1 \/ k = 2 \/ k = 3 \/ k = 4 \/ k = 5 \/ k = 6)%nat) by lia.
  split. { destruct Hk as [-> |[-> |[-> |[-> |[-> | ->]]]]]; (split; [vm_compute; reflexivity|vm_compute; discriminate]). }
  split. { destruct Hk as [-> |[-> |[-> |[-> |[-> | ->]]]]]; vm_compute; reflexivity. }
  split; [exact I|]. exists y, m, d, k, N. auto.
Qed.
Lemma prec_texty s X pr u : sexagesimal s X pr u -> (length s <= 12)%nat -> texty (prec_str pr).
Proof.
  intros H L. destruct H; try (split; [vm_compute; reflexivity|vm_compute; discriminate]).
  assert (Hl : (p <= 3)%nat) by (rewrite sec_text_length in L by (try lia; pose proof (p10_pos p); lia); destruct p; lia).
  assert (Hc : (p = 1 \/ p = 2 \/ p = 3)%nat) by lia.
  destruct Hc as [-> | [-> | ->]]; (split; [vm_compute; reflexivity|vm_compute; discriminate]).
Qed.
Lemma prec_read s X pr u : sexagesimal s X pr u -> (length s <= 12)%nat -> pyfloat (prec_str pr) = Ok (prec_fl pr).
Proof.
  intros H L. destruct (prec_text s X pr u H L) as (f & E & A & B). rewrite E. f_equal. destruct f, (prec_fl pr); cbn in A, B; now subst.
Qed.
Lemma ra_back w t p : length w = 12%nat -> checkRa w = Ok (t, p) ->
  texty t /\ texty (prec_str p) /\ pyfloat (prec_str p) = Ok (prec_fl p) /\ decRaToSexRa t (prec_fl p) = Ok w.
Proof.
  intros L E. destruct (ra_complete w ltac:(lia)) as [F|(s & X & pr & u & S & ->)]; [congruence|].
  assert (Ls : (length s <= 12)%nat) by (unfold padr in L; rewrite app_length in L; lia).
  destruct (ra_canonical s X pr u S Ls) as (d & V & D & V0 & F & B & _). rewrite F in E. injection E as <- <-.
  split; [now apply decimal_texty|]. split; [now apply (prec_texty s X pr u)|]. split; [now apply (prec_read s X pr u)|exact B].
Qed.
Lemma dec_back w t p : length w = 12%nat -> checkDec w = Ok (t, p) ->
  texty t /\ texty (prec_str p) /\ pyfloat (prec_str p) = Ok (prec_fl p) /\ degDeclToSexDecl t (prec_fl p) = Ok w.
Proof.
  intros L E. destruct (dec_complete w L) as [F|(neg & s & X & pr & u & S & ->)]; [congruence|].
  assert (Ls : (length s <= 11)%nat) by (unfold padr in L; rewrite !app_length in L; destruct neg; cbn [sgn] in L; change (length $"-") with 1%nat in L; change (length $"+") with 1%nat in L; lia).
  destruct (dec_canonical neg s X pr u S Ls) as (d & V & D & V0 & F & B & _). rewrite F in E. injection E as <- <-.
  assert (Ll : (length s <= 12)%nat) by lia.
  split; [now apply decimal_texty|]. split; [now apply (prec_texty s X pr u)|]. split; [now apply (prec_read s X pr u)|exact B].
Qed.
