(** Lemmas of C50, part 3: the parts of a line. *)
From Verif Require Import SchemaSpec PyStrProofs RoundProofs2 SchemaProofs1 SchemaProofs2 SchemaProofs3 RecordProofs1 RecordProofs2 RecordProofs3 RecordProofs4 RecordProofs6 RecordProofs12 AdesMasterTables PropsSchema.
From Verif Require Import Schema XsdSpec SchemaSpec XsdPattern XsdFiles ValueSpec ValidSpec ValidSpec2 LexSpec LexProofs1 LexProofs2 LexProofs3 IdProofs5 ValueProofs1 ValueProofs2 ValueProofs3 ValueProofs4.
From Verif Require Import PyFloat SexVals XmlToMpc80 Print80Proofs1 PsvSpec2 LayoutSpec JustSpec JustProofs Mpc80 Mpc80Spec Line80Spec LineProofs1 PropsLine PropsSexAny Submit80Spec Submit80Proofs1 Submit80Proofs2 Submit80Proofs3 Submit80Proofs4 Submit80Proofs5.
From Verif Require Import Mpc80Proofs11 PackSpec DocSpec Return80Spec Return80Proofs1 Return80Proofs2.
Local Open Scope nat_scope.

Definition string_fine (x : str) : bool :=
  match derivs general_xsd 8 (type_name general_xsd x) with
  | Some ds => forallb (fun d => if streqb (fst d) $"xsd:string" then bounded okc (snd d) else false) ds
  | None => false
  end.
Lemma names_fine : forall x, In x ["permID"; "provID"; "trkSub"]%string -> string_fine $x = true.
Proof. intros x [<-|[<-|[<-|[]]]]; vm_compute; reflexivity. Qed.
Lemma alnum_okc : forall c, alnum_ c = true -> okc c = true. Proof. apply imp_ascii. vm_compute. reflexivity. Qed.
Lemma alnum_any : forall c, okc c = true -> any c = true. Proof. apply imp_ascii. vm_compute. reflexivity. Qed.
Lemma fine_any s : fine s -> forallb any s = true.
Proof. apply forallb_imp, alnum_any. Qed.
Lemma dget_In {A} (k : str) (v : A) l : dget k l = Some v -> In (k, v) l.
Proof. induction l as [|[k' v'] l IH]; [intro H; discriminate H|]. cbn [dget]. destruct (streqb k k') eqn:Q; intro H; [apply streqb_eq in Q; left; congruence|right; now apply IH]. Qed.
Lemma cat_letter n : exists c, catalogue_letter n = [c] /\ In c Back80Spec.catalogue_letters.
Proof.
  unfold catalogue_letter. destruct (dget n rCatCodes) as [v|] eqn:E; [|exists " "%char; split; [reflexivity|now left]].
  assert (forallb (fun kv => match snd kv with [c] => cmem c Back80Spec.catalogue_letters | _ => false end) rCatCodes = true) as A by (vm_compute; reflexivity).
  rewrite forallb_forall in A. apply dget_In in E. specialize (A _ E). cbn [snd] in A. destruct v as [|c [|? ?]]; try discriminate A. exists c. split; [reflexivity|now apply cmem_in].
Qed.
Lemma code_char m c : dget m reverseCodeDict = Some c -> exists x, c = [x] /\ In x $"PeCBTMcEOHNn " /\ mode_of [x] = m.
Proof.
  intro E. assert (forallb (fun kv => match snd kv with [x] => cmem x $"PeCBTMcEOHNn " && streqb (mode_of [x]) (fst kv) | _ => false end) reverseCodeDict = true) as A by (vm_compute; reflexivity).
  rewrite forallb_forall in A. apply dget_In in E. specialize (A _ E). cbn [fst snd] in A. destruct c as [|x [|? ?]]; try discriminate A. apply andb_true_iff in A as [A B]. exists x. split; [reflexivity|]. split; [now apply cmem_in|now apply streqb_eq].
Qed.
(** a number in the five columns of the magnitude *)
Lemma mag_columns s m : Line80Spec.aligned s 5 3 m -> (forall c, In c s -> pyspace c = false) ->
  length (firstn 5 m) = 5 /\ strip (firstn 5 m) = firstn (5 - (2 - length (before_point s))) s /\ (forall c, In c (firstn 5 m) -> In c s \/ c = " "%char).
Proof.
  intros (w & q & E) D. change (just_decimal s 5 3 = Ok (m, w, q)) in E. apply just_D in E as (_ & _ & a & b & Em & Ew & Eq & Ea & Ww). unfold wid in *.
  assert (a = 2 - length (before_point s)) as Ha by lia. rewrite <- Ha. assert (a <= 5) as La by lia.
  assert (5 <= length m) as Lm by lia.
  split; [rewrite firstn_length; lia|].
  assert (firstn 5 m = spaces a ++ firstn (5 - a) (s ++ spaces b)) as E5.
  { rewrite Em, firstn_app, spaces_length, firstn_all2 by (rewrite spaces_length; exact La). reflexivity. }
  assert (exists n, firstn 5 m = spaces a ++ firstn (5 - a) s ++ spaces n) as (n & En).
  { rewrite E5, firstn_app. exists (Nat.min (5 - a - length s) b). f_equal. f_equal. unfold spaces. generalize (5 - a - length s). clear. intro k. revert b. induction k as [|k IH]; intros [|b]; try reflexivity. cbn [repeat firstn Nat.min]. f_equal. apply IH. }
  split.
  - rewrite En. assert (forallb pyspace (spaces a) = true) as A by (clear; unfold spaces; induction a; [reflexivity|assumption]). assert (forallb pyspace (spaces n) = true) as B by (clear; unfold spaces; induction n; [reflexivity|assumption]).
    apply strip_pad; [exact A|exact B|].
    destruct (firstn (5 - a) s) as [|c x] eqn:F; [reflexivity|]. rewrite <- F.
    assert (strip (firstn (5 - a) s) = firstn (5 - a) s) as <-; [|apply strip_is_trimmed]. apply strip_no_space; [rewrite F; intro X; discriminate X|].
    apply forallb_forall. intros y Iy. assert (In y s) as Is by (rewrite <- (firstn_skipn (5 - a) s); apply in_or_app; now left). now rewrite (D y Is).
  - intros c I. rewrite En in I. apply in_app_or in I as [I|I]; [right; now apply repeat_spec in I|]. apply in_app_or in I as [I|I]; [|right; now apply repeat_spec in I]. left. rewrite <- (firstn_skipn (5 - a) s). apply in_or_app. now left.
Qed.

Section Return.
Variable F : derivation -> str -> Prop.
Variable RV : reads_values F.
Variable r : xml.
Hypothesis V : valid F submit_xsd r.
Variable o : opts80.
Hypothesis So : standard o.
Hypothesis Tg : In (xtag r) [$"optical"; $"occultation"].
Hypothesis PT : plain_time (rec_value r $"obsTime").
Hypothesis Fi : fitting r.
Hypothesis NA : text_if r "artSat" = None.
Let h := occurs_in (xkids r).
Let K4 : In (xtag r) kinds4. Proof. exact (tag4 r Tg). Qed.

Lemma name_fine x : In x ["permID"; "provID"; "trkSub"]%string -> fine_o (text_if r x).
Proof.
  intro I. unfold text_if. destruct (rec_value r $x) as [|c s] eqn:E; [exact Logic.I|]. cbn [fine_o]. rewrite <- E.
  assert (h $x = true) as H by (apply value_occurs; rewrite E; intro X; discriminate X).
  apply (proj1 (occurs_child _ _)) in H as (ch & Ic & Et).
  assert (xtag ch <> $"localUse") as NL. { rewrite Et. destruct I as [<-|[<-|[<-|[]]]]; intro X; discriminate X. }
  pose proof (child_value F r _ K4 eq_refl V ch Ic NL) as Sv. rewrite Et in Sv.
  assert (rec_value r $x = strip (xtext ch)) as ->. { rewrite <- Et. apply rec_value_child; [|exact Ic]. exact (proj1 (proj2 (r_facts F r _ K4 eq_refl V))). }
  pose proof (names_fine x I) as Nf. unfold string_fine in Nf. destruct (derivs general_xsd 8 (type_name general_xsd $x)) as [ds|] eqn:D; [|discriminate Nf].
  destruct (proj2 (derivs_complete F general_xsd 8 _ ds D) _ Sv) as ([b st] & Id & HF). rewrite forallb_forall in Nf. specialize (Nf _ Id). cbn [fst snd] in Nf.
  destruct (streqb b $"xsd:string") eqn:Eb; [|discriminate Nf]. apply streqb_eq in Eb. subst b. apply strip_fine. exact (bounded_ok F (proj1 RV) okc st _ Nf HF).
Qed.

Lemma an_field x t : $x <> $"localUse" -> type_name general_xsd $x = $t -> (forall s, simple F general_xsd $t s -> forallb alnum_ s = true) -> forallb alnum_ (rec_value r $x) = true.
Proof.
  intros NL E Ty. destruct (rec_value r $x) as [|c s] eqn:Q; [reflexivity|]. rewrite <- Q.
  assert (h $x = true) as H by (apply value_occurs; rewrite Q; intro X; discriminate X).
  destruct (field_value F r _ K4 eq_refl V $x t H NL E) as (v & Sv & ->). apply strip_sub. now apply Ty.
Qed.
Lemma band_an : forallb alnum_ (rec_value r $"band") = true.
Proof. apply (an_field "band" "BandType"); [apply neq_local; vm_compute; reflexivity|vm_compute; reflexivity|]. intros s Hs. apply (band_type F (proj1 RV)) in Hs. tauto. Qed.
Lemma notes_an : forallb alnum_ (rec_value r $"notes") = true.
Proof. apply (an_field "notes" "NotesType"); [apply neq_local; vm_compute; reflexivity|vm_compute; reflexivity|]. intros s Hs. apply (notes_type F (proj1 RV)) in Hs. tauto. Qed.
Lemma stn_an : forallb alnum_ (rec_value r $"stn") = true.
Proof. apply (an_field "stn" "StationType"); [apply neq_local; vm_compute; reflexivity|vm_compute; reflexivity|]. intros s Hs. apply (stn_type F (proj1 RV)) in Hs. tauto. Qed.
Lemma disc_in : rec_value r $"disc" = [] \/ rec_value r $"disc" = $"*" \/ rec_value r $"disc" = $"+".
Proof.
  destruct (rec_value r $"disc") as [|c s] eqn:E; [now left|right]. rewrite <- E.
  assert (h $"disc" = true) as H by (apply value_occurs; rewrite E; intro X; discriminate X).
  destruct (field_value F r _ K4 eq_refl V $"disc" "DiscType" H ltac:(apply neq_local; vm_compute; reflexivity) ltac:(vm_compute; reflexivity)) as (v & S & ->). apply (disc_type F (proj1 RV)) in S.
  destruct S as [<-|[<-|[]]]; [left|right]; vm_compute; reflexivity.
Qed.
Definition mag_char (c : ascii) : bool := isdig c || one_of $".+-" c.
Lemma mag_chars : forallb mag_char (rec_value r $"mag") = true.
Proof.
  destruct (rec_value r $"mag") as [|c s] eqn:E; [reflexivity|]. rewrite <- E.
  assert (h $"mag" = true) as H by (apply value_occurs; rewrite E; intro X; discriminate X).
  destruct (decimal_field F RV r _ K4 eq_refl V "mag" "MagType" [[($"xsd:minInclusive", $"-5.0"); ($"xsd:maxInclusive", $"35.0")]; [($"xsd:pattern", $"[+\-]?[0123456789\.]{1,7}")]; [($"xsd:pattern", $"[+\-]?(0|([1-9][0-9]*))(\.[0-9]*)?")]] ltac:(vm_compute; reflexivity) ltac:(vm_compute; reflexivity) ltac:(apply neq_local; vm_compute; reflexivity) H) as [q D].
  apply decimal_numeral in D as (sg & w & a & b & Ew & I & N & _). rewrite Ew, forallb_app. apply andb_true_iff. split.
  - destruct I as [<-|[<-|[<-|[]]]]; reflexivity.
  - assert (forall x, forallb isdig x = true -> forallb mag_char x = true) as K by (intro x; apply forallb_imp, imp_ascii; vm_compute; reflexivity).
    destruct N as [a Da Na|a b Da Db Na]; [now apply K|]. rewrite forallb_app. rewrite (K a Da). cbn [forallb andb]. rewrite (K b Db). reflexivity.
Qed.
(** magnitude and band come together *)
Lemma mag_band : rec_value r $"mag" = [] <-> rec_value r $"band" = [].
Proof.
  assert (photometry h = true) as P.
  { destruct (r_facts F r _ K4 eq_refl V) as (_ & _ & C & _). unfold complete in C. fold h in C. destruct Tg as [T|[T|[]]]; rewrite <- T in C; [change (streqb $"optical" $"optical") with true in C|change (streqb $"occultation" $"optical") with false in C; change (streqb $"occultation" $"offset") with false in C; change (streqb $"occultation" $"occultation") with true in C];
    cbv iota in C; [unfold complete_optical in C|unfold complete_occultation in C]; repeat (apply andb_true_iff in C as [C ?]); assumption. }
  assert (h $"mag" = h $"band") as E.
  { unfold photometry, group in P. apply orb_true_iff in P as [P|P].
    - unfold none in P. cbn [app forallb] in P. apply andb_true_iff in P as [P1 P]. apply andb_true_iff in P as [P2 _]. unfold g in P1, P2. apply negb_true_iff in P1. apply negb_true_iff in P2. congruence.
    - unfold every in P. cbn [forallb] in P. apply andb_true_iff in P as [P1 P]. apply andb_true_iff in P as [P2 _]. unfold g in P1, P2. congruence. }
  assert (h $"mag" = true -> rec_value r $"mag" <> []) as M.
  { intro H. destruct (decimal_field F RV r _ K4 eq_refl V "mag" "MagType" [[($"xsd:minInclusive", $"-5.0"); ($"xsd:maxInclusive", $"35.0")]; [($"xsd:pattern", $"[+\-]?[0123456789\.]{1,7}")]; [($"xsd:pattern", $"[+\-]?(0|([1-9][0-9]*))(\.[0-9]*)?")]] ltac:(vm_compute; reflexivity) ltac:(vm_compute; reflexivity) ltac:(apply neq_local; vm_compute; reflexivity) H) as [q D]. exact (proj2 (decimal_strip _ q D)). }
  assert (h $"band" = true -> rec_value r $"band" <> []) as B.
  { intro H. destruct (field_value F r _ K4 eq_refl V $"band" "BandType" H ltac:(apply neq_local; vm_compute; reflexivity) ltac:(vm_compute; reflexivity)) as (v & S & ->). apply (band_type F (proj1 RV)) in S as (N & _ & A). now rewrite (alnum_strip v). }
  split; intro Z.
  - destruct (rec_value r $"band") eqn:Q; [reflexivity|]. exfalso. apply M; [|exact Z]. rewrite E. apply value_occurs. rewrite Q. intro X. discriminate X.
  - destruct (rec_value r $"mag") eqn:Q; [reflexivity|]. exfalso. apply B; [|exact Z]. rewrite <- E. apply value_occurs. rewrite Q. intro X. discriminate X.
Qed.
(** the parts of the line *)
Record parts (l id c date ra de mag : str) (i j k : nat) (q q' : Q) : Prop := {
  pa_places : places o i j k;
  pa_id : packTupleID (text_if r "permID", text_if r "provID", text_if r "trkSub") = Ok id;
  pa_code : if located r then (rec_value r $"sys" = $"WGS84" /\ c = $"V") \/ ((rec_value r $"sys" = $"ICRF_AU" \/ rec_value r $"sys" = $"ICRF_KM") /\ c = $"S")
            else dget (rec_value r $"mode") reverseCodeDict = Some c;
  pa_date : shows_time i date (rec_value r $"obsTime");
  pa_q : decimal_value (ra_of r) q; pa_ra : shows_ra j ra q;
  pa_q' : decimal_value (dec_of r) q'; pa_dec : shows_dec k de q';
  pa_mag : Line80Spec.aligned (rec_value r $"mag") 5 3 mag;
  pa_fill : fill 1 l [(12, id); (1, given (subDict_of r) $"disc" $" "); (1, firstn 1 (given (subDict_of r) $"notes" $" ")); (1, c); (17, date); (12, ra); (12, de); (9, spaces 9);
     (5, firstn 5 mag); (1, band_letter (given (subDict_of r) $"band" $" ")); (1, catalogue_letter (rec_value r $"astCat")); (5, spaces 5); (3, rec_value r $"stn")] }.
(** the second line *)
Definition second_of (m : list str) (id date : str) : Prop :=
  let d := subDict_of r in let n := firstn 1 (given d $"notes" $" ") in
  if located r then exists l2, m = [l2] /\
    ((rec_value r $"sys" = $"WGS84" /\ rover_line d l2 id n date (catalogue_letter (rec_value r $"astCat")) (spaces 5)) \/
     (rec_value r $"sys" = $"ICRF_AU" /\ satellite_line d l2 id n date (spaces 5) $"2" 3) \/
     (rec_value r $"sys" = $"ICRF_KM" /\ satellite_line d l2 id n date (spaces 5) $"1" 7))
  else m = [].
Lemma sys_text s : text_if r "sys" = Some s -> rec_value r $"sys" = s.
Proof. unfold text_if. destruct (rec_value r $"sys"); [intro X; discriminate X|]. congruence. Qed.
Lemma line_parts l m : record80 o r (l :: m) -> exists id c date ra de mag i j k q q', parts l id c date ra de mag i j k q q' /\ second_of m id date.
Proof.
  intro H. destruct (columns F RV r V o So Tg PT Fi (l :: m) H) as (_ & l' & rest' & i & j & k & q & q' & E & Pl & St & Dq & Sr & Dq' & Sd). injection E as <- _.
  apply (Submit80Proofs4.print_optical r o (l :: m) Tg) in H.
  destruct (C33_optical o _ (l :: m) (fits_o F RV r V o So Tg PT Fi) H) as (id & n & c & date & cat & ref & l2 & rest & Id & No & Ki & Ca & Rf & L & E & More). injection E as <- <-.
  destruct L as (pt & tra & pra & ra & tde & pde & de & mag & _ & _ & _ & _ & _ & _ & _ & _ & Ma & Fl).
  pose proof (fun x I => no_reserved F r V Tg x I) as NR.
  assert (cols 16 32 l = date /\ cols 33 44 l = ra /\ cols 45 56 l = de) as (Cd & Cr & Ce).
  { pose proof Fl as Fl2. cbn [fill Nat.add Nat.sub] in Fl2. destruct Fl2 as (_ & _ & _ & _ & _ & _ & _ & _ & Cd & _ & Cr & _ & Ce & _). tauto. }
  rewrite Cd in St. rewrite Cr in Sr. rewrite Ce in Sd.
  assert (n = firstn 1 (given (subDict_of r) $"notes" $" ")) as En. { unfold note in No. rewrite (NR "prog"%string) in No by (apply smem_iff; vm_compute; reflexivity). exact No. }
  assert (catalogue_letter cat = catalogue_letter (rec_value r $"astCat")) as Ec. { rewrite dict in Ca. unfold text_if in Ca. destruct (rec_value r $"astCat"); [discriminate Ca|]. now injection Ca as <-. }
  assert (ref = spaces 5) as Er. { unfold given in Rf. rewrite (NR "ref"%string) in Rf by (apply smem_iff; vm_compute; reflexivity). vm_compute in Rf. now injection Rf as <-. }
  exists id, c, date, ra, de, mag, i, j, k, q, q'. split; [constructor; try assumption|].
  - unfold identification in Id. rewrite !dict in Id. rewrite NA in Id. exact Id.
  - unfold kind_of_line in Ki. rewrite (NR "deprecated"%string) in Ki by (apply smem_iff; vm_compute; reflexivity). unfold kmem in Ki. rewrite (NR "subFrm"%string) in Ki by (apply smem_iff; vm_compute; reflexivity). rewrite !dict in Ki.
    unfold located. destruct (text_if r "pos1").
    + destruct Ki as [(Es & Ek)|(Es & Ek)]; [left; split; [now apply sys_text|exact Ek]|right; split; [|exact Ek]]. destruct Es as [Es|Es]; [left|right]; now apply sys_text.
    + destruct Ki as (md & Em & Ek). unfold text_if in Em. destruct (rec_value r $"mode") eqn:Q; [discriminate Em|]. injection Em as <-. exact Ek.
  - rewrite (given_nil r "mag") in Ma. exact Ma.
  - rewrite <- (given_nil r "stn"), <- Ec, <- En. rewrite Er in Fl. exact Fl.
  - unfold second_of, located. unfold kmem in More. rewrite dict in More. cbv zeta. rewrite <- Ec, <- En, <- Er. destruct (text_if r "pos1"); [|exact More].
    destruct More as (l2 & -> & M). exists l2. split; [reflexivity|]. rewrite !dict in M.
    destruct M as [(Es & M)|[(Es & M)|[(Es & M)|(P & _)]]].
    + left. split; [now apply sys_text|exact M].
    + right. left. split; [now apply sys_text|exact M].
    + right. right. split; [now apply sys_text|exact M].
    + exfalso. unfold present in P. rewrite (NR "deprecated"%string) in P by (apply smem_iff; vm_compute; reflexivity). now apply P.
Qed.
End Return.
