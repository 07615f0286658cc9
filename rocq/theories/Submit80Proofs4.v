(** Lemmas of C49, part 4: which optical records of valid submissions are written. *)
From Verif Require Import SchemaSpec PyStrProofs RoundProofs2 SchemaProofs1 SchemaProofs2 SchemaProofs3 RecordProofs1 RecordProofs2 RecordProofs3 RecordProofs4 RecordProofs6 RecordProofs12 AdesMasterTables PropsSchema.
From Verif Require Import Schema XsdSpec SchemaSpec XsdPattern XsdFiles ValueSpec ValidSpec ValidSpec2 LexSpec LexProofs1 LexProofs2 LexProofs3 IdProofs5 ValueProofs1 ValueProofs2 ValueProofs3 ValueProofs4.
From Verif Require Import PyFloat SexVals XmlToMpc80 Print80Proofs1 PsvSpec2 LayoutSpec Submit80Spec Submit80Proofs1 Submit80Proofs2 Submit80Proofs3.
Local Open Scope nat_scope.

Lemma kinds_in : In $"optical" kinds4 /\ In $"offset" kinds4 /\ In $"occultation" kinds4 /\ In $"radar" kinds4.
Proof. repeat split; apply smem_iff; vm_compute; reflexivity. Qed.
Lemma mode_iff m : (exists c, dget m reverseCodeDict = Some c) <-> exists x, In x modes /\ m = $x.
Proof.
  split.
  - intros [c E].
    assert (forall (l : list (str * str)), dget m l = Some c -> In m (map fst l)) as A.
    { clear. induction l as [|[k v] l IH]; [intro H; discriminate H|]. cbn [dget map fst]. destruct (streqb m k) eqn:Q; [apply streqb_eq in Q; left; congruence|right; now apply IH]. }
    apply A in E. assert (forallb (fun x => smem x (map lit modes)) (map fst reverseCodeDict) = true) as B by (vm_compute; reflexivity).
    rewrite forallb_forall in B. apply B in E. apply smem_iff in E. apply in_map_iff in E as (x & <- & I). now exists x.
  - intros (x & I & ->). assert (forallb (fun x => match dget $x reverseCodeDict with Some _ => true | None => false end) modes = true) as B by (vm_compute; reflexivity).
    rewrite forallb_forall in B. specialize (B x I). destruct (dget $x reverseCodeDict) as [c|]; [now exists c|discriminate B].
Qed.
Lemma sys_iff s : In s [$"WGS84"; $"ICRF_AU"; $"ICRF_KM"] <-> exists x, In x systems /\ s = $x.
Proof.
  split.
  - intros [<-|[<-|[<-|[]]]]; [exists "WGS84"%string|exists "ICRF_AU"%string|exists "ICRF_KM"%string]; (split; [cbn [systems In]; tauto|reflexivity]).
  - intros (x & [<-|[<-|[<-|[]]]] & ->); [now left|right; now left|right; right; now left].
Qed.

Section Record.
Variable F : derivation -> str -> Prop.
Variable RV : reads_values F.
Variable r : xml.
Hypothesis V : valid F submit_xsd r.
Let h := occurs_in (xkids r).
Lemma dict x : dget $x (subDict_of r) = text_if r x.
Proof. unfold text_if. apply rec_get. Qed.
Lemma not_field k x : In k kinds4 -> xtag r = k -> smem $x (fields k) = false -> rec_value r $x = [].
Proof.
  intros K T N. destruct (rec_value r $x) eqn:E; [reflexivity|]. assert (h $x = true) as H by (apply (value_occurs r); rewrite E; intro X; discriminate X).
  apply (occurs_child r) in H as (c & I & X). destruct (r_facts F r k K T V) as (O & _). assert (In $x (fields k)) as J by (apply (in_order_incl _ _ O); rewrite <- X; now apply in_map).
  apply smem_iff in J. rewrite J in N. discriminate N.
Qed.
Variable o : opts80.
Hypothesis So : standard o.
Lemma print_optical ls : In (xtag r) [$"optical"; $"occultation"] -> (record80 o r ls <-> printOpticalLine o (subDict_of r) = Ok ls).
Proof. intro I. rewrite <- record_iff. unfold print_record, record_in. destruct I as [<-|[<-|[]]]; reflexivity. Qed.
(** what both kinds have *)
Lemma opt_facts : In (xtag r) [$"optical"; $"occultation"] ->
  h $"mode" = true /\ h $"stn" = true /\ h $"obsTime" = true /\ h $"astCat" = true /\ location h = true /\
  (xtag r = $"optical" -> h $"ra" = true /\ h $"dec" = true) /\ (xtag r = $"occultation" -> h $"raStar" = true /\ h $"decStar" = true /\ offset_value h = true).
Proof.
  intros I. destruct kinds_in as (K1 & _ & K3 & _). destruct I as [I|[I|[]]]; symmetry in I.
  - destruct (r_facts F r _ K1 I V) as (_ & _ & C & _). change (complete $"optical" (occurs_in (xkids r))) with (complete_optical h) in C.
    unfold complete_optical in C. apply andb_prop in C as [C _]. apply andb_prop in C as [C _]. apply andb_prop in C as [C _]. apply andb_prop in C as [C L]. apply andb_prop in C as [_ C].
    unfold every in C. rewrite forallb_forall in C. unfold g in C.
    repeat (split; [exact L || (apply C; cbn [In]; tauto)|]). split; [|intro X; rewrite I in X; discriminate X].
    intros _. split; apply C; cbn [In]; tauto.
  - destruct (r_facts F r _ K3 I V) as (_ & _ & C & _). change (complete $"occultation" (occurs_in (xkids r))) with (complete_occultation h) in C.
    unfold complete_occultation in C. apply andb_prop in C as [C _]. apply andb_prop in C as [C _]. apply andb_prop in C as [C _]. apply andb_prop in C as [C Of]. apply andb_prop in C as [C L]. apply andb_prop in C as [_ C].
    unfold every in C. rewrite forallb_forall in C. unfold g in C.
    repeat (split; [exact L || (apply C; cbn [In]; tauto)|]). split; [intro X; rewrite I in X; discriminate X|].
    intros _. split; [apply C; cbn [In]; tauto|]. split; [apply C; cbn [In]; tauto|exact Of].
Qed.
Hypothesis Tg : In (xtag r) [$"optical"; $"occultation"].
Hypothesis PT : plain_time (rec_value r $"obsTime").
Lemma tag4 : In (xtag r) kinds4.
Proof. destruct kinds_in as (K1 & _ & K3 & _). destruct Tg as [<-|[<-|[]]]; assumption. Qed.
Lemma time_ne : rec_value r $"obsTime" <> [].
Proof. destruct PT as (y & m & d & sec & f & _ & _ & _ & _ & ->). unfold iso_time. intro X. apply (f_equal (@length ascii)) in X. rewrite !app_length in X. cbn [length lit list_ascii_of_string] in X. lia. Qed.
Lemma none_reserved x : In $x (map lit reserved) -> dget $x (subDict_of r) = None.
Proof. intro I. rewrite dict. apply none_text. exact (reserved_none F r (xtag r) tag4 eq_refl V $x I). Qed.
Lemma stn_ne : rec_value r $"stn" <> [].
Proof. pose proof (stn_field F RV r (xtag r) tag4 eq_refl V (proj1 (proj2 (opt_facts Tg)))) as L. intro X. rewrite X in L. cbn [length] in L. lia. Qed.
Lemma lines_iff : (exists ls, record80 o r ls) <-> identified r /\ placed r /\ coded r.
Proof.
  destruct (opt_facts Tg) as (Hm & Hst & Ht & Hc & Hl & Hra & Hrs). pose proof tag4 as K4.
  destruct (standard_facts o So) as (pt & pr & pd & k & a & b & PF).
  destruct (cat_field F RV r _ K4 eq_refl V Hc) as [Nc Sc]. pose proof stn_ne as Ns. pose proof (mode_field F RV r _ K4 eq_refl V Hm) as Nm.
  assert ((exists ls, record80 o r ls) <-> exists ls, printOpticalLine o (subDict_of r) = Ok ls) as E by (split; intros [ls H]; exists ls; now apply print_optical).
  assert (forall x, In x ["precTime"; "precRA"; "precDec"; "prog"; "ref"; "deprecated"; "subFrm"]%string -> dget $x (subDict_of r) = None) as Rs.
  { intros x I. apply none_reserved. assert (forallb (fun x => smem $x (map lit reserved)) ["precTime"; "precRA"; "precDec"; "prog"; "ref"; "deprecated"; "subFrm"]%string = true) as Q by (vm_compute; reflexivity).
    rewrite forallb_forall in Q. apply smem_iff. now apply Q. }
  assert (forall x, rec_value r $"pos1" <> [] -> In x ["pos1"; "pos2"; "pos3"; "sys"]%string -> h $x = true) as Hp.
  { intros x N I. apply (pos_group r Hl); [now apply value_occurs|]. cbn [In] in *. tauto. }
  rewrite E, (line_iff o (subDict_of r) (rec_value r $"obsTime") (rec_value r $"stn") (rec_value r $"astCat") pt pr pd k a b PF).
  - assert (id_ok (subDict_of r) <-> identified r) as ->. { unfold id_ok, identified. rewrite !dict. reflexivity. }
    assert (code_ok (subDict_of r) <-> coded r) as ->.
    { unfold code_ok, coded, hasKeyOrVal. rewrite !dict. destruct (text_if r "pos1") as [x|] eqn:P1.
      - assert (rec_value r $"pos1" <> []) as N1. { unfold text_if in P1. destruct (rec_value r $"pos1"); [discriminate P1|intro X; discriminate X]. }
        pose proof (sys_field F RV r _ K4 eq_refl V (Hp "sys"%string N1 ltac:(cbn [In]; tauto))) as Nsys. rewrite (some_text r "sys" Nsys). apply sys_iff.
      - rewrite (some_text r "mode" Nm). split.
        + intros (m & c & Em & C). injection Em as <-. apply mode_iff. now exists c.
        + intros H. apply mode_iff in H as [c C]. exists (rec_value r $"mode"), c. now split. }
    assert (angle_ok (subDict_of r) (rec_value r $"stn") <-> placed r) as ->; [|tauto].
    unfold angle_ok, placed. rewrite !dict.
    destruct Tg as [X|[X|[]]]; symmetry in X.
    + assert (rec_value r $"raStar" = []) as Z by (apply (not_field (xtag r)); [exact K4|reflexivity|rewrite X; vm_compute; reflexivity]).
      rewrite (none_text r "raStar" Z). destruct (Hra X) as [H1 H2].
      destruct (streqb (rec_value r $"stn") $"275") eqn:E1; [|destruct (streqb (rec_value r $"stn") $"244") eqn:E2].
      * apply streqb_eq in E1. split; [intros (? & ? & Q & _); discriminate Q|]. intros [(_ & Q)|[(Q & _)|(Q & _)]]; [|rewrite X in Q; discriminate Q|rewrite X in Q; discriminate Q]. elim (Q "275"%string (or_introl eq_refl) E1).
      * apply streqb_eq in E2. split; [intros (? & ? & ? & ? & Q & _); discriminate Q|]. intros [(_ & Q)|[(Q & _)|(Q & _)]]; [|rewrite X in Q; discriminate Q|rewrite X in Q; discriminate Q]. elim (Q "244"%string (or_intror (or_introl eq_refl)) E2).
      * split.
        -- intros _. left. split; [exact X|]. intros s [<-|[<-|[]]] Q; rewrite Q, (proj2 (streqb_eq _ _) eq_refl) in *; discriminate.
        -- intros _. destruct (ra_field F RV r _ K4 eq_refl V "ra" (or_introl eq_refl) H1) as (q & f & D & _ & P & _). destruct (dec_field F RV r _ K4 eq_refl V "dec" (or_introl eq_refl) H2) as (q' & f' & N' & D' & _ & _ & P' & _).
           exists (rec_value r $"ra"), (rec_value r $"dec"). split; [apply some_text; exact (proj2 (decimal_strip _ q D))|]. split; [apply some_text; exact (proj2 (decimal_strip _ q' D'))|]. split; [now exists f|now exists f'].
    + assert (rec_value r $"ra" = []) as Z by (apply (not_field (xtag r)); [exact K4|reflexivity|rewrite X; vm_compute; reflexivity]).
      rewrite (none_text r "ra" Z). destruct (Hrs X) as (H1 & H2 & Of).
      destruct (ra_field F RV r _ K4 eq_refl V "raStar" (or_intror (or_introl eq_refl)) H1) as (q & f & D & _ & P & _). destruct (dec_field F RV r _ K4 eq_refl V "decStar" (or_intror (or_introl eq_refl)) H2) as (q' & f' & N' & D' & _ & _ & P' & _).
      rewrite (some_text r "raStar" (proj2 (decimal_strip _ q D))), (some_text r "decStar" (proj2 (decimal_strip _ q' D'))).
      assert (forall s t, rec_value r $"stn" = s -> streqb (rec_value r $"stn") t = false -> s <> t) as Ne by (intros s t <- Q <-; rewrite (proj2 (streqb_eq _ _) eq_refl) in Q; discriminate Q).
      destruct (streqb (rec_value r $"stn") $"275") eqn:E1; [|destruct (streqb (rec_value r $"stn") $"244") eqn:E2].
      * apply streqb_eq in E1. split; [intros _; right; left; now split|]. intros _. exists (rec_value r $"raStar"), (rec_value r $"decStar"). repeat (split; [reflexivity|]). split; [now exists f|now exists f'].
      * apply streqb_eq in E2. split.
        -- intros (x & x' & y & y' & Q1 & Q2 & Q3 & Q4 & R1 & R2). right. right. split; [exact X|]. split; [exact E2|]. rewrite Q2. split; [intro Q; discriminate Q|].
           unfold text_if in Q2, Q4. destruct (rec_value r $"deltaRA"); [discriminate Q2|]. destruct (rec_value r $"deltaDec"); [discriminate Q4|]. injection Q1 as <-. injection Q2 as <-. injection Q3 as <-. injection Q4 as <-. now split.
        -- intros [(Q & _)|[(_ & Q)|(_ & _ & Q & R1 & R2)]]; [rewrite X in Q; discriminate Q|elim (Ne _ _ Q E1 eq_refl)|].
           assert (rec_value r $"deltaRA" <> []) as Nd by (intro Y; apply Q; now apply none_text).
           assert (h $"deltaDec" = true) as Hd.
           { pose proof (value_occurs r _ Nd) as Od. unfold offset_value in Of. apply orb_prop in Of as [Of|Of].
             - apply andb_prop in Of as [Of _]. unfold every in Of. rewrite forallb_forall in Of. apply (Of "deltaDec"%string). right. now left.
             - exfalso. apply andb_prop in Of as [_ Of]. unfold none in Of. rewrite forallb_forall in Of. specialize (Of "deltaRA"%string (or_introl eq_refl)). unfold g in Of. unfold h in Of. rewrite Od in Of. discriminate Of. }
           destruct (decimal_field F RV r _ K4 eq_refl V "deltaDec" "DecimalTypeW10" [[($"xsd:pattern", $"[+\-]?[0123456789\.]{1,9}")]; [($"xsd:pattern", $"[+\-]?(0|([1-9][0-9]*))(\.[0-9]*)?")]] ltac:(vm_compute; reflexivity) ltac:(vm_compute; reflexivity) ltac:(apply neq_local; vm_compute; reflexivity) Hd) as [qd Dd].
           exists (rec_value r $"raStar"), (rec_value r $"deltaRA"), (rec_value r $"decStar"), (rec_value r $"deltaDec").
           split; [reflexivity|]. split; [now apply some_text|]. split; [reflexivity|]. split; [apply some_text; exact (proj2 (decimal_strip _ _ Dd))|]. now split.
      * split; [intros (? & ? & Q & _); discriminate Q|]. intros [(Q & _)|[(_ & Q)|(_ & Q & _)]]; [rewrite X in Q; discriminate Q|elim (Ne _ _ Q E1 eq_refl)|elim (Ne _ _ Q E2 eq_refl)].
  - apply Rs; cbn [In]; tauto.
  - apply Rs; cbn [In]; tauto.
  - apply Rs; cbn [In]; tauto.
  - apply Rs; cbn [In]; tauto.
  - apply Rs; cbn [In]; tauto.
  - apply Rs; cbn [In]; tauto.
  - apply Rs; cbn [In]; tauto.
  - rewrite dict. apply some_text, time_ne.
  - exact PT.
  - rewrite dict. now apply some_text.
  - rewrite dict. now apply some_text.
  - exact Sc.
  - unfold hasKeyOrVal. rewrite dict. unfold text_if. destruct (rec_value r $"notes"); intro Q; discriminate Q.
  - unfold hasKeyOrVal. rewrite dict. pose proof (mag_field F RV r _ K4 eq_refl V) as M. unfold text_if. destruct (rec_value r $"mag"); exact M.
  - intros x. rewrite !dict. intro Q. assert (rec_value r $"pos1" <> []) as N1. { unfold text_if in Q. destruct (rec_value r $"pos1"); [discriminate Q|intro Y; discriminate Y]. }
    assert (forall y, In y ["pos1"; "pos2"; "pos3"]%string -> rec_value r $y <> [] /\ (points (rec_value r $y) <= 1)%nat) as Py.
    { intros y I. apply (pos_field F RV r _ K4 eq_refl V y I). apply Hp; [exact N1|]. cbn [In] in *. tauto. }
    pose proof (sys_field F RV r _ K4 eq_refl V (Hp "sys"%string N1 ltac:(cbn [In]; tauto))) as Nsys.
    destruct (Py "pos1"%string ltac:(cbn [In]; tauto)) as [_ P1]. destruct (Py "pos2"%string ltac:(cbn [In]; tauto)) as [N2 P2]. destruct (Py "pos3"%string ltac:(cbn [In]; tauto)) as [N3 P3].
    exists (rec_value r $"pos2"), (rec_value r $"pos3"), (rec_value r $"sys"). split; [now apply some_text|]. split; [now apply some_text|]. split; [now apply some_text|].
    rewrite (some_text r "pos1" N1) in Q. injection Q as <-. intros v [<-|[<-|[<-|[]]]]; now split.
Qed.
End Record.
