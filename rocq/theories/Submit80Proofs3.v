(** Lemmas of C49, part 3: the fields of a valid submission. *)
From Verif Require Import SchemaSpec PyStrProofs RoundProofs2 SchemaProofs1 SchemaProofs2 SchemaProofs3 RecordProofs1 RecordProofs2 RecordProofs3 RecordProofs4 RecordProofs6 RecordProofs12 AdesMasterTables PropsSchema.
From Verif Require Import Schema XsdSpec SchemaSpec XsdPattern XsdFiles ValueSpec ValidSpec ValidSpec2 LexSpec LexProofs1 LexProofs2 LexProofs3 IdProofs5 ValueProofs1 ValueProofs2 ValueProofs3 ValueProofs4.
From Verif Require Import PyFloat SexVals XmlToMpc80 Print80Proofs1 PsvSpec2 LayoutSpec Submit80Spec Submit80Proofs1 Submit80Proofs2.
Local Open Scope nat_scope.

Lemma decimal_points s q : decimal_value s q -> points s <= 1.
Proof.
  intro D. apply decimal_numeral in D as (sg & w & a & b & -> & I & N & _).
  assert (forall x y, points (x ++ y) = points x + points y) as PA by (intros; unfold points; now rewrite filter_app, app_length).
  assert (forall x, forallb isdig x = true -> points x = 0) as PD.
  { intros x H. unfold points. induction x as [|c x IH]; [reflexivity|]. cbn [forallb filter] in *. apply andb_prop in H as [H1 H2]. replace (ceqb c ".") with false; [now apply IH|]. symmetry. revert c H1. apply implf_ascii. vm_compute. reflexivity. }
  rewrite PA. replace (points sg) with 0 by (destruct I as [<-|[<-|[<-|[]]]]; reflexivity). destruct N as [a D N|a b Da Db N]; [rewrite (PD a D); lia|].
  rewrite PA, (PD a Da). change (point :: b) with ([point] ++ b). rewrite PA, (PD b Db). replace (points [point]) with 1 by reflexivity. lia.
Qed.
Lemma alnum_strip s : s <> [] -> forallb alnum_ s = true -> strip s = s.
Proof. intros N H. apply strip_no_space; [exact N|]. revert H. apply forallb_imp, imp_ascii. vm_compute. reflexivity. Qed.
Lemma catchar_strip s : s <> [] -> forallb (fun c => alnum_ c || ceqb c ".") s = true -> strip s = s.
Proof. intros N H. apply strip_no_space; [exact N|]. revert H. apply forallb_imp, imp_ascii. vm_compute. reflexivity. Qed.

Lemma neq_local x : streqb x $"localUse" = false -> x <> $"localUse".
Proof. intros E ->. rewrite (proj2 (streqb_eq _ _) eq_refl) in E. discriminate E. Qed.
Section Record.
Variable F : derivation -> str -> Prop.
Variable RV : reads_values F.
Let RT : reads_texts F := proj1 RV.
Let RD : reads_decimals F := proj1 (proj2 RV).
Let G := general_xsd.
Variable r : xml.
Variable k : str.
Hypothesis K : In k kinds4.
Hypothesis T : xtag r = k.
Hypothesis V : valid F submit_xsd r.
Let h := occurs_in (xkids r).
Lemma r_general : valid F general_xsd r. Proof. exact (C35_submit_general_files F r V). Qed.
Lemma r_facts : in_order (map xtag (xkids r)) (fields k) /\ NoDup (map xtag (xkids r)) /\ complete k h = true /\ (forall c, In c (xkids r) -> valid F general_xsd c) /\
  forall x, In x (map lit reserved) -> h x = false.
Proof.
  destruct (proj1 (general_any F k r T (kinds4_6 k K)) r_general) as (_ & O & C & Kd). destruct (proj1 (submit_any F k r T K) V) as (_ & _ & Rs & _).
  split; [exact O|]. split; [exact (in_order_nodup _ _ O (fields_nodup k (kinds4_6 k K)))|]. split; [exact C|]. split; [exact Kd|exact Rs].
Qed.
Lemma occurs_child x : h x = true <-> exists c, In c (xkids r) /\ xtag c = x.
Proof.
  unfold h, occurs_in. rewrite existsb_exists. split; intros (c & I & E); exists c; (split; [exact I|]); now apply streqb_eq.
Qed.
Lemma child_value c : In c (xkids r) -> xtag c <> $"localUse" -> simple F general_xsd (type_name general_xsd (xtag c)) (xtext c).
Proof.
  intros I N. destruct r_facts as (O & _ & _ & Kd & _). specialize (Kd c I).
  assert (In (xtag c) (fields k)) as If by (apply (in_order_incl _ _ O); now apply in_map).
  assert (In (xtag c) all_fields) as Al. { apply in_flat_map. exists k. split; [exact K|]. apply filter_In. split; [exact If|]. destruct (streqb (xtag c) $"localUse") eqn:Q; [apply streqb_eq in Q; contradiction|reflexivity]. }
  assert (declared general_xsd (xtag c) = true) as D. { destruct Kd as (d & E & _). unfold declared. now rewrite E. }
  apply (valid_declared F general_xsd c D) in Kd.
  pose proof (checked_simple general_xsd (or_introl eq_refl)) as C. rewrite forallb_forall in C. specialize (C _ Al).
  apply (value_type F general_xsd (type_name general_xsd (xtag c)) c C) in Kd. exact (proj2 (proj2 Kd)).
Qed.
(** what occurs has a value of its type *)
Lemma field_value x t : h x = true -> x <> $"localUse" -> type_name general_xsd x = $t -> exists s, simple F general_xsd $t s /\ rec_value r x = strip s.
Proof.
  intros H N E. apply occurs_child in H as (c & I & <-). exists (xtext c). split; [rewrite <- E; now apply child_value|]. apply rec_value_child; [exact (proj1 (proj2 r_facts))|exact I].
Qed.
Lemma value_occurs x : rec_value r x <> [] -> h x = true.
Proof. intro N. destruct (rec_value_some r x N) as (c & I & E & _). apply occurs_child. now exists c. Qed.
Lemma reserved_none x : In x (map lit reserved) -> rec_value r x = [].
Proof.
  intro I. destruct (rec_value r x) eqn:E; [reflexivity|]. assert (h x = true) as H by (apply value_occurs; rewrite E; intro X; discriminate X).
  rewrite (proj2 (proj2 (proj2 (proj2 r_facts))) x I) in H. discriminate H.
Qed.
Ltac nolocal := apply neq_local; vm_compute; reflexivity.
Lemma decimal_field x t l : type_name general_xsd $x = $t -> chain_of general_xsd $"xsd:decimal" 6 $t = Some l -> $x <> $"localUse" -> h $x = true ->
  exists q, decimal_value (rec_value r $x) q.
Proof.
  intros E Ch N H. destruct (field_value $x t H N E) as (s & S & ->). destruct (number_steps F RD t l s Ch S) as (q & D & _). now exists q.
Qed.
Lemma pos_field x : In x ["pos1"; "pos2"; "pos3"]%string -> h $x = true -> rec_value r $x <> [] /\ points (rec_value r $x) <= 1.
Proof.
  intros I H. assert (exists q, decimal_value (rec_value r $x) q) as [q D].
  { destruct I as [<-|[<-|[<-|[]]]];
    (eapply (decimal_field _ "DecimalTypeW14" [[($"xsd:pattern", $"[+\-]?[0123456789\.]{1,13}")]; [($"xsd:pattern", $"[+\-]?(0|([1-9][0-9]*))(\.[0-9]*)?")]]); [vm_compute; reflexivity|vm_compute; reflexivity|nolocal|exact H]). }
  split; [exact (proj2 (decimal_strip _ q D))|exact (decimal_points _ q D)].
Qed.
Lemma mag_field : points (rec_value r $"mag") <= 1.
Proof.
  destruct (rec_value r $"mag") as [|c s] eqn:E; [vm_compute; lia|]. rewrite <- E.
  destruct (decimal_field "mag" "MagType" [[($"xsd:minInclusive", $"-5.0"); ($"xsd:maxInclusive", $"35.0")]; [($"xsd:pattern", $"[+\-]?[0123456789\.]{1,7}")]; [($"xsd:pattern", $"[+\-]?(0|([1-9][0-9]*))(\.[0-9]*)?")]] ltac:(vm_compute; reflexivity) ltac:(vm_compute; reflexivity) ltac:(nolocal)) as [q D].
  - apply value_occurs. rewrite E. intro X. discriminate X.
  - exact (decimal_points _ q D).
Qed.
Lemma stn_field : h $"stn" = true -> 3 <= length (rec_value r $"stn") <= 4.
Proof.
  intro H. destruct (field_value $"stn" "StationType" H ltac:(nolocal) ltac:(vm_compute; reflexivity)) as (s & S & ->). apply (stn_type F RT) in S as (L & A).
  rewrite (alnum_strip s); [exact L| |exact A]. intros ->. cbn [length] in L. lia.
Qed.
Lemma mode_field : h $"mode" = true -> rec_value r $"mode" <> [].
Proof.
  intro H. destruct (field_value $"mode" "ModeType" H ltac:(nolocal) ltac:(vm_compute; reflexivity)) as (s & S & ->). apply (mode_type F RT) in S as (N & _ & A). now rewrite (alnum_strip s).
Qed.
Lemma sys_field : h $"sys" = true -> rec_value r $"sys" <> [].
Proof.
  intro H. destruct (field_value $"sys" "SysType" H ltac:(nolocal) ltac:(vm_compute; reflexivity)) as (s & S & ->).
  apply (enum_type F RT "SysType" [$"WGS84"; $"ITRF"; $"IAU"; $"ICRF_AU"; $"ICRF_KM"]) in S; [|vm_compute; reflexivity|intro X; discriminate X].
  destruct S as [<-|[<-|[<-|[<-|[<-|[]]]]]]; intro X; vm_compute in X; discriminate X.
Qed.
Lemma cat_field : h $"astCat" = true -> rec_value r $"astCat" <> [] /\ strip (rec_value r $"astCat") = rec_value r $"astCat".
Proof.
  intro H. destruct (field_value $"astCat" "CatType" H ltac:(nolocal) ltac:(vm_compute; reflexivity)) as (s & S & ->). apply (cat_type F RT) in S as ((A & _) & Tx).
  assert (s <> []) as N. { intros ->. destruct Tx as [_ X]. discriminate X. }
  rewrite (catchar_strip s N A). split; [exact N|now apply catchar_strip].
Qed.
Lemma ra_field x : In x ["ra"; "raStar"]%string -> h $x = true -> exists q f, decimal_value (rec_value r $x) q /\ (0 <= q < 360)%Q /\
  pyfloat (rec_value r $x) = Ok f /\ fneg f = false /\ (Qabs (fval f - q) <= 1 # 1000000000000)%Q.
Proof.
  intros I H. assert (exists s, simple F general_xsd $"RAType" s /\ rec_value r $x = strip s) as (s & S & ->).
  { destruct I as [<-|[<-|[]]]; apply field_value; [exact H|nolocal|vm_compute; reflexivity|exact H|nolocal|vm_compute; reflexivity]. }
  exact (ra_value F RD s S).
Qed.
Lemma dec_field x : In x ["dec"; "decStar"]%string -> h $x = true -> exists q f N, decimal_value (rec_value r $x) q /\ (-90 <= q <= 90)%Q /\ (q == inject_Z N / inject_Z (10 ^ 9))%Q /\
  pyfloat (rec_value r $x) = Ok f /\ (Qabs (fmag f - Qabs q) <= 1 # 1000000000000)%Q /\
  ((0 < Qabs q)%Q -> (0 < fmag f)%Q /\ (fneg f = true <-> (q < 0)%Q)) /\ ((q == 0)%Q -> (fmag f == 0)%Q).
Proof.
  intros I H. assert (exists s, simple F general_xsd $"DeclinationType" s /\ rec_value r $x = strip s) as (s & S & ->).
  { destruct I as [<-|[<-|[]]]; apply field_value; [exact H|nolocal|vm_compute; reflexivity|exact H|nolocal|vm_compute; reflexivity]. }
  exact (dec_value F RD s S).
Qed.
Lemma some_text x : rec_value r $x <> [] -> text_if r x = Some (rec_value r $x).
Proof. unfold text_if. destruct (rec_value r $x); [congruence|reflexivity]. Qed.
Lemma none_text x : rec_value r $x = [] -> text_if r x = None.
Proof. unfold text_if. now intros ->. Qed.
(** the fields that come together *)
Lemma pos_group : location h = true -> h $"pos1" = true -> forall x, In x ["sys"; "ctr"; "pos1"; "pos2"; "pos3"]%string -> h $x = true.
Proof.
  unfold location, group. intros L P x I. apply orb_prop in L as [L|L].
  - exfalso. unfold none in L. rewrite forallb_forall in L. specialize (L "pos1"%string ltac:(apply in_or_app; left; right; right; now left)). unfold g in L. rewrite P in L. discriminate L.
  - unfold every in L. rewrite forallb_forall in L. exact (L x I).
Qed.
End Record.
