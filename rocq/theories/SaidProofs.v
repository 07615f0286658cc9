(** Lemmas of C48_said: leaving out what PSV does not say. *)
From Verif Require Import SchemaSpec PyStrProofs XmlProofs SchemaProofs1 SchemaProofs2 SchemaProofs3 RecordProofs1 RecordProofs2 RecordProofs3 RecordProofs4 RecordProofs6 RecordProofs12 AdesMasterTables PropsRecord PropsRecord2.
From Verif Require Import PsvToXml XmlToPsv PsvSpec2 Schema XsdSpec SchemaSpec XsdPattern XsdFiles ValueSpec RecordSpec ValidSpec ValidSpec2 LexSpec SaidSpec LexProofs3 LexProofs4.
Local Open Scope nat_scope.

(** * What is written *)
Definition drop (r : xml) : xml := Elem (xtag r) (xattrs r) (xtext r) (filter (fun k => negb (unsaid k)) (xkids r)).
Lemma unsaid_text k : unsaid k = true -> snd (getElementTagText k) = [].
Proof.
  intro U. apply andb_prop in U as [_ U]. apply streqb_eq in U. unfold getElementTagText, regularizeWhiteSpace. cbn [snd]. exact U.
Qed.
Lemma subDict_drop r : subDict_of (drop r) = subDict_of r.
Proof.
  unfold subDict_of, drop. cbn [xkids]. generalize (@nil (str * str)). induction (xkids r) as [|k ks IH]; intro d; [reflexivity|].
  cbn [filter fold_left]. destruct (unsaid k) eqn:U; cbn [negb fold_left].
  - rewrite IH. apply unsaid_text in U. destruct (getElementTagText k) as [t x]. cbn [snd] in U. now rewrite U.
  - apply IH.
Qed.
Lemma process_drop T first r g : processDataElement T first (drop r) g = processDataElement T first r g.
Proof. unfold processDataElement. rewrite subDict_drop. reflexivity. Qed.
Lemma block_data_drop T es : forall first ty g, block_data T (map drop es) first ty g = block_data T es first ty g.
Proof.
  induction es as [|e es IH]; intros first ty g; [reflexivity|]. cbn [map block_data]. change (xtag (drop e)) with (xtag e). rewrite process_drop.
  destruct (if first then _ else _) as [ty'|]; cbn [rbind]; [|reflexivity]. destruct (processDataElement T first e g) as [g'|]; cbn [rbind]; [apply IH|reflexivity].
Qed.
(** children that are written the same *)
Definition alike T (c c' : xml) : Prop := xtag c' = xtag c /\
  (if streqb (xtag c) $"obsBlock" then forall g, processObsBlock T c' g = processObsBlock T c g
   else forall first g, processDataElement T first c' g = processDataElement T first c g).
Lemma ades_kids_alike T es es' : Forall2 (alike T) es es' -> forall last g out, ades_kids T es' last g out = ades_kids T es last g out.
Proof.
  induction 1 as [|c c' es es' [Tg A] H IH]; intros last g out; [reflexivity|]. cbn [ades_kids]. rewrite Tg. destruct (dget $"ades" (allowed T)) as [ok|]; [|reflexivity].
  destruct (negb (smem (xtag c) ok)); [reflexivity|]. destruct (streqb (xtag c) $"obsBlock").
  - destruct (printDataDicts g) as [ls|]; cbn [rbind]; [|reflexivity]. rewrite A. destruct (processObsBlock T c g) as [[g' ls']|]; cbn [rbind]; [apply IH|reflexivity].
  - destruct (if _ : bool then Ok [] else printDataDicts g) as [ls|]; cbn [rbind]; [|reflexivity]. rewrite A.
    destruct (processDataElement T _ c g) as [g'|]; cbn [rbind]; [apply IH|reflexivity].
Qed.
Lemma lines_alike T t t' : xtag t' = xtag t -> xattrs t' = xattrs t -> Forall2 (alike T) (xkids t) (xkids t') -> xmltopsv T t' = xmltopsv T t.
Proof.
  intros Tg A K. unfold xmltopsv, xmltopsv_lines. rewrite Tg, A. destruct (negb _); [reflexivity|]. destruct (dget $"version" (xattrs t)) as [v|]; [|reflexivity].
  now rewrite (ades_kids_alike T _ _ K).
Qed.

(** * Completeness *)
Section Mono.
Variables f f' : str -> bool.
Variable E : forall x : string, smem $x (map lit dispensable) = false -> f' $x = f $x.
Variable M : forall x, f' x = true -> f x = true.
Lemma none_mono l : none f l = true -> none f' l = true.
Proof.
  unfold none, g. rewrite !forallb_forall. intros H x I. specialize (H x I). cbv beta in H. destruct (f' $x) eqn:Q; [|reflexivity]. apply M in Q. rewrite Q in H. discriminate H.
Qed.
Lemma every_same l : forallb (fun x => negb (smem $x (map lit dispensable))) l = true -> every f' l = every f l.
Proof.
  induction l as [|x l IH]; intro H; [reflexivity|]. cbn [forallb] in H. apply andb_prop in H as [H1 H2]. unfold every in *. cbn [forallb]. rewrite IH by exact H2. f_equal.
  apply E. now apply negb_true_iff in H1.
Qed.
Lemma none_same l : forallb (fun x => negb (smem $x (map lit dispensable))) l = true -> none f' l = none f l.
Proof.
  induction l as [|x l IH]; intro H; [reflexivity|]. cbn [forallb] in H. apply andb_prop in H as [H1 H2]. unfold none in *. cbn [forallb]. rewrite IH by exact H2. f_equal. f_equal.
  apply E. now apply negb_true_iff in H1.
Qed.
Lemma some_same l : forallb (fun x => negb (smem $x (map lit dispensable))) l = true -> some f' l = some f l.
Proof.
  induction l as [|x l IH]; intro H; [reflexivity|]. cbn [forallb] in H. apply andb_prop in H as [H1 H2]. unfold some in *. cbn [existsb]. rewrite IH by exact H2. f_equal.
  apply E. now apply negb_true_iff in H1.
Qed.
Lemma g_same (x : string) : smem $x (map lit dispensable) = false -> RecordSpec.g f' x = RecordSpec.g f x.
Proof. exact (E x). Qed.
Ltac same := rewrite ?every_same by (vm_compute; reflexivity); rewrite ?none_same by (vm_compute; reflexivity); rewrite ?some_same by (vm_compute; reflexivity); rewrite ?g_same by (vm_compute; reflexivity).
Lemma known_same : known_object f' = known_object f. Proof. unfold known_object. same. reflexivity. Qed.
Lemma object_same : object f' = object f. Proof. unfold object. rewrite known_same. same. reflexivity. Qed.
Lemma location_same : location f' = location f. Proof. unfold location, group. same. reflexivity. Qed.
Lemma photometry_same : photometry f' = photometry f. Proof. unfold photometry, group. same. reflexivity. Qed.
Lemma precision_same : precision f' = precision f. Proof. unfold precision, group. same. reflexivity. Qed.
Lemma offset_same : offset_value f' = offset_value f. Proof. unfold offset_value. same. reflexivity. Qed.
Lemma radar_same : radar_value f' = radar_value f. Proof. unfold radar_value. same. reflexivity. Qed.
Lemma radar_residual_same : radar_residual f' = radar_residual f. Proof. unfold radar_residual. same. reflexivity. Qed.
Lemma residual_mono : residual f = true -> residual f' = true.
Proof.
  unfold residual. rewrite !every_same by (vm_compute; reflexivity). rewrite (none_same (position_residual ++ position_extra)) by (vm_compute; reflexivity).
  intro H. apply andb_prop in H as [H1 H2]. rewrite H1. cbn [andb]. apply orb_prop in H2 as [H2|H2]; [|rewrite H2; apply orb_true_r].
  apply andb_prop in H2 as [H2 H3]. rewrite H2. cbn [andb]. unfold group in *. apply orb_true_iff. left. rewrite every_same by (vm_compute; reflexivity).
  apply orb_prop in H3 as [H3|H3]; [rewrite (none_mono _ H3); reflexivity|rewrite H3; apply orb_true_r].
Qed.
Lemma or_mono l : none f l || residual f = true -> none f' l || residual f' = true.
Proof. intro H. apply orb_prop in H as [H|H]; [rewrite (none_mono _ H); reflexivity|rewrite (residual_mono H); apply orb_true_r]. Qed.
Lemma complete_mono kind : complete kind f = true -> complete kind f' = true.
Proof.
  unfold complete. destruct (streqb kind $"optical"); [|destruct (streqb kind $"offset"); [|destruct (streqb kind $"occultation"); [|destruct (streqb kind $"radar"); [|
    destruct (streqb kind $"opticalResidual"); [|destruct (streqb kind $"radarResidual"); [|exact (fun H => H)]]]]]].
  - unfold complete_optical. rewrite object_same, location_same, photometry_same, precision_same. rewrite every_same by (vm_compute; reflexivity). intro H. apply andb_prop in H as [H1 H2]. rewrite H1. exact (or_mono _ H2).
  - unfold complete_offset. rewrite object_same, location_same, photometry_same, precision_same, offset_same. rewrite every_same by (vm_compute; reflexivity). intro H. apply andb_prop in H as [H1 H2]. rewrite H1. exact (or_mono _ H2).
  - unfold complete_occultation. rewrite object_same, location_same, photometry_same, precision_same, offset_same. rewrite every_same by (vm_compute; reflexivity). intro H. apply andb_prop in H as [H1 H2]. rewrite H1. exact (or_mono _ H2).
  - unfold complete_radar. rewrite known_same, radar_same, radar_residual_same. rewrite every_same by (vm_compute; reflexivity). intro H. apply andb_prop in H as [H1 H2]. rewrite H1. cbn [andb].
    apply orb_prop in H2 as [H2|H2]; [rewrite (none_mono _ H2); reflexivity|rewrite H2; apply orb_true_r].
  - unfold complete_opticalResidual. rewrite object_same. rewrite every_same by (vm_compute; reflexivity). intro H. apply andb_prop in H as [H1 H2]. rewrite H1. exact (residual_mono H2).
  - unfold complete_radarResidual. rewrite known_same, radar_residual_same. rewrite every_same by (vm_compute; reflexivity). exact (fun H => H).
Qed.
End Mono.
(** * Validity *)
Lemma in_order_filter {X} (h : xml -> bool) (f : xml -> X) ks l : in_order (map f ks) l -> in_order (map f (filter h ks)) l.
Proof.
  intro O. remember (map f ks) as a eqn:A. revert ks A. induction O as [l|x a l O IH|x a l O IH]; intros ks A.
  - destruct ks; [constructor|discriminate A].
  - destruct ks as [|k ks]; [discriminate A|]. cbn [map] in A. injection A as -> ->. cbn [filter]. destruct (h k); [apply io_take|apply io_skip]; now apply IH.
  - apply io_skip. now apply IH.
Qed.
Lemma nodup_filter {X} (h : xml -> bool) (f : xml -> X) ks : NoDup (map f ks) -> NoDup (map f (filter h ks)).
Proof.
  induction ks as [|k ks IH]; intro N; [constructor|]. cbn [map] in N. inversion_clear N as [|? ? N1 N2]. cbn [filter]. destruct (h k); [|now apply IH].
  cbn [map]. constructor; [|now apply IH]. intro I. apply N1. apply in_map_iff in I as (c & E & I). apply filter_In in I as [I _]. rewrite <- E. now apply in_map.
Qed.
Lemma kinds6_names k : In k kinds6 <-> In k (map lit (record_names ++ residual_names)). Proof. reflexivity. Qed.
Lemma said_record r : In (xtag r) kinds6 -> said r = drop r.
Proof. intro I. apply smem_iff in I. change (smem (xtag r) (map lit (record_names ++ residual_names)) = true) in I. destruct r as [n a s ks]. cbn [xtag] in I. cbn [said]. rewrite I. reflexivity. Qed.
Lemma said_other t : smem (xtag t) (map lit (record_names ++ residual_names)) = false -> said t = Elem (xtag t) (xattrs t) (xtext t) (map said (xkids t)).
Proof. intro I. destruct t as [n a s ks]. cbn [xtag] in I. cbn [said]. rewrite I. reflexivity. Qed.
Lemma said_tag t : xtag (said t) = xtag t. Proof. destruct t as [n a s ks]. cbn [said]. destruct (smem n _); reflexivity. Qed.
Lemma drop_valid F r : In (xtag r) kinds6 -> valid F general_xsd r -> valid F general_xsd (drop r).
Proof.
  intros K V. apply (general_any F (xtag r) r eq_refl K) in V as (B & O & C & Kd).
  apply (general_any F (xtag r) (drop r) eq_refl K). unfold drop. cbn [xkids]. split; [exact B|]. split; [now apply in_order_filter|]. split.
  - refine (complete_mono (occurs_in (xkids r)) _ _ _ (xtag r) C).
    + intros x N. unfold occurs_in. clear -N. induction (xkids r) as [|k ks IH]; [reflexivity|]. cbn [filter existsb]. destruct (unsaid k) eqn:U; cbn [negb existsb]; [|now rewrite IH].
      rewrite ?IH. destruct (streqb (xtag k) $x) eqn:Q; [|reflexivity]. apply streqb_eq in Q. unfold unsaid in U. rewrite Q, N in U. discriminate U.
    + intros x H. unfold occurs_in in *. apply existsb_exists in H as (k & I & Q). apply filter_In in I as [I _]. apply existsb_exists. exists k. now split.
  - intros k I. apply filter_In in I as [I _]. now apply Kd.
Qed.
Lemma unmentioned : forallb (fun x => negb (smem x (map lit (record_names ++ residual_names)))) (map lit (["ades"; "obsBlock"; "obsContext"; "obsData"; "name"; "line"]%string ++ context_parts ++
  map (fun p => fst (fst p)) (observatory_parts ++ submitter_parts ++ telescope_parts ++ software_parts))) = true.
Proof. vm_compute. reflexivity. Qed.
Definition calm_names : list str := map lit (["ades"; "obsBlock"; "obsContext"; "obsData"; "name"; "line"]%string ++ context_parts ++
  map (fun p => fst (fst p)) (observatory_parts ++ submitter_parts ++ telescope_parts ++ software_parts)).
Lemma not_record x : In x calm_names -> smem x (map lit (record_names ++ residual_names)) = false.
Proof. intro I. pose proof unmentioned as H. rewrite forallb_forall in H. specialize (H x I). now apply negb_true_iff in H. Qed.
Lemma map_same {X} (f : X -> X) l : (forall x, In x l -> f x = x) -> map f l = l.
Proof. intro H. rewrite <- (map_id l) at 2. now apply map_ext_in. Qed.
Lemma leaf_said k : In (xtag k) calm_names -> xkids k = [] -> said k = k.
Proof. intros T K. rewrite said_other by now apply not_record. rewrite K. destruct k as [n a s ks]. cbn [xkids] in K. subst ks. reflexivity. Qed.
Lemma part_name n t b ps : In (n, t, b) ps -> In n (map (fun p : string * string * bool => fst (fst p)) ps).
Proof. intro I. apply (in_map (fun p : string * string * bool => fst (fst p))) in I. exact I. Qed.
Lemma composed_same F S ps i : incl ps (observatory_parts ++ submitter_parts ++ telescope_parts ++ software_parts) -> In (xtag i) calm_names -> composed F S ps i -> said i = i.
Proof.
  intros Ps T (_ & _ & H & _). rewrite said_other by now apply not_record. rewrite map_same; [now destruct i|].
  intros k I. destruct (H k I) as (n & t & b & P & Q & _ & K & _). apply leaf_said; [|exact K]. rewrite Q. unfold calm_names. apply in_map. apply in_or_app. right. apply in_or_app. right.
  apply (part_name n t b). now apply Ps.
Qed.
Lemma listed_same F S n t i : In $n calm_names -> In (xtag i) calm_names -> listed F S n t i -> said i = i.
Proof.
  intros Nm T (_ & _ & H). rewrite said_other by now apply not_record. rewrite map_same; [now destruct i|].
  intros k I. destruct (H k I) as (Q & _ & K & _). apply leaf_said; [|exact K]. now rewrite Q.
Qed.
Lemma calm_name n : smem n calm_names = true -> In n calm_names. Proof. apply smem_iff. Qed.
Lemma context_calm x : In x (map lit context_parts) -> In x calm_names.
Proof. intro I. unfold calm_names. rewrite map_app. apply in_or_app. right. rewrite map_app. apply in_or_app. now left. Qed.
Lemma header_same F S e : In S both -> In (xtag e) (map lit context_parts) -> valid F S e -> said e = e.
Proof.
  intros HS I V. pose proof (context_calm _ I) as Cm. destruct (C41_header_parts F S e HS) as (H1 & H2 & H3 & H4 & H5 & H6 & H7).
  assert (forall k, smem k calm_names = true -> In k calm_names) as L by (intros k; apply smem_iff).
  destruct I as [I|[I|[I|[I|[I|[I|[I|[I|[I|[I|[]]]]]]]]]]]; symmetry in I.
  - apply (composed_same F S observatory_parts); [|exact Cm|now apply H1]. intros p Ip. apply in_or_app. now left.
  - apply (composed_same F S submitter_parts); [|exact Cm|now apply H2]. intros p Ip. apply in_or_app. right. apply in_or_app. now left.
  - apply (listed_same F S "name" "StringTypeW100"); [apply L; vm_compute; reflexivity|exact Cm|]. apply H5; [left; now symmetry|exact V].
  - apply (listed_same F S "name" "StringTypeW100"); [apply L; vm_compute; reflexivity|exact Cm|]. apply H5; [right; left; now symmetry|exact V].
  - apply (composed_same F S telescope_parts); [|exact Cm|now apply H3]. intros p Ip. apply in_or_app. right. apply in_or_app. right. apply in_or_app. now left.
  - apply (composed_same F S software_parts); [|exact Cm|now apply H4]. intros p Ip. apply in_or_app. right. apply in_or_app. right. apply in_or_app. now right.
  - apply (listed_same F S "name" "StringTypeW100"); [apply L; vm_compute; reflexivity|exact Cm|]. apply H5; [right; right; left; now symmetry|exact V].
  - apply (listed_same F S "name" "StringTypeW100"); [apply L; vm_compute; reflexivity|exact Cm|]. apply H5; [right; right; right; left; now symmetry|exact V].
  - apply H7 in V; [|exact I]. destruct V as (A & K & _). now apply leaf_said.
  - apply (listed_same F S "line" "StringTypeW100"); [apply L; vm_compute; reflexivity|exact Cm|]. now apply H6.
Qed.
Lemma said_child F T c : In (xtag c) (map lit (record_names ++ residual_names ++ ["obsBlock"%string])) -> valid F general_xsd c ->
  valid F general_xsd (said c) /\ alike T c (said c).
Proof.
  intros I V. rewrite app_assoc, map_app in I. apply in_app_or in I as [I|[I|[]]].
  - assert (In (xtag c) kinds6) as K by exact I. rewrite (said_record c K). split; [now apply drop_valid|]. split; [reflexivity|].
    assert (streqb (xtag c) $"obsBlock" = false) as ->. { destruct (streqb (xtag c) $"obsBlock") eqn:Q; [|reflexivity]. apply streqb_eq in Q. rewrite Q in I. apply smem_iff in I. vm_compute in I. discriminate I. }
    intros first g. apply process_drop.
  - symmetry in I. assert (In (xtag c) calm_names) as Cc by (rewrite I; apply calm_name; vm_compute; reflexivity).
    apply (C41_block F general_xsd c (or_introl eq_refl) I) in V as (B & ctx & data & E & Tc & Vc & Td & Vd).
    assert (In (xtag ctx) calm_names) as Cx by (rewrite Tc; apply calm_name; vm_compute; reflexivity).
    assert (In (xtag data) calm_names) as Cd by (rewrite Td; apply calm_name; vm_compute; reflexivity).
    assert (said ctx = ctx) as Sx.
    { rewrite said_other by now apply not_record. rewrite map_same; [now destruct ctx|]. apply (C41_context F general_xsd ctx (or_introl eq_refl) Tc) in Vc as (_ & _ & Kc & _).
      intros i Ii. destruct (Kc i Ii) as [Ti Vi]. exact (header_same F general_xsd i (or_introl eq_refl) Ti Vi). }
    apply (C41_data F general_xsd data (or_introl eq_refl) Td) in Vd as (Bd & Nd & kind & Ik & Kd).
    assert (forall r, In r (xkids data) -> In (xtag r) kinds6) as K6.
    { intros r Ir. destruct (Kd r Ir) as [-> _]. now apply kinds4_6. }
    assert (map said (xkids data) = map drop (xkids data)) as Ed by (apply map_ext_in; intros r Ir; apply said_record; now apply K6).
    assert (said data = Elem (xtag data) (xattrs data) (xtext data) (map drop (xkids data))) as Sd by (rewrite said_other by (now apply not_record); now rewrite Ed).
    rewrite (said_other c) by now apply not_record. rewrite E. cbn [map]. rewrite Sx, Sd. split.
    + apply (C41_block F general_xsd _ (or_introl eq_refl)); [exact I|]. split; [exact B|]. exists ctx, (Elem (xtag data) (xattrs data) (xtext data) (map drop (xkids data))).
      split; [reflexivity|]. split; [exact Tc|]. split; [exact Vc|]. split; [exact Td|].
      apply (C41_data F general_xsd _ (or_introl eq_refl)); [exact Td|]. split; [exact Bd|]. cbn [xkids]. split; [intro Q; apply map_eq_nil in Q; contradiction|].
      exists kind. split; [exact Ik|]. intros k Hk. apply in_map_iff in Hk as (r & <- & Ir). destruct (Kd r Ir) as [Tr Vr]. split; [exact Tr|]. apply drop_valid; [now apply K6|exact Vr].
    + split; [reflexivity|]. rewrite I. change (streqb $"obsBlock" $"obsBlock") with true. cbv iota. intro g0. unfold processObsBlock. rewrite E. cbn [xkids block_kids xtag].
      destruct (dget $"obsBlock" (allowed T)) as [ok|]; [|reflexivity]. rewrite Tc, Td.
      destruct (negb (smem $"obsContext" ok)); [reflexivity|]. change (streqb $"obsContext" $"obsContext") with true. cbv iota.
      destruct (negb (smem $"obsData" ok)); [reflexivity|]. change (streqb $"obsData" $"obsContext") with false. change (streqb $"obsData" $"obsData") with true. cbv iota.
      now rewrite block_data_drop.
Qed.
Lemma said_document F T t : xtag t = $"ades" -> valid F general_xsd t -> valid F general_xsd (said t) /\ xmltopsv T (said t) = xmltopsv T t.
Proof.
  intros Tg V. assert (In (xtag t) calm_names) as Ca by (rewrite Tg; apply calm_name; vm_compute; reflexivity).
  rewrite said_other by now apply not_record. apply (C41_ades_general F t Tg) in V as (B & A1 & A2 & K). split.
  - apply (C41_ades_general F _); [exact Tg|]. cbn [xtext xattrs xkids]. split; [exact B|]. split; [exact A1|]. split; [exact A2|].
    intros k I. apply in_map_iff in I as (c & <- & I). destruct (K c I) as [Tc Vc]. rewrite said_tag. split; [exact Tc|]. now apply (said_child F T c).
  - apply lines_alike; [reflexivity|reflexivity|]. cbn [xkids]. revert K. induction (xkids t) as [|c ks IH]; intro K; [constructor|].
    cbn [map]. constructor; [|apply IH; intros k I; apply K; now right]. destruct (K c (or_introl eq_refl)) as [Tc Vc]. now apply (said_child F T c).
Qed.
Lemma kids_named n a s ks : (forall k, In k ks -> well_named k) -> forall ks0, well_named (Elem n a s ks0) -> well_named (Elem n a s ks).
Proof.
  intros H ks0 (A & B & C & _). cbn [well_named]. split; [exact A|]. split; [exact B|]. split; [exact C|].
  induction ks as [|k ks IH]; [exact I|]. split; [apply H; now left|]. apply IH. intros c J. apply H. now right.
Qed.
Lemma said_named t : well_named t -> well_named (said t).
Proof.
  induction t as [n a s ks IH] using XmlProofs.xml_ind'. intro W. rewrite Forall_forall in IH. cbn [said].
  pose proof (fun k => well_named_kid _ k W) as K. cbn [xkids] in K. destruct (smem n _).
  - refine (kids_named n a s _ _ ks W). intros k I. apply filter_In in I as [I _]. now apply K.
  - refine (kids_named n a s _ _ ks W). intros k I. apply in_map_iff in I as (c & <- & I). apply IH; [exact I|now apply K].
Qed.
Lemma said_attrs t : xattrs (said t) = xattrs t. Proof. destruct t as [n a s ks]. cbn [said]. destruct (smem n _); reflexivity. Qed.
(** the element for local use has no text *)
Lemma local_complex : component general_xsd $"xsd:complexType" (type_of_tag general_xsd $"localUse") <> None /\ component general_xsd $"xsd:simpleType" (type_of_tag general_xsd $"localUse") = None /\ builtin (type_of_tag general_xsd $"localUse") = false.
Proof. split; [vm_compute; intro Q; discriminate Q|]. split; vm_compute; reflexivity. Qed.
Lemma local_unsaid F k : valid F general_xsd k -> xtag k = $"localUse" -> unsaid k = true.
Proof.
  intros V T. assert (declared general_xsd (xtag k) = true) as D by (rewrite T; vm_compute; reflexivity).
  apply (valid_declared F general_xsd k D) in V. rewrite T in V. destruct local_complex as (_ & C2 & C3).
  assert (blank_text (xtext k) = true) as B.
  { apply valid_type_inv in V as [(Hs & _)|(ct & _ & B & _)]; [|exact B]. exfalso. inversion Hs as [t d s Hd _ E1 E2|t st u m s Cm _ _ _ _ E1 E2].
    - inversion Hd as [t' Bt E3 E4|t' st r b d' Cm _ _ _ E3 E4]; subst; [rewrite C3 in Bt; discriminate Bt|rewrite C2 in Cm; discriminate Cm].
    - subst. rewrite C2 in Cm. discriminate Cm. }
  unfold unsaid. rewrite T, (blank_strip _ B). reflexivity.
Qed.
