(** C36: identifiers the schema accepts and identifiers with a packed form.
    Vocabulary: XsdPattern (XML Schema patterns and facets of texts), IdSpec
    (identifiers as written).  Model: PackUtil; schemas: XsdFiles. *)
From Verif Require Import PyStrProofs SchemaProofs3 SchemaCheck PropsSchema.
From Verif Require Import XsdMatch IdProofs1 IdProofs2 IdProofs3 IdProofs5.
From Verif Require Import PyStr PackUtil XsdPattern XsdFiles SchemaSpec IdSpec.
Local Open Scope Z_scope.

(** * What the packer takes *)
(** Each identifier of the grammar is packed exactly when it is in range. *)
Theorem C36_permID_range : forall i, perm_shaped i ->
  ((exists c, packTupleID (Some (perm_written i), None, None) = Ok c) <-> perm_packable i).
Proof. exact perm_packs. Qed.
Theorem C36_provID_range : forall i, prov_shaped i ->
  ((exists c, packTupleID (None, Some (prov_written i), None) = Ok c) <-> prov_packable i).
Proof. exact prov_packs. Qed.
(** Nothing else is: a text without a newline that packs is in the grammar. *)
Theorem C36_permID_packs : forall p, ~ In nl p ->
  ((exists c, packTupleID (Some p, None, None) = Ok c) <-> exists i, perm_shaped i /\ perm_written i = p /\ perm_packable i).
Proof. exact perm_exact. Qed.
Theorem C36_provID_packs : forall p, ~ In nl p ->
  ((exists c, packTupleID (None, Some p, None) = Ok c) <-> exists i, prov_shaped i /\ prov_written i = p /\ prov_packable i).
Proof. exact prov_exact. Qed.
Theorem C36_trkSub_packs : forall p, ~ In nl p ->
  ((exists c, packTupleID (None, None, Some p) = Ok c) <-> (1 <= length p <= 8)%nat /\ forallb trk_char p = true).
Proof. exact trk_exact. Qed.
Print Assumptions C36_permID_range.
Print Assumptions C36_provID_range.
Print Assumptions C36_permID_packs.
Print Assumptions C36_provID_packs.
Print Assumptions C36_trkSub_packs.

(** * What the schemas take *)
Theorem C36_permID_schema : forall F s, reads_texts F ->
  (simple F general_xsd $"PermIDType" s <-> (length s <= 25)%nat /\ exists i, perm_shaped i /\ perm_written i = s /\ perm_short i) /\
  (simple F submit_xsd $"PermIDType" s <-> (length s <= 25)%nat /\ exists i, perm_shaped i /\ perm_written i = s /\ perm_short i).
Proof. intros F s R. split; apply perm_type; [exact R|exact perm_general|exact R|exact perm_submit]. Qed.
Theorem C36_provID_schema : forall F s, reads_texts F ->
  (simple F submit_xsd $"ProvIDType" s <-> (length s <= 25)%nat /\ exists i, prov_shaped i /\ prov_written i = s) /\
  (simple F general_xsd $"ProvIDType" s <-> ((length s <= 25)%nat /\ exists i, prov_shaped i /\ prov_written i = s) \/ old_designation s).
Proof. intros F s R. split; [now apply prov_type_submit|now apply prov_type_general]. Qed.
Theorem C36_trkSub_schema : forall F s, reads_texts F ->
  (simple F submit_xsd $"TrkSubType" s <-> (1 <= length s <= 8)%nat /\ forallb trk_schema_char s = true) /\
  (simple F general_xsd $"TrkSubType" s <-> (length s <= 8)%nat /\ forallb old_trk_char s = true /\ exists c, In c s /\ c <> " "%char).
Proof. intros F s R. split; [now apply trk_type_submit|now apply trk_type_general]. Qed.
Print Assumptions C36_permID_schema.
Print Assumptions C36_provID_schema.
Print Assumptions C36_trkSub_schema.

(** * The two together *)
(** What packs is accepted, if it is no longer than 25 characters (and a
    satellite's number has no superfluous zeros). *)
Theorem C36_packed_accepted : forall F p, reads_texts F -> ~ In nl p -> (length p <= 25)%nat ->
  ((exists c, packTupleID (Some p, None, None) = Ok c) -> (forall q w, p = q ++ $" " ++ w -> (length w <= 3)%nat) ->
     simple F submit_xsd $"PermIDType" p) /\
  ((exists c, packTupleID (None, Some p, None) = Ok c) -> simple F submit_xsd $"ProvIDType" p) /\
  ((exists c, packTupleID (None, None, Some p) = Ok c) -> simple F submit_xsd $"TrkSubType" p).
Proof.
  intros F p R N L. split; [|split].
  - intros H W. apply (proj2 (C36_permID_schema F p R)). split; [exact L|]. apply (perm_exact p N) in H as (i & Hi & E & P). exists i. split; [exact Hi|]. split; [exact E|].
    destruct i; cbn [perm_short]; try exact I; [|destruct P]. now apply (W planet).
  - intros H. apply (proj1 (C36_provID_schema F p R)). split; [exact L|]. apply (prov_exact p N) in H as (i & Hi & E & P). now exists i.
  - intros H. apply (proj1 (C36_trkSub_schema F p R)). apply (trk_exact p N) in H as (H1 & H2). split; [exact H1|].
    rewrite forallb_forall in *. intros c Hc. unfold trk_schema_char. now rewrite (H2 c Hc).
Qed.
(** In a valid submission, wherever they stand: identifiers are in the grammar,
    and are packed exactly when they are in range. *)
Theorem C36_submission_permID : forall F e d, reads_texts F -> valid F submit_xsd e -> d = e \/ In d (descendants e) -> xtag d = $"permID" ->
  exists i, perm_shaped i /\ perm_written i = xtext d /\
    ((exists c, packTupleID (Some (xtext d), None, None) = Ok c) <-> perm_packable i).
Proof.
  intros F e d R V I T. pose proof (submitted F e d _ $"PermIDType" V I T ltac:(vm_compute; reflexivity) ltac:(vm_compute; reflexivity)) as H.
  apply (proj2 (C36_permID_schema F _ R)) in H as (_ & i & Hi & E & _). exists i. split; [exact Hi|]. split; [exact E|]. rewrite <- E. now apply perm_packs.
Qed.
Theorem C36_submission_provID : forall F e d, reads_texts F -> valid F submit_xsd e -> d = e \/ In d (descendants e) -> xtag d = $"provID" ->
  exists i, prov_shaped i /\ prov_written i = xtext d /\
    ((exists c, packTupleID (None, Some (xtext d), None) = Ok c) <-> prov_packable i).
Proof.
  intros F e d R V I T. pose proof (submitted F e d _ $"ProvIDType" V I T ltac:(vm_compute; reflexivity) ltac:(vm_compute; reflexivity)) as H.
  apply (proj1 (C36_provID_schema F _ R)) in H as (_ & i & Hi & E). exists i. split; [exact Hi|]. split; [exact E|]. rewrite <- E. now apply prov_packs.
Qed.
Theorem C36_submission_trkSub : forall F e d, reads_texts F -> valid F submit_xsd e -> d = e \/ In d (descendants e) -> xtag d = $"trkSub" ->
  ((exists c, packTupleID (None, None, Some (xtext d)) = Ok c) <-> ~ In "_"%char (xtext d)).
Proof.
  intros F e d R V I T. pose proof (submitted F e d _ $"TrkSubType" V I T ltac:(vm_compute; reflexivity) ltac:(vm_compute; reflexivity)) as H.
  apply (proj1 (C36_trkSub_schema F _ R)) in H as (L & H). rewrite forallb_forall in H.
  assert (~ In nl (xtext d)) as N by (intro Q; discriminate (H _ Q)).
  split; intro Q.
  - apply (trk_exact _ N) in Q as (_ & Q). rewrite forallb_forall in Q. intro J. discriminate (Q _ J).
  - apply (trk_exact _ N). split; [exact L|]. apply forallb_forall. intros c Hc. specialize (H c Hc). unfold trk_schema_char in H.
    destruct (trk_char c); [reflexivity|]. cbn [orb] in H. apply ceqb_eq in H. subst c. now destruct Q.
Qed.
Print Assumptions C36_packed_accepted.
Print Assumptions C36_submission_permID.
Print Assumptions C36_submission_provID.
Print Assumptions C36_submission_trkSub.

(** * The gaps are real *)
(** (texts: a reading that checks the facets of texts) *)
(** accepted by the submission schema, refused by the packer *)
Theorem C36_accepted_packed_refuted :
  (exists p, simple texts submit_xsd $"PermIDType" p /\ ~ exists c, packTupleID (Some p, None, None) = Ok c) /\
  (exists p, simple texts submit_xsd $"ProvIDType" p /\ ~ exists c, packTupleID (None, Some p, None) = Ok c) /\
  (exists p, simple texts submit_xsd $"TrkSubType" p /\ ~ exists c, packTupleID (None, None, Some p) = Ok c).
Proof.
  split; [|split].
  - exists $"Mars 1". split; [|intros [c H]; vm_compute in H; discriminate H]. apply (proj2 (C36_permID_schema _ _ texts_read)).
    split; [cbn; lia|]. exists (Moon $"Mars" $"1"). split; [|split; [reflexivity|cbn; lia]]. split; [cbn [In]; tauto|]. split; [reflexivity|discriminate].
  - exists $"P/1930 J-A". split; [|intros [c H]; vm_compute in H; discriminate H]. apply (proj1 (C36_provID_schema _ _ texts_read)).
    split; [cbn; lia|]. exists (CometDes "P" $"1930" "J" None [] (Some "A"%char)). split; [|reflexivity].
    split; [cbn [In]; tauto|]. split; [split; reflexivity|]. repeat split.
  - exists $"a_b". split; [|intros [c H]; vm_compute in H; discriminate H]. apply (proj1 (C36_trkSub_schema _ _ texts_read)). split; [cbn; lia|reflexivity].
Qed.
(** packed, but not in the schema: a newline at the end; too many zeros *)
Theorem C36_packed_accepted_refuted : exists p q, 
  (exists c, packTupleID (Some p, None, None) = Ok c) /\ ~ simple texts general_xsd $"PermIDType" p /\ (length p <= 25)%nat /\
  (exists c, packTupleID (Some q, None, None) = Ok c) /\ ~ simple texts general_xsd $"PermIDType" q /\ ~ In nl q.
Proof.
  exists ($"433" ++ [nl]), (repeat "0"%char 23 ++ $"433").
  split; [eexists; vm_compute; reflexivity|]. split.
  { intro H. apply (proj1 (C36_permID_schema _ _ texts_read)) in H as (_ & i & Hi & E & _). apply (perm_no_newline i Hi). rewrite E. apply in_or_app. right. now left. }
  split; [cbn; lia|]. split; [eexists; vm_compute; reflexivity|]. split.
  { intro H. apply (proj1 (C36_permID_schema _ _ texts_read)) in H as (L & _). cbn in L. lia. }
  intro J. assert (forallb isdig (repeat "0"%char 23 ++ $"433") = true) as D by (vm_compute; reflexivity). rewrite forallb_forall in D. discriminate (D _ J).
Qed.

(** * Examples *)
Example C36_perm_cases : Forall (fun i => perm_shaped i /\ perm_short i)
    [Number $"00433"; NumberedComet $"73" "P" $"AB"; NumberedComet $"1" "I" []; Moon $"Jupiter" $"13"; AsteroidMoon $"87" $"1"] /\
  map perm_written [Number $"00433"; NumberedComet $"73" "P" $"AB"; NumberedComet $"1" "I" []; Moon $"Jupiter" $"13"; AsteroidMoon $"87" $"1"]
    = [$"00433"; $"73P-AB"; $"1I"; $"Jupiter 13"; $"(87) 1"].
Proof.
  split; [|reflexivity]. apply Forall_forall. intros i H.
  destruct H as [<-|[<-|[<-|[<-|[<-|[]]]]]]; (split; [|cbn; try lia; exact I]); cbn [perm_shaped In].
  - split; [reflexivity|discriminate].
  - split; [split; [reflexivity|discriminate]|]. split; [tauto|]. split; [reflexivity|cbn; lia].
  - split; [split; [reflexivity|discriminate]|]. split; [tauto|]. split; [reflexivity|cbn; lia].
  - split; [tauto|]. split; [reflexivity|discriminate].
  - split; (split; [reflexivity|discriminate]).
Qed.
Example C36_prov_cases :
  map prov_written [Designation $"2014" "A" "A" $"360"; SurveyDes $"4835" "T" "1"; CometDes "P" $"1994" "N" None $"2" (Some "A"%char);
                    CometDes "A" $"2017" "U" None $"1" None; MoonDes $"2003" "J" $"12"; AsteroidMoonDes $"2001" $"87" $"1"]
  = [$"2014 AA360"; $"4835 T-1"; $"P/1994 N2-A"; $"A/2017 U1"; $"S/2003 J 12"; $"S/2001 (87) 1"] /\
  prov_shaped (CometDes "P" $"1994" "N" None $"2" (Some "A"%char)) /\ prov_packable (CometDes "P" $"1994" "N" None $"2" (Some "A"%char)) /\
  prov_shaped (Designation $"2014" "A" "A" $"360") /\ prov_packable (Designation $"2014" "A" "A" $"360").
Proof.
  split; [reflexivity|]. split. { split; [cbn [In]; tauto|]. split; [split; reflexivity|]. repeat split. }
  split. { split; [vm_compute; discriminate|]. split; [vm_compute; discriminate|]. intros _. split; [discriminate|]. split; [reflexivity|discriminate]. }
  split. { split; [split; reflexivity|]. repeat split. }
  split; [split; vm_compute; discriminate|left; vm_compute; discriminate].
Qed.
(** every pattern of the schema is within the part of the language covered *)
Example C36_all_patterns : forallb (fun p => match pattern p with Some _ => true | None => false end)
  (flat_map (fun c => flat_map (fun r => map (attr_text $"value") (filter (has_tag $"xsd:pattern") (xkids r))) (xkids c)) (xkids general_xsd)) = true.
Proof. vm_compute. reflexivity. Qed.
(** the submission of PropsSchema is valid with its facets checked, and has identifiers to speak of *)
Example C36_submission_valid : reads_texts texts /\ valid texts submit_xsd submission.
Proof.
  split; [exact texts_read|]. apply (valid_weaken (fun d s => texts_b d s = true)); [exact texts_sound|].
  apply (checks_valid texts_b submit_xsd 30). vm_compute. reflexivity.
Qed.
Example C36_in_submission : exists d, In d (descendants submission) /\ xtag d = $"permID" /\ xtext d = $"433".
Proof.
  exists (leaf $"permID" $"433"). split; [|split; reflexivity].
  assert (forall x l, existsb (fun y => streqb (xtag y) (xtag x) && streqb (xtext y) (xtext x) && match xattrs y, xkids y, xattrs x, xkids x with [], [], [], [] => true | _, _, _, _ => false end) l = true -> In x l) as K.
  { intros x l H. apply existsb_exists in H as (y & I & H). apply andb_prop in H as [H H3]. apply andb_prop in H as [H1 H2].
    apply streqb_eq in H1, H2. destruct x as [a b c [|]], y as [a' b' c' [|]]; cbn [xtag xtext xattrs xkids] in *; destruct b, b'; try discriminate H3. subst. exact I. }
  apply K. vm_compute. reflexivity.
Qed.
