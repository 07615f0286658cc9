From Verif Require Import SchemaSpec PyStrProofs XmlProofs TablesProofs.
From Verif Require Import Schema XsdSpec SchemaSpec.
Local Open Scope nat_scope.

(** * Schemas where the second allows more *)
Definition optional_ref (q : xml) : Prop :=
  attr_is $"minOccurs" $"0" q = true /\ (xtag q = $"xsd:element" \/ xtag q = $"xsd:group") /\ attr $"name" q = None.

Inductive R : xml -> xml -> Prop :=
| R_elem t a s ks ks' : t <> $"xsd:simpleType" -> RL ks ks' -> R (Elem t a s ks) (Elem t a s ks')
| R_simple a s ks ks' :
    (forall r, In r ks -> xtag r = $"xsd:restriction" -> In r ks') ->
    (forall u m, In u ks -> xtag u = $"xsd:union" -> In m (split_ws (attr_text $"memberTypes" u)) ->
       exists u', In u' ks' /\ xtag u' = $"xsd:union" /\ In m (split_ws (attr_text $"memberTypes" u'))) ->
    R (Elem $"xsd:simpleType" a s ks) (Elem $"xsd:simpleType" a s ks')
with RL : list xml -> list xml -> Prop :=
| RL_nil : RL [] []
| RL_cons p p' l l' : R p p' -> RL l l' -> RL (p :: l) (p' :: l')
| RL_skip q l l' : optional_ref q -> RL l l' -> RL l (q :: l').

Lemma R_tag p p' : R p p' -> xtag p' = xtag p. Proof. now destruct 1. Qed.
Lemma R_attrs p p' : R p p' -> xattrs p' = xattrs p. Proof. now destruct 1. Qed.
Lemma R_attr k p p' : R p p' -> attr k p' = attr k p. Proof. intros H. unfold attr. now rewrite (R_attrs _ _ H). Qed.
Lemma R_attr_is k v p p' : R p p' -> attr_is k v p' = attr_is k v p. Proof. intros H. unfold attr_is. now rewrite (R_attr k _ _ H). Qed.
Lemma R_attr_text k p p' : R p p' -> attr_text k p' = attr_text k p. Proof. intros H. unfold attr_text. now rewrite (R_attr k _ _ H). Qed.
Lemma R_kids p p' : R p p' -> xtag p <> $"xsd:simpleType" -> RL (xkids p) (xkids p').
Proof. destruct 1; cbn [xtag xkids]; [tauto|]. intros H1. now destruct H1. Qed.
Lemma R_refl p : R p p.
Proof.
  induction p as [t a s ks IH] using xml_ind'. destruct (list_eq_dec Ascii.ascii_dec t $"xsd:simpleType") as [->|N].
  - apply R_simple; [auto|]. intros u m I T J. now exists u.
  - apply R_elem; [exact N|]. induction IH; constructor; assumption.
Qed.
Lemma RL_refl l : RL l l. Proof. induction l; constructor; [apply R_refl|assumption]. Qed.
Lemma RL_app a a' b b' : RL a a' -> RL b b' -> RL (a ++ b) (a' ++ b').
Proof. induction 1; intros H'; cbn [app]; [exact H'|constructor; auto..]. Qed.
Lemma RL_flat {A} (f g : A -> list xml) l : Forall (fun x => RL (f x) (g x)) l -> RL (flat_map f l) (flat_map g l).
Proof. induction 1; cbn [flat_map]; [constructor|now apply RL_app]. Qed.
Lemma RL_in l l' : RL l l' -> forall p, In p l -> exists p', In p' l' /\ R p p'.
Proof.
  induction 1 as [|p p' l l' HR _ IH|q l l' HO _ IH]; intros x I.
  - destruct I.
  - destruct I as [<-|I]; [exists p'; split; [now left|exact HR]|]. destruct (IH x I) as (y & I' & HR'). exists y. split; [now right|exact HR'].
  - destruct (IH x I) as (y & I' & HR'). exists y. split; [now right|exact HR'].
Qed.
Lemma RL_in_back l l' : RL l l' -> forall p', In p' l' -> optional_ref p' \/ exists p, In p l /\ R p p'.
Proof.
  induction 1 as [|p p' l l' HR _ IH|q l l' HO _ IH]; intros x I.
  - destruct I.
  - destruct I as [<-|I]; [right; exists p; split; [now left|exact HR]|]. destruct (IH x I) as [O|(y & I' & HR')]; [now left|].
    right. exists y. split; [now right|exact HR'].
  - destruct I as [<-|I]; [now left|]. exact (IH x I).
Qed.
Lemma RL_filter f l l' : (forall p p', R p p' -> f p = f p') -> (forall q, optional_ref q -> f q = false) ->
  RL l l' -> RL (filter f l) (filter f l').
Proof.
  intros H1 H2. induction 1 as [|p p' l l' HR _ IH|q l l' HO _ IH]; cbn [filter]; [constructor| |].
  - rewrite <- (H1 _ _ HR). destruct (f p); [constructor; assumption|exact IH].
  - now rewrite H2.
Qed.
Lemma RL_find f l l' : (forall p p', R p p' -> f p = f p') -> (forall q, optional_ref q -> f q = false) -> RL l l' ->
  match find f l with
  | Some c => exists c', find f l' = Some c' /\ R c c'
  | None => find f l' = None
  end.
Proof.
  intros H1 H2. induction 1 as [|p p' l l' HR _ IH|q l l' HO _ IH]; cbn [find]; [reflexivity| |].
  - rewrite <- (H1 _ _ HR). destruct (f p); [exists p'; now split|exact IH].
  - now rewrite H2.
Qed.
Lemma RL_component S S' k n : RL (xkids S) (xkids S') ->
  match component S k n with
  | Some c => exists c', component S' k n = Some c' /\ R c c'
  | None => component S' k n = None
  end.
Proof.
  intros H. unfold component. apply RL_find; [| |exact H].
  - intros p p' HR. unfold has_tag. now rewrite (R_tag _ _ HR), (R_attr_is _ _ _ _ HR).
  - intros q (_ & _ & N). unfold attr_is. rewrite N. apply andb_false_r.
Qed.

(** * Documents valid for the first are valid for the second *)
Scheme valid_type_mut := Minimality for valid_type Sort Prop
  with particle_mut := Minimality for particle Sort Prop
  with times_mut := Minimality for times Sort Prop
  with sequence_mut := Minimality for sequence Sort Prop
  with term_mut := Minimality for term Sort Prop
  with laxly_mut := Minimality for laxly Sort Prop.
Combined Scheme content_ind from valid_type_mut, particle_mut, times_mut, sequence_mut, term_mut, laxly_mut.

Section More.
Variable F : derivation -> str -> Prop.
Variables S S' : xml.
Hypothesis SS : RL (xkids S) (xkids S').

Lemma component_more k n c : component S k n = Some c -> exists c', component S' k n = Some c' /\ R c c'.
Proof. intros H. pose proof (RL_component S S' k n SS) as K. now rewrite H in K. Qed.
Lemma component_tag T k n c : component T k n = Some c -> xtag c = k.
Proof.
  unfold component. intros H. apply find_some in H as [_ H]. apply andb_true_iff in H as [H _]. now apply streqb_eq in H.
Qed.
Lemma simple_R c c' : R c c' -> xtag c = $"xsd:simpleType" ->
  (forall r, In r (xkids c) -> xtag r = $"xsd:restriction" -> In r (xkids c')) /\
  (forall u m, In u (xkids c) -> xtag u = $"xsd:union" -> In m (split_ws (attr_text $"memberTypes" u)) ->
       exists u', In u' (xkids c') /\ xtag u' = $"xsd:union" /\ In m (split_ws (attr_text $"memberTypes" u'))).
Proof. destruct 1 as [t a s ks ks' N _|a s ks ks' H1 H2]; cbn [xtag xkids]; [tauto|]. intros _. now split. Qed.

Lemma derives_more t d : derives S t d -> derives S' t d.
Proof.
  induction 1 as [t B|t st r b d C I T _ IH]; [now constructor|].
  destruct (component_more _ _ _ C) as (st' & C' & HR). destruct (simple_R _ _ HR (component_tag _ _ _ _ C)) as [H1 _].
  exact (der_restriction S' t st' r b d C' (H1 r I T) T IH).
Qed.
Lemma simple_more t s : simple F S t s -> simple F S' t s.
Proof.
  induction 1 as [t d s D HF|t st u m s C I T J _ IH].
  - exact (simple_derived F S' t d s (derives_more _ _ D) HF).
  - destruct (component_more _ _ _ C) as (st' & C' & HR). destruct (simple_R _ _ HR (component_tag _ _ _ _ C)) as [_ H2].
    destruct (H2 u m I T J) as (u' & I' & T' & J'). exact (simple_union F S' t st' u' m s C' I' T' J' IH).
Qed.
Lemma attributes_more ct ct' a : R ct ct' -> xtag ct = $"xsd:complexType" -> attributes_ok F S ct a -> attributes_ok F S' ct' a.
Proof.
  intros HR T [H1 H2]. assert (RLk : RL (xkids ct) (xkids ct')) by (apply R_kids; [exact HR|rewrite T; discriminate]).
  split.
  - intros k v I. destruct (H1 k v I) as (d & Id & Td & Nd & Sd). destruct (RL_in _ _ RLk d Id) as (d' & Id' & HRd).
    exists d'. split; [exact Id'|]. rewrite (R_tag _ _ HRd), (R_attr _ _ _ HRd), (R_attr_text _ _ _ HRd). split; [exact Td|]. split; [exact Nd|now apply simple_more].
  - intros d' I' T' U'. destruct (RL_in_back _ _ RLk d' I') as [(_ & [O|O] & _)|(d & I & HRd)].
    + rewrite T' in O. discriminate O.
    + rewrite T' in O. discriminate O.
    + rewrite (R_attr_text _ _ _ HRd). apply (H2 d I); [now rewrite <- (R_tag _ _ HRd)|now rewrite <- (R_attr_is _ _ _ _ HRd)].
Qed.

Lemma occurs_R p p' n : R p p' -> occurs p n -> occurs p' n.
Proof. intros HR. unfold occurs. now rewrite !(R_attr_is _ _ _ _ HR). Qed.
Lemma particle_R_filter l l' : RL l l' -> RL (filter is_particle l) (filter is_particle l').
Proof.
  apply RL_filter.
  - intros p p' HR. unfold is_particle. now rewrite (R_tag _ _ HR).
  - intros q (_ & [T|T] & _); unfold is_particle; now rewrite T.
Qed.
Lemma optional_nothing q : optional_ref q -> particle F S' q [].
Proof. intros (M & _). apply (particle_times F S' q 0 []); [constructor|]. split; [now left|right; lia]. Qed.

Lemma content_more :
  (forall t e, valid_type F S t e -> valid_type F S' t e) /\
  (forall p ks, particle F S p ks -> forall p', R p p' -> particle F S' p' ks) /\
  (forall p n ks, times F S p n ks -> forall p', R p p' -> times F S' p' n ks) /\
  (forall ps ks, sequence F S ps ks -> forall ps', RL ps ps' -> sequence F S' ps' ks) /\
  (forall p ks, term F S p ks -> forall p', R p p' -> term F S' p' ks) /\
  (forall ks, laxly F S ks -> laxly F S' ks).
Proof.
  apply content_ind.
  - intros t e H1 H2 H3. apply valid_simple; [now apply simple_more|assumption..].
  - intros t ct e C B A _ IH. destruct (component_more _ _ _ C) as (ct' & C' & HR). pose proof (component_tag _ _ _ _ C) as T.
    apply (valid_complex F S' t ct' e C' B); [now apply (attributes_more ct)|]. apply IH, particle_R_filter, R_kids; [exact HR|rewrite T; discriminate].
  - intros p n ks _ IH O p' HR. apply (particle_times F S' p' n ks); [now apply IH|now apply (occurs_R p)].
  - intros p p' _. constructor.
  - intros p n a b _ IH1 _ IH2 p' HR. constructor; [now apply IH1|now apply IH2].
  - intros ps' HR. assert (K : forall l l', RL l l' -> l = [] -> sequence F S' l' []); [|exact (K _ _ HR eq_refl)].
    clear. induction 1 as [| |q l l' O _ IH]; intros E; [constructor|discriminate E|].
    change (@nil xml) with (@nil xml ++ []). constructor; [now apply optional_nothing|now apply IH].
  - intros p ps a b _ IH1 _ IH2 ps' HR.
    assert (K : forall l l', RL l l' -> l = p :: ps -> sequence F S' l' (a ++ b)); [|exact (K _ _ HR eq_refl)].
    clear HR ps'. induction 1 as [|p0 p' l l' HR HRL _|q l l' O _ IH]; intros E; [discriminate E| |].
    + injection E as -> ->. constructor; [now apply IH1|now apply IH2].
    + change (a ++ b) with ([] ++ (a ++ b)). constructor; [now apply optional_nothing|now apply IH].
  - intros p r d e T A C Te _ IH p' HR. destruct (component_more _ _ _ C) as (d' & C' & HRd).
    apply (term_ref F S' p' r d' e); [now rewrite (R_tag _ _ HR)|now rewrite (R_attr _ _ _ HR)|exact C'|exact Te|].
    now rewrite (R_attr_text _ _ _ HRd).
  - intros p n t e T A1 A2 A3 Te _ IH p' HR. apply (term_local F S' p' n t e); rewrite ?(R_tag _ _ HR), ?(R_attr _ _ _ HR); assumption.
  - intros p r g ks T A C _ IH p' HR. destruct (component_more _ _ _ C) as (g' & C' & HRg). pose proof (component_tag _ _ _ _ C) as Tg.
    apply (term_group F S' p' r g' ks); [now rewrite (R_tag _ _ HR)|now rewrite (R_attr _ _ _ HR)|exact C'|].
    apply IH, R_kids; [exact HRg|rewrite Tg; discriminate].
  - intros p ks T _ IH p' HR. apply term_sequence; [now rewrite (R_tag _ _ HR)|]. apply IH, R_kids; [exact HR|rewrite T; discriminate].
  - intros p q ks T I _ IH p' HR. assert (K : RL (xkids p) (xkids p')) by (apply R_kids; [exact HR|rewrite T; discriminate]).
    destruct (RL_in _ _ K q I) as (q' & I' & HRq). apply (term_choice F S' p' q'); [now rewrite (R_tag _ _ HR)|exact I'|now apply IH].
  - intros p ks ks' T P _ IH p' HR. apply (term_all F S' p' ks ks'); [now rewrite (R_tag _ _ HR)|exact P|].
    apply IH, R_kids; [exact HR|rewrite T; discriminate].
  - intros p e T _ IH p' HR. apply term_any; [now rewrite (R_tag _ _ HR)|exact IH].
  - constructor.
  - intros e d l C _ IH1 _ IH2. destruct (component_more _ _ _ C) as (d' & C' & HR). apply (lax_known F S' e d' l C'); [|exact IH2].
    now rewrite (R_attr_text _ _ _ HR).
  - intros e l C _ IH1 _ IH2. apply lax_unknown; [|exact IH1|exact IH2].
    pose proof (RL_component S S' $"xsd:element" (xtag e) SS) as K. now rewrite C in K.
Qed.
Lemma valid_more e : valid F S e -> valid F S' e.
Proof.
  intros (d & C & V). destruct (component_more _ _ _ C) as (d' & C' & HR). exists d'. split; [exact C'|].
  rewrite (R_attr_text _ _ _ HR). now apply content_more.
Qed.
End More.

(** * The two schemas of a master *)
Lemma apply_more x : plain_tree x = true -> RL (apply Submit x) (apply General x).
Proof.
  induction x as [t a s ks IH] using xml_ind'. cbn [plain_tree]. intros H.
  destruct (smem t [$"element"; $"group"; $"attribute"; $"any"]) eqn:L.
  - destruct ks; [|discriminate H]. cbn [apply flat_map]. unfold tag_in, has_tag. cbn [xtag].
    destruct (smem t [$"attribute"; $"element"; $"group"] && has_attr $"name" (Elem t a s []) && has_attr $"type" (Elem t a s []) &&
              negb (no_submit (Elem t a s []))) eqn:E1.
    { assert (use_attrs Submit (Elem t a s []) = use_attrs General (Elem t a s [])) as ->; [|apply RL_refl].
      apply andb_true_iff in E1 as [_ E1]. apply negb_true_iff in E1. unfold use_attrs. now rewrite E1. }
    clear E1. destruct (smem t [$"element"; $"group"] && has_attr $"ref" (Elem t a s [])) eqn:E2.
    { cbn [andb]. destruct (no_submit (Elem t a s [])) eqn:N; cbn [negb].
      - unfold use_attrs. rewrite N. apply andb_true_iff in E2 as [E2 _]. unfold smem in E2. cbn [existsb] in E2. rewrite orb_false_r in E2.
        apply orb_true_iff in E2 as [E2|E2]; apply streqb_eq in E2; subst t; cbv - [optional_ref attr_text];
          apply RL_skip; [split; [reflexivity|split; [now left|reflexivity]]|constructor|split; [reflexivity|split; [now right|reflexivity]]|constructor].
      - unfold use_attrs. rewrite N. apply RL_refl. }
    cbn [andb]. unfold smem in L. cbn [existsb] in L. rewrite orb_false_r in L.
    repeat (apply orb_true_iff in L as [L|L]); apply streqb_eq in L; subst t; cbv; try apply RL_refl.
  - apply andb_true_iff in H as [H1 H2]. cbn [apply]. unfold tag_in, has_tag. cbn [xtag].
    assert (smem t [$"attribute"; $"element"; $"group"] = false) as ->.
    { unfold smem in *. cbn [existsb] in *. rewrite !orb_false_iff in L. destruct L as (-> & -> & -> & _). reflexivity. }
    assert (smem t [$"element"; $"group"] = false) as ->.
    { unfold smem in *. cbn [existsb] in *. rewrite !orb_false_iff in L. destruct L as (-> & -> & _). reflexivity. }
    cbn [andb]. rewrite H1. constructor; [|constructor]. apply R_elem.
    + unfold smem in H1. cbn [existsb] in H1. rewrite orb_false_r in H1. repeat (apply orb_true_iff in H1 as [H1|H1]); apply streqb_eq in H1; subst t; discriminate.
    + apply RL_flat. rewrite Forall_forall in *. intros k I. rewrite forallb_forall in H2. apply IH; [exact I|now apply H2].
Qed.

Lemma select_more tags x : forallb plain_tree (filter (tag_in tags) (xkids x)) = true -> RL (select Submit tags x) (select General tags x).
Proof.
  intros H. unfold select. apply RL_flat, Forall_forall. intros k I. apply apply_more. rewrite forallb_forall in H. now apply H.
Qed.
Lemma apply_restriction x : xtag x = $"restriction" -> apply Submit x = apply General x.
Proof.
  destruct x as [t a s ks]. cbn [xtag]. intros ->. cbn [apply]. unfold tag_in, has_tag. cbn [xtag].
  change (smem $"restriction" [$"attribute"; $"element"; $"group"]) with false.
  change (smem $"restriction" [$"element"; $"group"]) with false.
  change (smem $"restriction" [$"sequence"; $"all"; $"choice"]) with false.
  change (streqb $"restriction" $"any") with false. change (streqb $"restriction" $"restrict") with false.
  change (streqb $"restriction" $"restriction") with true. cbn [andb]. cbv iota. do 2 f_equal.
  apply flat_map_ext. intros [t' a' s' ks']. cbn [xtag]. destruct (streqb t' $"restrict") eqn:E; [|reflexivity].
  apply streqb_eq in E. subst t'. reflexivity.
Qed.
Lemma apply_union m x : xtag x = union_tag m -> apply m x = [Elem $"xsd:union" [($"memberTypes", attr_text $"memberTypes" x)] [] []].
Proof. destruct x as [t a s ks]. cbn [xtag]. intros ->. destruct m; reflexivity. Qed.

Lemma forallb_weaken {A} (f g h : A -> bool) l : (forall x, h x = true -> g x = true) ->
  forallb f (filter g l) = true -> forallb f (filter h l) = true.
Proof.
  intros H. rewrite !forallb_forall. intros K x I. apply filter_In in I as [I J]. apply K, filter_In. split; [exact I|now apply H].
Qed.
Lemma tag_in_weaken a b x : incl a b -> tag_in a x = true -> tag_in b x = true.
Proof.
  unfold tag_in, smem. intros H. rewrite !existsb_exists. intros (y & I & E). exists y. split; [now apply H|exact E].
Qed.

Lemma type_more x : type_ok x = true -> RL (type_of Submit x) (type_of General x).
Proof.
  unfold type_ok, type_of. destruct (has_tag $"simpletype" x).
  - intros H. constructor; [|constructor]. apply R_simple.
    + intros r I T. apply in_app_iff in I as [I|I].
      * exfalso. unfold select in I. apply in_flat_map in I as (k & I & J). apply filter_In in I as [_ I].
        unfold tag_in, smem in I. cbn [existsb] in I. rewrite orb_false_r in I. apply streqb_eq in I. rewrite (apply_union Submit k I) in J.
        destruct J as [<-|[]]. discriminate T.
      * apply in_app_iff. right. unfold select in *. apply in_flat_map in I as (k & I & J). apply in_flat_map. exists k. split; [exact I|].
        apply filter_In in I as [_ I]. unfold tag_in, smem in I. cbn [existsb] in I. rewrite orb_false_r in I. apply streqb_eq in I.
        now rewrite <- apply_restriction.
    + intros u m I T J. apply in_app_iff in I as [I|I].
      * unfold select in I. apply in_flat_map in I as (k & I & K). apply filter_In in I as [I1 I2].
        unfold tag_in, smem in I2. cbn [existsb] in I2. rewrite orb_false_r in I2. pose proof I2 as I2'. apply streqb_eq in I2. rewrite (apply_union Submit k I2) in K.
        destruct K as [<-|[]]. rewrite forallb_forall in H.
        assert (M : In m (members $"submitunion" x)).
        { unfold members. apply in_flat_map. exists k. split; [exact I1|]. unfold has_tag. cbn [union_tag] in I2'. rewrite I2'. exact J. }
        specialize (H m M). unfold smem in H. apply existsb_exists in H as (m' & M' & E). apply streqb_eq in E. subst m'.
        unfold members in M'. apply in_flat_map in M' as (k' & I' & J'). destruct (has_tag $"union" k') eqn:T'; [|destruct J'].
        exists (Elem $"xsd:union" [($"memberTypes", attr_text $"memberTypes" k')] [] []). split; [|split; [reflexivity|exact J']].
        apply in_app_iff. left. unfold select. apply in_flat_map. exists k'. split.
        -- apply filter_In. split; [exact I'|]. unfold tag_in, smem. cbn [existsb union_tag]. unfold has_tag in T'. now rewrite T'.
        -- unfold has_tag in T'. apply streqb_eq in T'. rewrite (apply_union General k' T'). now left.
      * exfalso. unfold select in I. apply in_flat_map in I as (k & I & K). apply filter_In in I as [_ I].
        unfold tag_in, smem in I. cbn [existsb] in I. rewrite orb_false_r in I. apply streqb_eq in I.
        destruct k as [t a s ks]. cbn [xtag] in I. subst t. cbn in K. destruct K as [<-|[]]. discriminate T.
  - intros H. destruct (has_tag $"complextype" x); [|destruct (has_tag $"grouptype" x); [|constructor]].
    + constructor; [|constructor]. apply R_elem; [discriminate|]. apply RL_app; apply select_more; (eapply forallb_weaken; [|exact H]);
        intros k; apply tag_in_weaken; intros y I; cbn [In] in *; tauto.
    + constructor; [|constructor]. apply R_elem; [discriminate|]. apply select_more; (eapply forallb_weaken; [|exact H]);
        intros k; apply tag_in_weaken; intros y I; cbn [In] in *; tauto.
Qed.

Lemma schema_more M : sound_master M = true -> RL (xkids (schema Submit M)) (xkids (schema General M)).
Proof.
  intros H. apply andb_true_iff in H as [H1 H2]. cbn [schema xkids]. rewrite forallb_forall in H1, H2. apply RL_app.
  - apply RL_flat, Forall_forall. intros x I. apply type_more. now apply H1.
  - apply RL_flat, Forall_forall. intros x I. apply apply_more. now apply H2.
Qed.
Lemma submit_general F M e : sound_master M = true -> valid F (schema Submit M) e -> valid F (schema General M) e.
Proof. intros H. apply valid_more. now apply schema_more. Qed.
