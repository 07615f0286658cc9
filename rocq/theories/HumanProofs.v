(** Lemmas of C45. *)
From Verif Require Import PyStrProofs TablesProofs JsonProofs1 XmlProofs Schema HumanSpec.
Local Open Scope nat_scope.

Definition bare (l : list xml) : list xml := flat_map (fun k => if has_tag $"xsd:annotation" k then [] else [unannotated k]) l.
Lemma bare_app a b : bare (a ++ b) = bare a ++ bare b.
Proof. apply flat_map_app. Qed.
Lemma flat_map_ext_in {A B} (f g : A -> list B) l : (forall x, In x l -> f x = g x) -> flat_map f l = flat_map g l.
Proof. induction l as [|a l IH]; intro H; [reflexivity|]. cbn [flat_map]. rewrite (H a (or_introl eq_refl)), IH; [reflexivity|]. intros x I. apply H. now right. Qed.
Lemma bare_flat {A} (f : A -> list xml) l : (forall x, In x l -> bare (f x) = f x) -> bare (flat_map f l) = flat_map f l.
Proof. induction l as [|a l IH]; intro H; [reflexivity|]. cbn [flat_map]. rewrite bare_app, (H a (or_introl eq_refl)), IH; [reflexivity|]. intros x I. apply H. now right. Qed.
Lemma bare_leaf t a : streqb t $"xsd:annotation" = false -> bare [Elem t a [] []] = [Elem t a [] []].
Proof. intro H. unfold bare. cbn [flat_map]. unfold has_tag. cbn [xtag]. rewrite H. reflexivity. Qed.

Lemma use_cases l x : use_in l x = true -> attr $"use" x = None \/ exists u, attr $"use" x = Some $u /\ In u l.
Proof.
  unfold use_in. destruct (attr $"use" x) as [v|]; [|now left]. intro H. right. apply smem_In in H. apply in_map_iff in H as (u & <- & I). eauto.
Qed.
Lemma use_same m x : use_in ("NoSubmit" :: "NoSubmitDistribRequired" :: plain_uses)%string x = true ->
  (m = HumanDistrib -> attr_is $"use" $"NoSubmitDistribRequired" x = false) ->
  match machine m with Submit => no_submit x = true -> human_use m x = None | General => True end /\
  (match machine m with Submit => no_submit x | General => false end = false -> human_use m x = Some (use_attrs (machine m) x)).
Proof.
  intros U D. apply use_cases in U as [U|(u & U & I)].
  - unfold human_use, use_attrs, no_submit, attr_is, has_attr. rewrite U. cbn [orb negb]. destruct m; cbn [machine]; (split; [try discriminate; auto|reflexivity]).
  - unfold human_use, use_attrs, no_submit, attr_is, has_attr in *. rewrite U in *.
    destruct I as [<-|[<-|[<-|[<-|[<-|[]]]]]]; destruct m; cbn [machine]; (split; [vm_compute; auto; intro Q; discriminate Q|vm_compute; auto; try (intro Q; discriminate Q)]);
    specialize (D eq_refl); discriminate D.
Qed.
Lemma use_plain m x : use_in plain_uses x = true -> human_use m x = Some (use_attrs (machine m) x) /\ no_submit x = false.
Proof.
  intro U. apply use_cases in U as [U|(u & U & I)]; unfold human_use, use_attrs, no_submit, attr_is, has_attr; rewrite U.
  - destruct m; split; reflexivity.
  - destruct I as [<-|[<-|[<-|[]]]]; destruct m; split; vm_compute; reflexivity.
Qed.
Ltac tags := unfold tag_in, has_tag; cbn [xtag]; repeat match goal with |- context [smem ?a ?b] => change (smem a b) with true || change (smem a b) with false end;
  repeat match goal with |- context [streqb ?a ?b] => change (streqb a b) with true || change (streqb a b) with false end; cbn [andb].
Lemma pair_apply m x : pair_tree x = true -> (m = HumanDistrib -> no_distrib x = true) ->
  human_apply m x = apply (machine m) x /\ bare (apply (machine m) x) = apply (machine m) x.
Proof.
  induction x as [t a s ks IH] using xml_ind'. intros P D.
  assert (m = HumanDistrib -> attr_is $"use" $"NoSubmitDistribRequired" (Elem t a s ks) = false) as DU.
  { intro E. specialize (D E). cbn [no_distrib] in D. apply andb_prop in D as [D _]. now apply negb_true_iff in D. }
  cbn [pair_tree] in P. destruct (smem t [$"element"; $"group"; $"attribute"]) eqn:T.
  - destruct ks as [|k ks]; [|discriminate P]. clear D IH. set (x := Elem t a s []) in *.
    assert (human_apply m x = (if has_attr $"name" x then match human_use m x with Some a => [Elem (xsd t) ([($"name", attr_text $"name" x); ($"type", attr_text $"type" x)] ++ a) [] []] | None => [] end
      else if negb (streqb t $"attribute") && has_attr $"ref" x then match human_use m x with Some a => [Elem (xsd t) (($"ref", attr_text $"ref" x) :: a) [] []] | None => [] end else human_apply m x) ) as HA.
    { apply smem_In in T. destruct T as [<-|[<-|[<-|[]]]]; subst x; cbn [human_apply]; tags; destruct (has_attr $"name" _); try reflexivity; cbn [negb andb]; destruct (has_attr $"ref" _); reflexivity. }
    assert (apply (machine m) x = (if has_attr $"name" x && has_attr $"type" x && negb (no_submit x) then [Elem (xsd t) ([($"name", attr_text $"name" x); ($"type", attr_text $"type" x)] ++ use_attrs (machine m) x) [] []]
      else if negb (streqb t $"attribute") && has_attr $"ref" x && match machine m with Submit => negb (no_submit x) | General => true end then [Elem (xsd t) (($"ref", attr_text $"ref" x) :: use_attrs (machine m) x) [] []] else [])) as MA.
    { apply smem_In in T. destruct T as [<-|[<-|[<-|[]]]]; subst x; cbn [apply]; tags; destruct (has_attr $"name" _ && _ && _); try reflexivity; cbn [negb andb]; try (destruct (has_attr $"ref" _ && _); try reflexivity); destruct m; reflexivity. }
    assert (streqb (xsd t) $"xsd:annotation" = false) as TA by (apply smem_In in T; destruct T as [<-|[<-|[<-|[]]]]; reflexivity).
    rewrite HA, MA. unfold declared in P. destruct (has_attr $"name" x).
    + apply andb_prop in P as [P1 P2]. apply (use_plain m) in P2 as [P2 P3]. rewrite P1, P2, P3. cbn [andb negb]. split; [reflexivity|]. now apply bare_leaf.
    + cbn [andb]. apply andb_prop in P as [P P2]. apply andb_prop in P as [P0 P1]. change (has_tag $"attribute" x) with (streqb t $"attribute") in P0. rewrite P0, P1. cbn [andb].
      destruct (use_same m x P2 DU) as [U1 U2]. destruct (machine m) eqn:M.
      * destruct (no_submit x) eqn:N; cbn [negb]; [rewrite (U1 eq_refl); auto|]. rewrite (U2 eq_refl). split; [reflexivity|now apply bare_leaf].
      * rewrite (U2 eq_refl). split; [reflexivity|now apply bare_leaf].
  - apply orb_prop in P as [P|P].
    + apply streqb_eq in P. subst t. split; [reflexivity|vm_compute; reflexivity].
    + apply andb_prop in P as [T2 P]. rewrite forallb_forall in P.
      assert (forall k, In k ks -> human_apply m k = apply (machine m) k /\ bare (apply (machine m) k) = apply (machine m) k) as K.
      { intros k I. rewrite Forall_forall in IH. apply (IH k I (P k I)). intro E. specialize (D E). cbn [no_distrib] in D. apply andb_prop in D as [_ D]. rewrite forallb_forall in D. exact (D k I). }
      set (x := Elem t a s ks) in *.
      assert (human_apply m x = [Elem (xsd t) (if attr_is $"use" $"unbounded" x then [($"maxOccurs", $"unbounded")] else []) [] (flat_map (human_apply m) ks)]) as ->.
      { apply smem_In in T2. destruct T2 as [<-|[<-|[<-|[]]]]; reflexivity. }
      assert (apply (machine m) x = [Elem (xsd t) (if attr_is $"use" $"unbounded" x then [($"maxOccurs", $"unbounded")] else []) [] (flat_map (apply (machine m)) ks)]) as ->.
      { apply smem_In in T2. destruct T2 as [<-|[<-|[<-|[]]]]; reflexivity. }
      rewrite (flat_map_ext_in (human_apply m) (apply (machine m)) ks) by (intros k I; apply (K k I)). split; [reflexivity|].
      unfold bare at 1. cbn [flat_map]. unfold has_tag at 1. cbn [xtag].
      assert (streqb (xsd t) $"xsd:annotation" = false) as -> by (apply smem_In in T2; destruct T2 as [<-|[<-|[<-|[]]]]; reflexivity).
      cbn [unannotated app]. change (flat_map (fun k => if has_tag $"xsd:annotation" k then [] else [unannotated k])) with bare. rewrite bare_flat; [reflexivity|]. intros k I. apply (K k I).
Qed.

Lemma doc_gone m x : bare (human_select m [$"doc"] x) = [].
Proof.
  unfold human_select. induction (xkids x) as [|k l IH]; [reflexivity|]. cbn [filter]. destruct (tag_in [$"doc"] k) eqn:T; [|exact IH].
  cbn [flat_map]. rewrite bare_app, IH, app_nil_r. unfold tag_in in T. apply smem_In in T. destruct T as [T|[]]. destruct k as [t a s ks]. cbn [xtag] in T. subst t. destruct m; reflexivity.
Qed.
Definition twin m x := human_apply m x = apply (machine m) x /\ bare (apply (machine m) x) = apply (machine m) x.
Lemma select_twin m l x : (forall k, In k (xkids x) -> tag_in l k = true -> twin m k) ->
  bare (human_select m l x) = select (machine m) l x.
Proof.
  intro H. unfold human_select, select.
  rewrite (flat_map_ext_in (human_apply m) (apply (machine m))).
  - apply bare_flat. intros k I. apply filter_In in I as [I T]. exact (proj2 (H k I T)).
  - intros k I. apply filter_In in I as [I T]. exact (proj1 (H k I T)).
Qed.
Lemma union_twin m k : tag_in [human_union m] k = true -> twin m k.
Proof.
  intro T. unfold tag_in in T. apply smem_In in T. destruct T as [T|[]]. destruct k as [t a s ks]. cbn [xtag] in T. subst t. destruct m; split; vm_compute; reflexivity.
Qed.
Lemma restriction_twin m k : tag_in [$"restriction"] k = true -> facet_tree k = true -> twin m k.
Proof.
  intros T F. unfold tag_in in T. apply smem_In in T. destruct T as [T|[]]. destruct k as [t a s ks]. cbn [xtag] in T. subst t.
  unfold facet_tree in F. cbn [xkids] in F. rewrite forallb_forall in F.
  assert (forall k, has_tag $"restrict" k = true -> human_apply m k = [Elem (attr_text $"name" k) [($"value", attr_text $"value" k)] [] []] /\ apply (machine m) k = [Elem (attr_text $"name" k) [($"value", attr_text $"value" k)] [] []]) as R.
  { intros [t' a' s' ks'] T. unfold has_tag in T. apply streqb_eq in T. cbn [xtag] in T. subst t'. destruct m; split; reflexivity. }
  set (base := attr_text $"base" (Elem $"restriction" a s ks)).
  assert (human_apply m (Elem $"restriction" a s ks) = [Elem $"xsd:restriction" [($"base", base)] [] (flat_map (fun k => if has_tag $"restrict" k then human_apply m k else []) ks)]) as H by (destruct m; reflexivity).
  assert (apply (machine m) (Elem $"restriction" a s ks) = [Elem $"xsd:restriction" [($"base", base)] [] (flat_map (fun k => if has_tag $"restrict" k then apply (machine m) k else []) ks)]) as H' by (destruct m; reflexivity).
  split.
  - rewrite H, H'. do 2 f_equal. apply flat_map_ext_in. intros k _. destruct (has_tag _ k) eqn:T; [|reflexivity]. destruct (R k T) as [-> ->]. reflexivity.
  - rewrite H'. unfold bare at 1. cbn [flat_map]. change (has_tag $"xsd:annotation" (Elem $"xsd:restriction" _ _ _)) with false. cbv iota. cbn [unannotated app].
    change (flat_map (fun k => if has_tag $"xsd:annotation" k then [] else [unannotated k])) with bare. rewrite bare_flat; [reflexivity|].
    intros k I. destruct (has_tag $"restrict" k) eqn:T; [|reflexivity]. rewrite (proj2 (R k T)). apply bare_leaf. specialize (F k I). rewrite T in F. cbn [andb] in F. apply negb_true_iff in F. apply orb_false_elim in F as [F _].
    unfold attr_is in F. unfold attr_text. destruct (attr $"name" k); [exact F|reflexivity].
Qed.
Lemma pair_twin m k : pair_tree k = true -> (m = HumanDistrib -> no_distrib k = true) -> twin m k.
Proof. apply pair_apply. Qed.
Lemma no_distrib_kid x k : no_distrib x = true -> In k (xkids x) -> no_distrib k = true.
Proof. destruct x as [t a s ks]. cbn [no_distrib xkids]. intros H I. apply andb_prop in H as [_ H]. rewrite forallb_forall in H. exact (H k I). Qed.
Lemma bare_one t a ks : streqb t $"xsd:annotation" = false -> bare [Elem t a [] ks] = [Elem t a [] (bare ks)].
Proof. intro H. unfold bare at 1. cbn [flat_map]. unfold has_tag at 1. cbn [xtag]. rewrite H. reflexivity. Qed.
Lemma type_twin m x : pair_type x = true -> (m = HumanDistrib -> no_distrib x = true) -> bare (human_type m x) = type_of (machine m) x.
Proof.
  intros P D. unfold human_type, type_of. unfold pair_type in P.
  assert (human_union m = union_tag (machine m)) as UT by (destruct m; reflexivity).
  destruct (has_tag $"simpletype" x).
  - rewrite bare_one by reflexivity. rewrite !bare_app, doc_gone, <- UT. cbn [app]. do 2 f_equal. f_equal.
    + apply select_twin. intros k _. apply union_twin.
    + apply select_twin. intros k I T. apply restriction_twin; [exact T|]. rewrite forallb_forall in P. apply P. apply filter_In. split; [exact I|].
      unfold tag_in in T. apply smem_In in T. destruct T as [T|[]]. unfold has_tag. apply streqb_eq. now symmetry.
  - assert (forall l, (forall t, In t l -> In t [$"all"; $"sequence"; $"choice"; $"attribute"]) -> bare (human_select m l x) = select (machine m) l x) as S.
    { intros l L. apply select_twin. intros k I T. apply pair_twin.
      - rewrite forallb_forall in P. apply P. apply filter_In. split; [exact I|]. unfold tag_in in *. apply smem_In in T. apply smem_In. exact (L _ T).
      - intro E. exact (no_distrib_kid x k (D E) I). }
    destruct (has_tag $"complextype" x); [|destruct (has_tag $"grouptype" x); [|reflexivity]].
    + rewrite bare_one by reflexivity. rewrite !bare_app, doc_gone, !S; [reflexivity| |]; cbn [In]; tauto.
    + rewrite bare_one by reflexivity. rewrite !bare_app, doc_gone, !S; [reflexivity|]; cbn [In]; tauto.
Qed.
Lemma no_distrib_under t x : no_distrib x = true -> forall k, In k (under t x) -> no_distrib k = true.
Proof.
  intros H k I. unfold under in I. apply in_flat_map in I as (y & I & J). apply filter_In in I as [I _]. exact (no_distrib_kid y k (no_distrib_kid x y H I) J).
Qed.
Lemma bare_twin {A} (f g : A -> list xml) l : (forall x, In x l -> bare (f x) = g x) -> bare (flat_map f l) = flat_map g l.
Proof. induction l as [|a l IH]; intro H; [reflexivity|]. cbn [flat_map]. rewrite bare_app, (H a (or_introl eq_refl)), IH; [reflexivity|]. intros x I. apply H. now right. Qed.
Lemma schema_twin m x : pair_master x = true -> (m = HumanDistrib -> no_distrib x = true) -> unannotated (human_schema m x) = schema (machine m) x.
Proof.
  intros P D. unfold pair_master in P. apply andb_prop in P as [P1 P2]. rewrite forallb_forall in P1, P2.
  unfold human_schema, schema. cbn [unannotated]. f_equal. change (flat_map (fun k => if has_tag $"xsd:annotation" k then [] else [unannotated k])) with bare.
  rewrite bare_app. f_equal.
  - apply bare_twin. intros k I. apply type_twin; [exact (P1 k I)|]. intro E. exact (no_distrib_under _ x (D E) k I).
  - apply bare_twin. intros k I. destruct (pair_twin m k (P2 k I)) as [-> B]; [|exact B]. intro E. apply filter_In in I as [I _]. exact (no_distrib_under _ x (D E) k I).
Qed.

Definition quiet l := flat_map annotations l = [].
Lemma quiet_flat {A} (f : A -> list xml) l : (forall x, In x l -> quiet (f x)) -> quiet (flat_map f l).
Proof.
  unfold quiet. induction l as [|a l IH]; intro H; [reflexivity|]. cbn [flat_map]. rewrite flat_map_app, (H a (or_introl eq_refl)), IH; [reflexivity|]. intros x I. apply H. now right.
Qed.
Lemma quiet_one t a ks : streqb t $"xsd:documentation" = false -> quiet ks -> quiet [Elem t a [] ks].
Proof. intros T K. unfold quiet in *. cbn [flat_map annotations]. rewrite T, K. reflexivity. Qed.
Lemma smem_tags t l b : smem t l = true -> forallb (fun u => negb (streqb u b)) l = true -> streqb t b = false.
Proof. intros H A. apply smem_In in H. rewrite forallb_forall in A. specialize (A t H). now apply negb_true_iff in A. Qed.
Lemma pair_quiet m x : pair_tree x = true -> quiet (human_apply m x).
Proof.
  induction x as [t a s ks IH] using xml_ind'. intro P. cbn [pair_tree] in P. destruct (smem t [$"element"; $"group"; $"attribute"]) eqn:T.
  - destruct ks as [|k ks]; [|discriminate P]. clear IH P. apply smem_In in T.
    destruct T as [<-|[<-|[<-|[]]]]; cbn [human_apply]; tags; destruct (has_attr $"name" _); cbn [andb]; try (destruct (human_use m _); [apply quiet_one; [reflexivity|]|]; reflexivity);
    try (destruct (has_attr $"ref" _); [destruct (human_use m _); [apply quiet_one; [reflexivity|]|]; reflexivity|]); destruct m; reflexivity.
  - apply orb_prop in P as [P|P]; [apply streqb_eq in P; subst t; reflexivity|]. apply andb_prop in P as [T2 P]. rewrite forallb_forall in P.
    assert (quiet (flat_map (human_apply m) ks)) as Q by (apply quiet_flat; intros k I; rewrite Forall_forall in IH; exact (IH k I (P k I))).
    apply smem_In in T2. destruct T2 as [<-|[<-|[<-|[]]]]; (apply quiet_one; [reflexivity|exact Q]).
Qed.
Lemma doc_said m x : flat_map annotations (human_select m [$"doc"] x) = map xtext (filter (has_tag $"doc") (xkids x)).
Proof.
  unfold human_select. induction (xkids x) as [|k l IH]; [reflexivity|]. cbn [filter]. assert (tag_in [$"doc"] k = has_tag $"doc" k) as -> by (unfold tag_in, has_tag, smem; cbn [existsb]; rewrite orb_false_r; try reflexivity).
  destruct (has_tag $"doc" k) eqn:T; [|exact IH]. cbn [flat_map map]. rewrite flat_map_app, IH. unfold has_tag in T. apply streqb_eq in T. destruct k as [t a s ks]. cbn [xtag] in T. subst t. destruct m; reflexivity.
Qed.
Lemma select_quiet m l x : (forall k, In k (xkids x) -> tag_in l k = true -> quiet (human_apply m k)) -> quiet (human_select m l x).
Proof. intro H. apply quiet_flat. intros k I. apply filter_In in I as [I T]. exact (H k I T). Qed.
Lemma union_quiet m k : tag_in [human_union m] k = true -> quiet (human_apply m k).
Proof. intro T. unfold tag_in in T. apply smem_In in T. destruct T as [T|[]]. destruct k as [t a s ks]. cbn [xtag] in T. subst t. destruct m; reflexivity. Qed.
Lemma restriction_quiet m k : tag_in [$"restriction"] k = true -> facet_tree k = true -> quiet (human_apply m k).
Proof.
  intros T F. unfold tag_in in T. apply smem_In in T. destruct T as [T|[]]. destruct k as [t a s ks]. cbn [xtag] in T. subst t.
  unfold facet_tree in F. cbn [xkids] in F. rewrite forallb_forall in F.
  set (base := attr_text $"base" (Elem $"restriction" a s ks)).
  assert (human_apply m (Elem $"restriction" a s ks) = [Elem $"xsd:restriction" [($"base", base)] [] (flat_map (fun k => if has_tag $"restrict" k then human_apply m k else []) ks)]) as -> by (destruct m; reflexivity).
  apply quiet_one; [reflexivity|]. apply quiet_flat. intros k I. destruct (has_tag $"restrict" k) eqn:T; [|reflexivity]. specialize (F k I). rewrite T in F. cbn [andb] in F. apply negb_true_iff in F. apply orb_false_elim in F as [_ F].
  assert (human_apply m k = [Elem (attr_text $"name" k) [($"value", attr_text $"value" k)] [] []]) as ->.
  { destruct k as [t' a' s' ks']. unfold has_tag in T. apply streqb_eq in T. cbn [xtag] in T. subst t'. destruct m; reflexivity. }
  apply quiet_one; [|reflexivity]. unfold attr_is in F. unfold attr_text. destruct (attr $"name" k); [exact F|reflexivity].
Qed.
Lemma type_docs m x : pair_type x = true -> flat_map annotations (human_type m x) =
  if tag_in [$"simpletype"; $"complextype"; $"grouptype"] x then map xtext (filter (has_tag $"doc") (xkids x)) else [].
Proof.
  intro P. unfold pair_type in P. unfold tag_in, smem. cbn [existsb]. unfold human_type. unfold has_tag at 1 2 3.
  assert (forall t a q, streqb t $"xsd:documentation" = false -> quiet q -> flat_map annotations [Elem t a [] (human_select m [$"doc"] x ++ q)] = map xtext (filter (has_tag $"doc") (xkids x))) as B.
  { intros t a q T Q. cbn [flat_map annotations]. rewrite T, app_nil_r, flat_map_app, doc_said. unfold quiet in Q. rewrite Q. apply app_nil_r. }
  assert (forall a b, quiet a -> quiet b -> quiet (a ++ b)) as QA by (intros a b Ha Hb; unfold quiet in *; rewrite flat_map_app, Ha, Hb; reflexivity).
  change (has_tag $"simpletype" x) with (streqb (xtag x) $"simpletype") in P. destruct (streqb (xtag x) $"simpletype"); cbn [orb].
  - apply B; [reflexivity|]. apply QA.
    + apply select_quiet. intros k _. apply union_quiet.
    + apply select_quiet. intros k I T. apply restriction_quiet; [exact T|]. rewrite forallb_forall in P. apply P. apply filter_In. split; [exact I|].
      unfold tag_in in T. apply smem_In in T. destruct T as [T|[]]. unfold has_tag. apply streqb_eq. now symmetry.
  - assert (forall l, (forall t, In t l -> In t [$"all"; $"sequence"; $"choice"; $"attribute"]) -> quiet (human_select m l x)) as S.
    { intros l L. apply select_quiet. intros k I T. apply pair_quiet.
      rewrite forallb_forall in P. apply P. apply filter_In. split; [exact I|]. unfold tag_in in *. apply smem_In in T. apply smem_In. exact (L _ T). }
    destruct (streqb (xtag x) $"complextype"); cbn [orb]; [|destruct (streqb (xtag x) $"grouptype"); [|reflexivity]]; (apply B; [reflexivity|]).
    + apply QA; apply S; cbn [In]; tauto.
    + apply S; cbn [In]; tauto.
Qed.
Lemma schema_docs m master : pair_master master = true ->
  flat_map annotations (xkids (human_schema m master)) =
  flat_map (fun x => if tag_in [$"simpletype"; $"complextype"; $"grouptype"] x then map xtext (filter (has_tag $"doc") (xkids x)) else []) (under $"XSDTypes" master).
Proof.
  intro P. unfold pair_master in P. apply andb_prop in P as [P1 P2]. rewrite forallb_forall in P1, P2. unfold human_schema. cbn [xkids]. rewrite flat_map_app.
  assert (quiet (flat_map (human_apply m) (filter (has_tag $"element") (under $"XSDElementTypes" master)))) as Q by (apply quiet_flat; intros k I; apply pair_quiet; exact (P2 k I)).
  unfold quiet in Q. rewrite Q, app_nil_r. revert P1. induction (under $"XSDTypes" master) as [|k l IH]; intro P1; [reflexivity|]. cbn [flat_map]. rewrite flat_map_app, (type_docs m k (P1 k (or_introl eq_refl))), IH; [reflexivity|]. intros y I. apply P1. now right.
Qed.
