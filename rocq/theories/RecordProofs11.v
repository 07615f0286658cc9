(** Records with arbitrary children: valid exactly when the children stand in the
    order of the table, none twice, are themselves valid, and the record is complete. *)
From Verif Require Import SchemaSpec PyStrProofs SchemaProofs1 SchemaProofs2 SchemaProofs3 RecordProofs1 RecordProofs2.
From Verif Require Import Schema XsdSpec SchemaSpec.
Local Open Scope nat_scope.

(** a text for each tag there is *)
Definition hk (ks : list xml) (x : str) : bool := smem x (map xtag ks).
Definition marks (ks : list xml) (x : str) : str := if hk ks x then $"1" else [].
Lemma has_marks ks x : has (marks ks) x = hk ks x. Proof. unfold has, marks. now destruct (hk ks x). Qed.
Lemma hk_in ks x : hk ks x = true <-> In x (map xtag ks). Proof. apply smem_iff. Qed.
Lemma hk_app a b x : hk (a ++ b) x = hk a x || hk b x.
Proof. unfold hk, smem. now rewrite map_app, existsb_app. Qed.
Lemma hk_out ks T x : incl (map xtag ks) T -> ~ In x T -> hk ks x = false.
Proof. intros I N. destruct (hk ks x) eqn:E; [|reflexivity]. apply hk_in in E. destruct (N (I x E)). Qed.

Section All.
Variable F : derivation -> str -> Prop.
Variable S : xml.
Variable A : list str.
Notation restrict := (restrict A).
Notation tagsof := (tagsof S).
Notation good := (good S A).
Definition inorder (T : list str) (ks : list xml) : Prop := map xtag ks = filter (hk ks) (restrict T).
Definition child_ok (e : xml) : Prop := exists d, component S $"xsd:element" (xtag e) = Some d /\ valid_type F S (attr_text $"type" d) e.
Definition ttev (ks : list xml) := tev S (marks ks).
Definition ppev (ks : list xml) := pev S (marks ks).

Lemma inorder_incl T ks : inorder T ks -> incl (map xtag ks) T.
Proof. intros H x I. rewrite H in I. apply filter_In in I as [I _]. unfold RecordProofs1.restrict in I. apply filter_In in I as [_ I]. now apply smem_iff. Qed.
Lemma filter_ext_in' {X} (f g : X -> bool) l : (forall x, In x l -> f x = g x) -> filter f l = filter g l.
Proof. apply filter_ext_in. Qed.
Lemma restrict_in T x : In x (restrict T) -> In x T.
Proof. unfold RecordProofs1.restrict. intro I. apply filter_In in I as [_ I]. now apply smem_iff. Qed.
Lemma absent_ext t1 t2 l : (forall x, In x l -> has t1 x = has t2 x) -> absent t1 l = absent t2 l.
Proof. unfold absent. intro H. induction l as [|x l IH]; [reflexivity|]. cbn [forallb]. rewrite (H x (or_introl eq_refl)), IH; [reflexivity|]. intros y I. apply H. now right. Qed.
(** whether a particle is satisfied depends on its own tags only *)
Lemma tev_local t1 t2 n : forall p, (forall x, In x (tagsof n p) -> has t1 x = has t2 x) -> tev S t1 n p = tev S t2 n p.
Proof.
  induction n as [|n IH]; intros p H; [reflexivity|]. cbn [tev]. cbn [RecordProofs1.tagsof] in H.
  assert (forall q, (forall x, In x (tagsof n q) -> has t1 x = has t2 x) -> opt t1 (tev S t1 n) (tagsof n) q = opt t2 (tev S t2 n) (tagsof n) q) as K.
  { intros q Hq. unfold opt. now rewrite (IH q Hq), (absent_ext t1 t2 _ Hq). }
  assert (forall ps, (forall x, In x (flat_map (tagsof n) ps) -> has t1 x = has t2 x) -> forallb (opt t1 (tev S t1 n) (tagsof n)) ps = forallb (opt t2 (tev S t2 n) (tagsof n)) ps) as L.
  { induction ps as [|q ps IHs]; [reflexivity|]. intro Hq. cbn [forallb]. rewrite (K q), IHs; [reflexivity| |]; intros x I; apply Hq; cbn [flat_map]; apply in_or_app; [now right|now left]. }
  destruct (has_tag $"xsd:element" p) eqn:T1.
  { destruct (attr $"ref" p) as [r|]; [|reflexivity]. apply H. now left. }
  destruct (has_tag $"xsd:group" p) eqn:T2.
  { destruct (attr $"ref" p) as [r|]; [|reflexivity]. destruct (component S $"xsd:group" r) as [g|]; [|reflexivity]. now apply L. }
  destruct (has_tag $"xsd:sequence" p); [now apply L|].
  assert (forall qs, (forall q, In q qs -> In q (xkids p)) -> 
     existsb (fun q => absent t1 (filter (fun x => negb (smem x (tagsof n q))) (flat_map (tagsof n) (xkids p))) && opt t1 (tev S t1 n) (tagsof n) q) qs =
     existsb (fun q => absent t2 (filter (fun x => negb (smem x (tagsof n q))) (flat_map (tagsof n) (xkids p))) && opt t2 (tev S t2 n) (tagsof n) q) qs) as M.
  { induction qs as [|q qs IHs]; [reflexivity|]. intro J. cbn [existsb]. rewrite IHs by (intros q' I; apply J; now right). f_equal. f_equal.
    - apply absent_ext. intros x I. apply filter_In in I as [I _]. now apply H.
    - apply K. intros x I. apply H. apply in_flat_map. exists q. split; [apply J; now left|exact I]. }
  cbn [RecordProofs1.tagsof]. rewrite T1, T2. apply (M (xkids p)). auto.
Qed.
Lemma pev_local t1 t2 n p : (forall x, In x (tagsof n p) -> has t1 x = has t2 x) -> pev S t1 n p = pev S t2 n p.
Proof. intro H. unfold pev, opt. now rewrite (tev_local t1 t2 n p H), (absent_ext t1 t2 _ H). Qed.

Definition all_term (n : nat) : Prop := forall p ks, good n p = true ->
  (term F S p ks <-> inorder (tagsof n p) ks /\ ttev ks n p = true /\ Forall child_ok ks).
Definition all_particle (n : nat) : Prop := forall p ks, good n p = true ->
  (particle F S p ks <-> inorder (tagsof n p) ks /\ ppev ks n p = true /\ Forall child_ok ks).
Lemma inorder_nil T : inorder T [].
Proof. unfold inorder. cbn [map]. symmetry. apply (proj2 (filter_nil _ _)) || idtac. induction (restrict T) as [|x l IH]; [reflexivity|exact IH]. Qed.
Lemma absent_inorder T ks : inorder T ks -> absent (marks ks) T = true -> ks = [].
Proof.
  intros O Ab. rewrite absent_in in Ab. destruct ks as [|e ks]; [reflexivity|]. exfalso.
  assert (In (xtag e) (map xtag (e :: ks))) as I by now left. pose proof (inorder_incl T _ O _ I) as J. specialize (Ab _ J). rewrite has_marks in Ab. apply hk_in in I. congruence.
Qed.
Lemma absent_nil T : absent (marks []) T = true. Proof. apply absent_in. intros x _. now rewrite has_marks. Qed.
Lemma all_term_particle n : all_term n -> all_particle n.
Proof.
  intros E p ks G. destruct (good_within S A n p G) as [W U]. rewrite (particle_inv F S _ _ U), (E p ks G). unfold ppev, pev, opt. rewrite orb_true_iff, andb_true_iff. split.
  - intros [(M & ->)|(O & T & K)]; [|tauto]. split; [apply inorder_nil|]. split; [left; split; [exact M|apply absent_nil]|constructor].
  - intros (O & [(M & Ab)|T] & K); [left; split; [exact M|now apply (absent_inorder (tagsof n p))]|right; tauto].
Qed.
Lemma disjoint_ok a b x : disjoint a b = true -> In x a -> ~ In x b.
Proof. unfold disjoint. rewrite forallb_forall. intros H I J. specialize (H x I). apply negb_true_iff in H. apply smem_iff in J. congruence. Qed.
Lemma inorder_app T1 T2 a b : disjoint T1 T2 = true -> restrict (T1 ++ T2) = restrict T1 ++ restrict T2 ->
  inorder T1 a -> inorder T2 b -> inorder (T1 ++ T2) (a ++ b).
Proof.
  intros D R Oa Ob. unfold inorder. rewrite R, filter_app, map_app.
  rewrite (filter_ext_in' (hk (a ++ b)) (hk a) (restrict T1)), (filter_ext_in' (hk (a ++ b)) (hk b) (restrict T2)).
  - f_equal; assumption.
  - intros x I. apply restrict_in in I. rewrite hk_app. rewrite (hk_out a T1 x (inorder_incl _ _ Oa)); [reflexivity|]. intro J. exact (disjoint_ok _ _ _ D J I).
  - intros x I. apply restrict_in in I. rewrite hk_app. rewrite (hk_out b T2 x (inorder_incl _ _ Ob)); [now rewrite orb_false_r|]. exact (disjoint_ok _ _ _ D I).
Qed.
Lemma map_app_inv {X Y} (f : X -> Y) l a b : map f l = a ++ b -> exists l1 l2, l = l1 ++ l2 /\ map f l1 = a /\ map f l2 = b.
Proof. intro H. apply map_eq_app in H as (l1 & l2 & E1 & E2 & E3). eauto. Qed.
Lemma inorder_split T1 T2 ks : disjoint T1 T2 = true -> restrict (T1 ++ T2) = restrict T1 ++ restrict T2 ->
  inorder (T1 ++ T2) ks -> exists a b, ks = a ++ b /\ inorder T1 a /\ inorder T2 b.
Proof.
  intros D R O. pose proof O as O'. unfold inorder in O. rewrite R, filter_app in O. apply map_app_inv in O as (a & b & -> & Ea & Eb).
  assert (incl (map xtag a) T1) as Ia by (rewrite Ea; intros x I; apply filter_In in I as [I _]; now apply restrict_in).
  assert (incl (map xtag b) T2) as Ib by (rewrite Eb; intros x I; apply filter_In in I as [I _]; now apply restrict_in).
  exists a, b. split; [reflexivity|]. split; unfold inorder.
  - rewrite Ea. apply filter_ext_in'. intros x I. apply restrict_in in I. rewrite hk_app, (hk_out b T2 x Ib); [now rewrite orb_false_r|]. exact (disjoint_ok _ _ _ D I).
  - rewrite Eb. apply filter_ext_in'. intros x I. apply restrict_in in I. rewrite hk_app, (hk_out a T1 x Ia); [reflexivity|]. intro J. exact (disjoint_ok _ _ _ D J I).
Qed.
Lemma marks_left T1 T2 a b x : disjoint T1 T2 = true -> inorder T2 b -> In x T1 -> has (marks (a ++ b)) x = has (marks a) x.
Proof. intros D O I. rewrite !has_marks, hk_app, (hk_out b T2 x (inorder_incl _ _ O)); [now rewrite orb_false_r|]. exact (disjoint_ok _ _ _ D I). Qed.
Lemma marks_right T1 T2 a b x : disjoint T1 T2 = true -> inorder T1 a -> In x T2 -> has (marks (a ++ b)) x = has (marks b) x.
Proof. intros D O I. rewrite !has_marks, hk_app, (hk_out a T1 x (inorder_incl _ _ O)); [reflexivity|]. intro J. exact (disjoint_ok _ _ _ D J I). Qed.
Lemma forallb_pev_local t1 t2 n ps : (forall x, In x (flat_map (tagsof n) ps) -> has t1 x = has t2 x) -> forallb (pev S t1 n) ps = forallb (pev S t2 n) ps.
Proof.
  induction ps as [|p ps IH]; [reflexivity|]. intro H. cbn [forallb]. rewrite (pev_local t1 t2 n p), IH; [reflexivity| |]; intros x I; apply H; cbn [flat_map]; apply in_or_app; [now right|now left].
Qed.
Lemma all_sequence n : all_particle n -> forall ps ks, gseq A (good n) (tagsof n) ps = true ->
  (sequence F S ps ks <-> inorder (flat_map (tagsof n) ps) ks /\ forallb (ppev ks n) ps = true /\ Forall child_ok ks).
Proof.
  intros E. induction ps as [|p ps IH]; intros ks G.
  - rewrite sequence_inv. cbn [flat_map forallb]. split; [intros ->; split; [apply inorder_nil|now split]|]. intros (O & _). apply inorder_incl in O. destruct ks as [|e ks]; [reflexivity|]. destruct (O (xtag e)). now left.
  - cbn [gseq] in G. apply andb_prop in G as [G Sp]. apply andb_prop in G as [G D]. apply andb_prop in G as [G1 G2].
    apply same_list_eq in Sp. rewrite sequence_inv. cbn [flat_map forallb]. rewrite andb_true_iff. split.
    + intros (a & b & -> & P & Q). apply (E p a G1) in P as (P1 & P2 & P3). apply (IH b G2) in Q as (Q1 & Q2 & Q3).
      split; [now apply inorder_app|]. split; [|apply Forall_app; now split]. unfold ppev in *. split.
      * rewrite (pev_local (marks (a ++ b)) (marks a)); [exact P2|]. intros x I. apply (marks_left _ _ a b x D Q1 I).
      * rewrite (forallb_pev_local (marks (a ++ b)) (marks b)); [exact Q2|]. intros x I. apply (marks_right _ _ a b x D P1 I).
    + intros (O & [P2 Q2] & K). apply (inorder_split _ _ _ D Sp) in O as (a & b & -> & P1 & Q1). apply Forall_app in K as [K1 K2].
      exists a, b. split; [reflexivity|]. unfold ppev in *. split.
      * apply (E p a G1). split; [exact P1|]. split; [|exact K1]. unfold ppev. rewrite <- (pev_local (marks (a ++ b)) (marks a)); [exact P2|]. intros x I. apply (marks_left _ _ a b x D Q1 I).
      * apply (IH b G2). split; [exact Q1|]. split; [|exact K2]. unfold ppev. rewrite <- (forallb_pev_local (marks (a ++ b)) (marks b)); [exact Q2|]. intros x I. apply (marks_right _ _ a b x D P1 I).
Qed.
Lemma inorder_more T U ks : incl U T -> incl (map xtag ks) U -> (inorder T ks <-> inorder U ks).
Proof.
  intros J I. unfold inorder. assert (filter (hk ks) (restrict T) = filter (hk ks) (restrict U)) as ->; [|reflexivity].
  unfold RecordProofs1.restrict. induction A as [|x l IH]; [reflexivity|]. cbn [filter]. destruct (smem x U) eqn:EU.
  - assert (smem x T = true) as -> by (apply smem_iff, J, smem_iff; exact EU). cbn [filter]. now rewrite IH.
  - destruct (smem x T) eqn:ET; [|exact IH]. cbn [filter]. rewrite (hk_out ks U x I); [exact IH|]. intro K. apply smem_iff in K. congruence.
Qed.
Lemma all_all n : all_term n.
Proof.
  induction n as [|n IH]; intros p ks G; [discriminate G|]. pose proof (all_term_particle n IH) as IHp. pose proof (all_sequence n IHp) as IHs.
  assert (G' := G). cbn [RecordProofs1.good] in G. apply andb_prop in G as [_ G]. unfold ttev.
  destruct (has_tag $"xsd:element" p) eqn:T1.
  { assert (tagsof (Datatypes.S n) p = match attr $"ref" p with Some r => [r] | None => [] end) as -> by (cbn [RecordProofs1.tagsof]; now rewrite T1).
    cbn [tev]. rewrite T1. apply streqb_eq in T1. destruct (attr $"ref" p) as [r|] eqn:R; [|discriminate G]. apply andb_prop in G as [G1 G2]. apply same_list_eq in G1. unfold inorder. rewrite G1, has_marks.
    rewrite (term_ref_inv F S p r _ T1 R). destruct (component S _ r) as [d|] eqn:C; [|discriminate G2]. cbn [filter]. split.
    - intros (d' & e & -> & [= <-] & <- & V). assert (hk [e] (xtag e) = true) as -> by (apply hk_in; now left). split; [reflexivity|]. split; [reflexivity|].
      constructor; [|constructor]. exists d. now split.
    - intros (O & H & K). rewrite H in O. destruct ks as [|e [|e' ks]]; cbn [map] in O; try discriminate O. injection O as O. inversion_clear K as [|? ? (d' & C' & V) _].
      rewrite O, C in C'. injection C' as <-. exists d, e. repeat split; assumption. }
  destruct (has_tag $"xsd:group" p) eqn:T2.
  { assert (tagsof (Datatypes.S n) p = match attr $"ref" p with Some r => match component S $"xsd:group" r with Some g => flat_map (tagsof n) (xkids g) | None => [] end | None => [] end) as ->
      by (cbn [RecordProofs1.tagsof]; now rewrite T1, T2).
    cbn [tev]. rewrite T1, T2. apply streqb_eq in T2. destruct (attr $"ref" p) as [r|] eqn:R; [|discriminate G]. destruct (component S $"xsd:group" r) as [g|] eqn:C; [|discriminate G].
    rewrite (term_group_inv F S p _ T2). specialize (IHs _ ks G). unfold ppev, pev in IHs. rewrite <- IHs. split.
    - intros (r' & g' & R' & C' & Q). rewrite R in R'. injection R' as <-. rewrite C in C'. now injection C' as <-.
    - intro Q. now exists r, g. }
  destruct (has_tag $"xsd:sequence" p) eqn:T3.
  { assert (tagsof (Datatypes.S n) p = flat_map (tagsof n) (xkids p)) as -> by (cbn [RecordProofs1.tagsof]; now rewrite T1, T2).
    cbn [tev]. rewrite T1, T2, T3. apply streqb_eq in T3. rewrite (term_sequence_inv F S p _ T3). exact (IHs _ ks G). }
  destruct (has_tag $"xsd:choice" p) eqn:T4; [|discriminate G].
  assert (tagsof (Datatypes.S n) p = flat_map (tagsof n) (xkids p)) as ET by (cbn [RecordProofs1.tagsof]; now rewrite T1, T2).
  cbn [tev]. rewrite T1, T2, T3. apply streqb_eq in T4. rewrite (term_choice_inv F S p _ T4). rewrite existsb_exists.
  rewrite forallb_forall in G.
  assert (forall q, In q (xkids p) -> incl (tagsof n q) (tagsof (Datatypes.S n) p)) as Inc by (intros q I; rewrite ET; intros x J; apply in_flat_map; exists q; now split).
  split.
  - intros (q & I & P). apply (IHp q ks (G q I)) in P as (P1 & P2 & P3). pose proof (inorder_incl _ _ P1) as Tq. split; [now apply (inorder_more _ (tagsof n q) ks (Inc q I) Tq)|]. split; [|exact P3].
    exists q. split; [exact I|]. apply andb_true_intro. split; [|exact P2]. apply absent_in. intros x J. apply filter_In in J as [_ J]. apply negb_true_iff in J. rewrite has_marks.
    apply (hk_out ks (tagsof n q) x Tq). intro K. apply smem_iff in K. congruence.
  - intros (O & (q & I & H) & K). apply andb_prop in H as [Ab H]. exists q. split; [exact I|]. apply (IHp q ks (G q I)).
    assert (incl (map xtag ks) (tagsof n q)) as Tq.
    { intros x J. destruct (smem x (tagsof n q)) eqn:E; [now apply smem_iff|]. exfalso. pose proof (inorder_incl _ _ O x J) as J'. rewrite absent_in in Ab.
      specialize (Ab x). rewrite has_marks in Ab. apply hk_in in J. rewrite Ab in J; [discriminate J|]. apply filter_In. split; [exact J'|]. now rewrite E. }
    split; [now apply (inorder_more _ (tagsof n q) ks (Inc q I) Tq)|]. split; [exact H|exact K].
Qed.
Lemma all_decided n ps ks : gseq A (good n) (tagsof n) ps = true ->
  (sequence F S ps ks <-> inorder (flat_map (tagsof n) ps) ks /\ forallb (ppev ks n) ps = true /\ Forall child_ok ks).
Proof. apply all_sequence, all_term_particle, all_all. Qed.
End All.
