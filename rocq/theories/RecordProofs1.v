(** Content models of records: an element with one leaf per field that has a
    text, in the order of a table.  Its validity is decided field by field. *)
From Verif Require Import SchemaSpec PyStrProofs SchemaProofs1 SchemaProofs2 SchemaProofs3.
From Verif Require Import Schema XsdSpec SchemaSpec.
Local Open Scope nat_scope.

Lemma smem_iff k l : smem k l = true <-> In k l.
Proof. unfold smem. rewrite existsb_exists. split; [intros (x & I & E); apply streqb_eq in E; now subst|intro I; exists k; split; [exact I|now apply streqb_eq]]. Qed.
Fixpoint same_list (a b : list str) : bool :=
  match a, b with [], [] => true | x :: a', y :: b' => if streqb x y then same_list a' b' else false | _, _ => false end.
Lemma same_list_eq a : forall b, same_list a b = true -> a = b.
Proof.
  induction a as [|x a IH]; intros [|y b] H; cbn [same_list] in H; try discriminate H; [reflexivity|].
  destruct (streqb x y) eqn:E; [|discriminate H]. apply streqb_eq in E. subst y. f_equal. now apply IH.
Qed.
Lemma split_unique (T1 T2 : list str) (a b k1 k2 : list xml) : a ++ b = k1 ++ k2 ->
  incl (map xtag a) T1 -> incl (map xtag k1) T1 -> incl (map xtag b) T2 -> incl (map xtag k2) T2 ->
  (forall x, In x T1 -> ~ In x T2) -> a = k1 /\ b = k2.
Proof.
  intros E A1 K1 B2 K2 D. apply app_eq_app in E as (l & [(-> & ->)|(-> & ->)]).
  - destruct l as [|x l]; [now rewrite app_nil_r|]. exfalso. apply (D (xtag x)).
    + apply A1. rewrite map_app. apply in_or_app. right. now left.
    + apply K2. now left.
  - destruct l as [|x l]; [now rewrite app_nil_r|]. exfalso. apply (D (xtag x)).
    + apply K1. rewrite map_app. apply in_or_app. right. now left.
    + apply B2. now left.
Qed.

Section Record.
Variable F : derivation -> str -> Prop.
Variable S : xml.
Variable A : list str.

(** the tags a particle offers *)
Fixpoint tagsof (n : nat) (p : xml) : list str :=
  match n with
  | O => []
  | Datatypes.S n' =>
      if has_tag $"xsd:element" p then match attr $"ref" p with Some r => [r] | None => [] end
      else if has_tag $"xsd:group" p then
        match attr $"ref" p with
        | Some r => match component S $"xsd:group" r with Some g => flat_map (tagsof n') (xkids g) | None => [] end
        | None => [] end
      else flat_map (tagsof n') (xkids p)
  end.
Definition restrict (T : list str) : list str := filter (fun x => smem x T) A.
Definition disjoint (a b : list str) : bool := forallb (fun x => negb (smem x b)) a.
Fixpoint gseq (f : xml -> bool) (g : xml -> list str) (ps : list xml) : bool :=
  match ps with
  | [] => true
  | p :: ps' => f p && gseq f g ps' && disjoint (g p) (flat_map g ps') &&
      same_list (restrict (g p ++ flat_map g ps')) (restrict (g p) ++ restrict (flat_map g ps'))
  end.
Fixpoint good (n : nat) (p : xml) : bool :=
  match n with
  | O => false
  | Datatypes.S n' =>
      negb (attr_is $"maxOccurs" $"unbounded" p) && within S n (tagsof n p) p &&
      (if has_tag $"xsd:element" p then
         match attr $"ref" p with
         | Some r => same_list (restrict [r]) [r] && match component S $"xsd:element" r with Some _ => true | None => false end
         | None => false end
       else if has_tag $"xsd:group" p then
         match attr $"ref" p with
         | Some r => match component S $"xsd:group" r with Some g => gseq (good n') (tagsof n') (xkids g) | None => false end
         | None => false end
       else if has_tag $"xsd:sequence" p then gseq (good n') (tagsof n') (xkids p)
       else if has_tag $"xsd:choice" p then forallb (good n') (xkids p)
       else false)
  end.

Variable txt : str -> str.
Definition has (x : str) : bool := match txt x with [] => false | _ => true end.
Definition kid (x : str) : list xml := match txt x with [] => [] | v => [Elem x [] v []] end.
Definition kids (l : list str) : list xml := flat_map kid l.
Definition absent (l : list str) : bool := forallb (fun x => negb (has x)) l.
Definition opt (tev : xml -> bool) (tg : xml -> list str) (p : xml) : bool :=
  (attr_is $"minOccurs" $"0" p && absent (tg p)) || tev p.
Fixpoint tev (n : nat) (p : xml) : bool :=
  match n with
  | O => false
  | Datatypes.S n' =>
      if has_tag $"xsd:element" p then match attr $"ref" p with Some r => has r | None => false end
      else if has_tag $"xsd:group" p then
        match attr $"ref" p with
        | Some r => match component S $"xsd:group" r with Some g => forallb (opt (tev n') (tagsof n')) (xkids g) | None => false end
        | None => false end
      else if has_tag $"xsd:sequence" p then forallb (opt (tev n') (tagsof n')) (xkids p)
      else existsb (fun q => absent (filter (fun x => negb (smem x (tagsof n' q))) (tagsof n p)) && opt (tev n') (tagsof n') q) (xkids p)
  end.
Definition pev (n : nat) : xml -> bool := opt (tev n) (tagsof n).
(** the leaf of a field is valid *)
Definition leaf_ok (x : str) : Prop :=
  exists d, component S $"xsd:element" x = Some d /\ valid_type F S (attr_text $"type" d) (Elem x [] (txt x) []).
Definition fine_in (l : list str) : Prop := forall x, In x l -> has x = true -> leaf_ok x.

Lemma kids_tags l : map xtag (kids l) = filter has l.
Proof.
  unfold kids. induction l as [|x l IH]; [reflexivity|]. cbn [flat_map filter]. rewrite map_app, IH. unfold kid, has. now destruct (txt x).
Qed.
Lemma kids_app a b : kids (a ++ b) = kids a ++ kids b. Proof. apply flat_map_app. Qed.
Lemma kids_incl T : incl (map xtag (kids (restrict T))) T.
Proof.
  rewrite kids_tags. intros x I. apply filter_In in I as [I _]. unfold restrict in I. apply filter_In in I as [_ I]. now apply smem_iff.
Qed.
Lemma kids_none l : absent l = true -> kids l = [].
Proof.
  unfold absent, kids. induction l as [|x l IH]; [reflexivity|]. cbn [forallb flat_map]. intro H. apply andb_prop in H as [H1 H2]. rewrite (IH H2), app_nil_r.
  unfold has, kid in *. now destruct (txt x).
Qed.
Lemma absent_in l : absent l = true <-> forall x, In x l -> has x = false.
Proof. unfold absent. rewrite forallb_forall. split; intros H x I; specialize (H x I); [now apply negb_true_iff|now apply negb_true_iff]. Qed.
Lemma absent_restrict T : absent T = true -> absent (restrict T) = true.
Proof. rewrite !absent_in. intros H x I. apply H. unfold restrict in I. apply filter_In in I as [_ I]. now apply smem_iff. Qed.
Lemma kids_empty l : kids l = [] -> absent l = true.
Proof.
  unfold absent, kids. induction l as [|x l IH]; [reflexivity|]. cbn [forallb flat_map]. intro H. apply app_eq_nil in H as [H1 H2]. rewrite (IH H2), andb_true_r.
  unfold has, kid in *. now destruct (txt x).
Qed.
(** every tag a good particle offers is in the table *)
Lemma same_restrict T : forall x, In x T -> In x (restrict T) <-> In x A.
Proof. intros x I. unfold restrict. rewrite filter_In, smem_iff. tauto. Qed.

Lemma within_particle n T p ks : within S n T p = true -> particle F S p ks -> incl (map xtag ks) T.
Proof. intros W H. exact (proj1 (proj2 (within_content S F T)) p ks H n W). Qed.
Lemma within_sequence n T ps ks : forallb (within S n T) ps = true -> sequence F S ps ks -> incl (map xtag ks) T.
Proof. intros W H. exact (proj1 (proj2 (proj2 (proj2 (within_content S F T)))) ps ks H n W). Qed.
Lemma within_more n : forall T T' p, incl T T' -> within S n T p = true -> within S n T' p = true.
Proof.
  induction n as [|n IH]; intros T T' p J H; [discriminate H|]. cbn [within] in *.
  assert (forall l, forallb (within S n T) l = true -> forallb (within S n T') l = true) as K.
  { intros l. rewrite !forallb_forall. intros G x I. apply (IH T T' x J). now apply G. }
  destruct (has_tag _ p).
  - destruct (attr $"ref" p); [apply smem_iff, J, smem_iff; exact H|]. destruct (attr $"name" p); [apply smem_iff, J, smem_iff; exact H|reflexivity].
  - destruct (has_tag _ p).
    + destruct (attr $"ref" p); [|reflexivity]. destruct (component S _ _); [|reflexivity]. now apply K.
    + destruct (has_tag _ p); [discriminate H|]. now apply K.
Qed.

Lemma particle_inv p ks : attr_is $"maxOccurs" $"unbounded" p = false ->
  (particle F S p ks <-> (attr_is $"minOccurs" $"0" p = true /\ ks = []) \/ term F S p ks).
Proof.
  intro U. split.
  - intro H. inversion H as [p' m ks' T O]; subst. destruct O as [O1 O2]. destruct m as [|m].
    + inversion T; subst. left. split; [|reflexivity]. destruct O1 as [O1|O1]; [exact O1|lia].
    + assert (m = 0) as -> by (destruct O2 as [O2|O2]; [congruence|lia]). inversion T as [|p' m' a b Ta Tb]; subst. inversion Tb; subst. rewrite app_nil_r. now right.
  - intros [(M & ->)|H].
    + apply (particle_times F S p 0); [constructor|]. split; [now left|right; lia].
    + apply (particle_times F S p 1); [|split; right; lia]. rewrite <- (app_nil_r ks). constructor; [exact H|constructor].
Qed.
Lemma sequence_inv ps ks : sequence F S ps ks <->
  match ps with [] => ks = [] | p :: ps' => exists a b, ks = a ++ b /\ particle F S p a /\ sequence F S ps' b end.
Proof.
  split.
  - intro H. inversion H as [|p ps' a b P Q]; subst; [reflexivity|]. now exists a, b.
  - destruct ps as [|p ps']; [intros ->; constructor|]. intros (a & b & -> & P & Q). now constructor.
Qed.
Lemma good_within n p : good n p = true -> within S n (tagsof n p) p = true /\ attr_is $"maxOccurs" $"unbounded" p = false.
Proof.
  destruct n; [intro H; discriminate H|]. cbn [good]. intro H. apply andb_prop in H as [H _]. apply andb_prop in H as [H1 H2].
  split; [exact H2|]. now apply negb_true_iff.
Qed.
Lemma gseq_within n ps : gseq (good n) (tagsof n) ps = true -> forallb (within S n (flat_map (tagsof n) ps)) ps = true.
Proof.
  induction ps as [|p ps IH]; [reflexivity|]. cbn [gseq forallb flat_map]. intro H. apply andb_prop in H as [H _]. apply andb_prop in H as [H _]. apply andb_prop in H as [H1 H2].
  apply andb_true_intro. split.
  - apply good_within in H1 as [W _]. apply (within_more n _ _ p (fun x I => in_or_app _ _ x (or_introl I)) W).
  - specialize (IH H2). rewrite forallb_forall in IH |- *. intros q I. apply (within_more n _ _ q (fun x J => in_or_app _ _ x (or_intror J))). now apply IH.
Qed.
Definition exact_term (n : nat) : Prop := forall p, good n p = true ->
  (term F S p (kids (restrict (tagsof n p))) <-> tev n p = true /\ fine_in (tagsof n p)).
Definition exact_particle (n : nat) : Prop := forall p, good n p = true ->
  (particle F S p (kids (restrict (tagsof n p))) <-> pev n p = true /\ fine_in (tagsof n p)).
Lemma good_in_table n : forall p, good n p = true -> incl (tagsof n p) A.
Proof.
  induction n as [|n IH]; intros p H; [discriminate H|]. cbn [good] in H. apply andb_prop in H as [_ H]. cbn [tagsof].
  assert (forall ps, gseq (good n) (tagsof n) ps = true -> incl (flat_map (tagsof n) ps) A) as K.
  { induction ps as [|q ps IHs]; [intros _ x []|]. cbn [gseq flat_map]. intro G. apply andb_prop in G as [G _]. apply andb_prop in G as [G _]. apply andb_prop in G as [G1 G2].
    apply incl_app; [now apply IH|now apply IHs]. }
  destruct (has_tag $"xsd:element" p).
  - destruct (attr $"ref" p) as [r|]; [|discriminate H]. apply andb_prop in H as [H _]. apply same_list_eq in H. intros x [<-|[]].
    assert (In r (restrict [r])) as I by (rewrite H; now left). unfold restrict in I. now apply filter_In in I.
  - destruct (has_tag $"xsd:group" p).
    + destruct (attr $"ref" p) as [r|]; [|discriminate H]. destruct (component S _ r) as [g|]; [|discriminate H]. now apply K.
    + destruct (has_tag $"xsd:sequence" p); [now apply K|]. destruct (has_tag $"xsd:choice" p); [|discriminate H].
      rewrite forallb_forall in H. intros x I. apply in_flat_map in I as (q & I & J). exact (IH q (H q I) x J).
Qed.
Lemma term_particle n : exact_term n -> exact_particle n.
Proof.
  intros E p G. destruct (good_within n p G) as [W U]. rewrite (particle_inv _ _ U), (E p G). unfold pev, opt.
  rewrite orb_true_iff, andb_true_iff. split.
  - intros [(M & K)|(T & K)].
    + apply kids_empty in K. assert (absent (tagsof n p) = true) as Ab.
      { apply absent_in. intros x I. apply (proj1 (absent_in _) K). apply same_restrict; [exact I|]. now apply (good_in_table n p). }
      split; [left; now split|]. intros x I H. rewrite (proj1 (absent_in _) Ab x I) in H. discriminate H.
    + split; [now right|exact K].
  - intros [[(M & Ab)|T] K].
    + left. split; [exact M|]. apply kids_none. now apply absent_restrict.
    + right. now split.
Qed.
Lemma fine_app a b : fine_in (a ++ b) <-> fine_in a /\ fine_in b.
Proof.
  unfold fine_in. split.
  - intro H. split; intros x I; apply H; apply in_or_app; [now left|now right].
  - intros [H1 H2] x I. apply in_app_or in I as [I|I]; [now apply H1|now apply H2].
Qed.
Lemma sequence_exact n : exact_particle n -> forall ps, gseq (good n) (tagsof n) ps = true ->
  (sequence F S ps (kids (restrict (flat_map (tagsof n) ps))) <-> forallb (pev n) ps = true /\ fine_in (flat_map (tagsof n) ps)).
Proof.
  intros E. induction ps as [|p ps IH]; intros G.
  - rewrite sequence_inv. cbn [flat_map forallb]. split; [intros _; split; [reflexivity|intros x []]|]. intros _. unfold restrict. cbn [smem existsb].
    assert (forall l : list str, filter (fun x => smem x []) l = []) as K by (induction l; [reflexivity|assumption]). now rewrite K.
  - pose proof (gseq_within n (p :: ps) G) as W0. cbn [gseq] in G. apply andb_prop in G as [G Sp]. apply andb_prop in G as [G D]. apply andb_prop in G as [G1 G2].
    apply same_list_eq in Sp. cbn [flat_map] in *. rewrite Sp, kids_app. rewrite sequence_inv, fine_app. cbn [forallb]. rewrite andb_true_iff.
    specialize (IH G2). pose proof (E p G1) as Ep. destruct (good_within n p G1) as [W U].
    split.
    + intros (a & b & Eq & P & Q).
      destruct (split_unique (tagsof n p) (flat_map (tagsof n) ps) a b _ _ (eq_sym Eq)) as [-> ->].
      * exact (within_particle n _ p a W P).
      * apply kids_incl.
      * exact (within_sequence n _ ps b (gseq_within n ps G2) Q).
      * apply kids_incl.
      * intros x I J. unfold disjoint in D. rewrite forallb_forall in D. specialize (D x I). apply negb_true_iff in D.
        pose proof (proj2 (smem_iff x _) J) as D'. congruence.
      * apply Ep in P. apply IH in Q. tauto.
    + intros [[P1 P2] [P3 P4]]. exists (kids (restrict (tagsof n p))), (kids (restrict (flat_map (tagsof n) ps))).
      split; [reflexivity|]. split; [now apply Ep|now apply IH].
Qed.
Lemma kids_narrow T U : incl U T -> absent (filter (fun x => negb (smem x U)) T) = true -> kids (restrict T) = kids (restrict U).
Proof.
  intros J Ab. rewrite absent_in in Ab. unfold restrict, kids. induction A as [|x l IH]; [reflexivity|]. cbn [filter].
  destruct (smem x U) eqn:EU.
  - assert (smem x T = true) as -> by (apply smem_iff, J, smem_iff; exact EU). cbn [flat_map]. now rewrite IH.
  - destruct (smem x T) eqn:ET; [|exact IH]. cbn [flat_map]. rewrite IH. replace (kid x) with (@nil xml); [reflexivity|].
    assert (has x = false) as H. { apply Ab. apply filter_In. split; [now apply smem_iff|now rewrite EU]. }
    unfold has, kid in *. now destruct (txt x).
Qed.
Lemma term_group_inv p ks : xtag p = $"xsd:group" -> (term F S p ks <->
  exists r g, attr $"ref" p = Some r /\ component S $"xsd:group" r = Some g /\ sequence F S (xkids g) ks).
Proof.
  intro T. split.
  - intro H. inversion H; subst; try (exfalso; match goal with Q : xtag p = _ |- _ => rewrite T in Q; discriminate Q end). eauto.
  - intros (r & g & H1 & H2 & H3). now apply (term_group F S p r g).
Qed.
Lemma term_sequence_inv p ks : xtag p = $"xsd:sequence" -> (term F S p ks <-> sequence F S (xkids p) ks).
Proof.
  intro T. split.
  - intro H. inversion H; subst; try (exfalso; match goal with Q : xtag p = _ |- _ => rewrite T in Q; discriminate Q end). assumption.
  - intro H. now apply term_sequence.
Qed.
Lemma term_choice_inv p ks : xtag p = $"xsd:choice" -> (term F S p ks <-> exists q, In q (xkids p) /\ particle F S q ks).
Proof.
  intro T. split.
  - intro H. inversion H; subst; try (exfalso; match goal with Q : xtag p = _ |- _ => rewrite T in Q; discriminate Q end). eauto.
  - intros (q & I & H). now apply (term_choice F S p q).
Qed.
Lemma term_ref_inv p r ks : xtag p = $"xsd:element" -> attr $"ref" p = Some r -> (term F S p ks <->
  exists d e, ks = [e] /\ component S $"xsd:element" r = Some d /\ xtag e = r /\ valid_type F S (attr_text $"type" d) e).
Proof.
  intros T R. split.
  - intro H. inversion H as [p' r' d e Tp Rp C E V|p' n' t' e Tp Rp|p' r' g ks' Tp|p' ks' Tp|p' q ks' Tp|p' ks1 ks2 Tp|p' e Tp].
    + rewrite R in Rp. injection Rp as ->. exists d, e. subst. repeat split; assumption.
    + rewrite R in Rp. discriminate Rp.
    + rewrite T in Tp. discriminate Tp.
    + rewrite T in Tp. discriminate Tp.
    + rewrite T in Tp. discriminate Tp.
    + rewrite T in Tp. discriminate Tp.
    + rewrite T in Tp. discriminate Tp.
  - intros (d & e & -> & C & E & V). now apply (term_ref F S p r d).
Qed.
Lemma all_exact n : exact_term n.
Proof.
  induction n as [|n IH]; intros p G; [discriminate G|]. pose proof (term_particle n IH) as IHp. pose proof (sequence_exact n IHp) as IHs.
  pose proof (good_within _ p G) as [W U].
  assert (G' := G). cbn [good] in G. apply andb_prop in G as [_ G].
  destruct (has_tag $"xsd:element" p) eqn:T1.
  { assert (tagsof (Datatypes.S n) p = match attr $"ref" p with Some r => [r] | None => [] end) as -> by (cbn [tagsof]; now rewrite T1).
    cbn [tev]. rewrite T1. apply streqb_eq in T1. destruct (attr $"ref" p) as [r|] eqn:R; [|discriminate G]. apply andb_prop in G as [G1 G2]. apply same_list_eq in G1. rewrite G1.
    rewrite (term_ref_inv p r _ T1 R). destruct (component S _ r) as [d|] eqn:C; [|discriminate G2].
    cbn [kids flat_map]. rewrite app_nil_r. unfold has, kid. split.
    - intros (d' & e & Eq & [= <-] & E & V). destruct (txt r) eqn:X; [discriminate Eq|]. injection Eq as <-. split; [reflexivity|].
      intros x [<-|[]] _. exists d. rewrite X. now split.
    - destruct (txt r) as [|c s] eqn:X; intros [H K]; [discriminate H|]. exists d. eexists. split; [reflexivity|]. split; [reflexivity|]. split; [reflexivity|].
      destruct (K r (or_introl eq_refl)) as (d' & C' & V); [unfold has; now rewrite X|]. rewrite C in C'. injection C' as <-. now rewrite X in V. }
  destruct (has_tag $"xsd:group" p) eqn:T2.
  { assert (tagsof (Datatypes.S n) p = match attr $"ref" p with Some r => match component S $"xsd:group" r with Some g => flat_map (tagsof n) (xkids g) | None => [] end | None => [] end) as ->
      by (cbn [tagsof]; now rewrite T1, T2).
    cbn [tev]. rewrite T1, T2. apply streqb_eq in T2. destruct (attr $"ref" p) as [r|] eqn:R; [|discriminate G]. destruct (component S $"xsd:group" r) as [g|] eqn:C; [|discriminate G].
    rewrite (term_group_inv p _ T2). specialize (IHs _ G). rewrite <- IHs. split.
    - intros (r' & g' & R' & C' & Q). rewrite R in R'. injection R' as <-. rewrite C in C'. now injection C' as <-.
    - intro Q. now exists r, g. }
  destruct (has_tag $"xsd:sequence" p) eqn:T3.
  { assert (tagsof (Datatypes.S n) p = flat_map (tagsof n) (xkids p)) as -> by (cbn [tagsof]; now rewrite T1, T2).
    cbn [tev]. rewrite T1, T2, T3. apply streqb_eq in T3. rewrite (term_sequence_inv p _ T3). exact (IHs _ G). }
  destruct (has_tag $"xsd:choice" p) eqn:T4; [|discriminate G].
  assert (tagsof (Datatypes.S n) p = flat_map (tagsof n) (xkids p)) as ET by (cbn [tagsof]; now rewrite T1, T2).
  cbn [tev]. rewrite T1, T2, T3. apply streqb_eq in T4. rewrite (term_choice_inv p _ T4). rewrite existsb_exists.
  rewrite forallb_forall in G. split.
  - intros (q & I & P). pose proof (G q I) as Gq. destruct (good_within n q Gq) as [Wq Uq]. pose proof (within_particle n _ q _ Wq P) as Inc.
    assert (absent (filter (fun x => negb (smem x (tagsof n q))) (tagsof (Datatypes.S n) p)) = true) as Ab.
    { apply absent_in. intros x J. apply filter_In in J as [J1 J2]. destruct (has x) eqn:H; [|reflexivity]. exfalso. apply negb_true_iff in J2.
      assert (In x (tagsof n q)) as J3; [|apply smem_iff in J3; congruence]. apply Inc. rewrite kids_tags. apply filter_In. split; [|exact H].
      apply same_restrict; [exact J1|]. now apply (good_in_table (Datatypes.S n) p). }
    rewrite (kids_narrow _ (tagsof n q)) in P; [|rewrite ET; intros x J; apply in_flat_map; exists q; now split|exact Ab]. apply (IHp q Gq) in P as [P1 P2]. split.
    + exists q. split; [exact I|]. now rewrite Ab.
    + intros x J H. apply P2; [|exact H]. destruct (smem x (tagsof n q)) eqn:E; [now apply smem_iff|].
      rewrite (proj1 (absent_in _) Ab x) in H; [discriminate H|]. apply filter_In. split; [exact J|]. now rewrite E.
  - intros ((q & I & H) & K). apply andb_prop in H as [Ab H]. exists q. split; [exact I|].
    assert (incl (tagsof n q) (tagsof (Datatypes.S n) p)) as Inc by (rewrite ET; intros x J; apply in_flat_map; exists q; now split).
    rewrite (kids_narrow _ (tagsof n q) Inc Ab). apply (IHp q (G q I)). split; [exact H|]. intros x J. apply K. now apply Inc.
Qed.
Lemma sequence_decided n ps : gseq (good n) (tagsof n) ps = true ->
  (sequence F S ps (kids (restrict (flat_map (tagsof n) ps))) <-> forallb (pev n) ps = true /\ fine_in (flat_map (tagsof n) ps)).
Proof. apply sequence_exact, term_particle, all_exact. Qed.
End Record.
