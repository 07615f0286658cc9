(** Documents: the elements above the records. *)
From Verif Require Import SchemaSpec PyStrProofs SchemaProofs3 RecordProofs1 RecordProofs2 RecordProofs4.
From Verif Require Import Schema XsdSpec SchemaSpec ValidSpec.
Local Open Scope nat_scope.

Section Elems.
Variable F : derivation -> str -> Prop.
Variable S : xml.

(** an element particle: its name and type *)
Definition pname (q : xml) : str := match attr $"ref" q with Some r => r | None => attr_text $"name" q end.
Definition ptype (q : xml) : str := match attr $"ref" q with Some r => type_of_tag S r | None => attr_text $"type" q end.
Definition elem_ok (q : xml) : bool :=
  has_tag $"xsd:element" q &&
  match attr $"ref" q with
  | Some r => declared S r
  | None => match attr $"name" q, attr $"type" q with Some _, Some _ => true | _, _ => false end
  end.
Definition fits (q e : xml) : Prop := xtag e = pname q /\ valid_type F S (ptype q) e.
Lemma attr_text_some k q v : attr k q = Some v -> attr_text k q = v.
Proof. unfold attr_text. now intros ->. Qed.
Lemma term_elem q ks : elem_ok q = true -> (term F S q ks <-> exists e, ks = [e] /\ fits q e).
Proof.
  intro H. apply andb_prop in H as [T H]. apply streqb_eq in T. unfold fits, pname, ptype. destruct (attr $"ref" q) as [r|] eqn:R.
  - rewrite (term_ref_inv F S q r ks T R). unfold declared in H. unfold type_of_tag. destruct (component S _ r) as [d|]; [|discriminate H]. split.
    + intros (d' & e & -> & E & X & V). injection E as <-. exists e. now split.
    + intros (e & -> & X & V). now exists d, e.
  - destruct (attr $"name" q) as [n|] eqn:N; [|discriminate H]. destruct (attr $"type" q) as [t|] eqn:Y; [|discriminate H].
    rewrite (attr_text_some _ _ _ N), (attr_text_some _ _ _ Y). split.
    + intro K. inversion K as [p' r' d e Tp Rp C E V|p' n' t' e Tp Rp Np Yp E V|p' r' g ks' Tp|p' ks' Tp|p' c ks' Tp|p' ks1 ks2 Tp|p' e Tp];
        try (exfalso; rewrite T in Tp; discriminate Tp).
      * rewrite R in Rp. discriminate Rp.
      * rewrite N in Np. rewrite Y in Yp. injection Np as ->. injection Yp as ->. now exists e.
    + intros (e & -> & X & V). now apply (term_local F S q n t e).
Qed.
Lemma times_elem q : elem_ok q = true -> forall n ks, times F S q n ks <-> length ks = n /\ Forall (fits q) ks.
Proof.
  intro H. induction n as [|n IH]; intro ks.
  - split; [intro T; inversion T; subst; now split|]. intros [L _]. destruct ks; [constructor|discriminate L].
  - split.
    + intro T. inversion T as [|p' m a b Ta Tb]; subst. apply (term_elem q a H) in Ta as (e & -> & X). apply IH in Tb as [L Y]. split; [cbn [app length]; now rewrite L|now constructor].
    + intros [L A]. destruct ks as [|k ks]; [discriminate L|]. inversion A; subst. change (k :: ks) with ([k] ++ ks). constructor.
      * apply (term_elem q _ H). now exists k.
      * apply IH. split; [now injection L|assumption].
Qed.
Lemma particle_elem q ks : elem_ok q = true -> (particle F S q ks <-> occurs q (length ks) /\ Forall (fits q) ks).
Proof.
  intro H. split.
  - intro P. inversion P as [p' n ks' T O]; subst. apply (times_elem q H) in T as [<- T]. now split.
  - intros [O A]. apply (particle_times F S q (length ks)); [|exact O]. now apply (times_elem q H).
Qed.

(** * xsd:all *)
Definition needed (q : xml) : bool := negb (attr_is $"minOccurs" $"0" q).
Definition once (q : xml) : bool := elem_ok q && negb (attr_is $"maxOccurs" $"unbounded" q).
Lemma once_elem q ks : once q = true -> (particle F S q ks <-> (ks = [] /\ needed q = false) \/ exists e, ks = [e] /\ fits q e).
Proof.
  intro H. apply andb_prop in H as [H U]. apply negb_true_iff in U. rewrite (particle_elem q ks H). unfold occurs, needed. rewrite U. split.
  - intros [[O1 O2] A]. destruct ks as [|k [|k' r]].
    + left. split; [reflexivity|]. destruct O1 as [-> |O1]; [reflexivity|cbn in O1; lia].
    + right. exists k. split; [reflexivity|]. now inversion A.
    + destruct O2 as [O2|O2]; [discriminate O2|cbn in O2; lia].
  - intros [[-> M]|(e & -> & X)].
    + apply negb_false_iff in M. split; [split; [now left|right; cbn; lia]|constructor].
    + split; [split; right; cbn; lia|constructor; [exact X|constructor]].
Qed.
Definition assorted (qs ks : list xml) : Prop :=
  NoDup (map xtag ks) /\ (forall k, In k ks -> exists q, In q qs /\ fits q k) /\ (forall q, In q qs -> needed q = true -> In (pname q) (map xtag ks)).
Lemma sequence_assorted qs : forall ks, forallb once qs = true -> NoDup (map pname qs) -> sequence F S qs ks -> assorted qs ks.
Proof.
  induction qs as [|q qs IH]; intros ks O N H; apply sequence_inv in H.
  - subst ks. split; [constructor|]. split; [intros k []|intros q []].
  - destruct H as (a & b & -> & P & Q). cbn [forallb] in O. apply andb_prop in O as [O1 O2]. cbn [map] in N. inversion N as [|x y N1 N2]; subst.
    apply (IH b O2 N2) in Q as (Q1 & Q2 & Q3). apply (once_elem q a O1) in P as [[-> M]|(e & -> & X)].
    + split; [exact Q1|]. split.
      * intros k I. destruct (Q2 k I) as (q' & I' & X). exists q'. split; [now right|exact X].
      * intros q' [<-|I'] M'; [congruence|]. exact (Q3 q' I' M').
    + split; [|split].
      * cbn [map app]. constructor; [|exact Q1]. rewrite (proj1 X). intro I. apply in_map_iff in I as (k & E & I). destruct (Q2 k I) as (q' & I' & X').
        apply N1. rewrite <- E, (proj1 X'). now apply in_map.
      * intros k [<-|I]; [exists q; split; [now left|exact X]|]. destruct (Q2 k I) as (q' & I' & X'). exists q'. split; [now right|exact X'].
      * intros q' [<-|I'] M'; [left; apply X|right; exact (Q3 q' I' M')].
Qed.
Lemma assorted_sequence qs : forall ks, forallb once qs = true -> NoDup (map pname qs) -> assorted qs ks -> exists ks', Permutation ks ks' /\ sequence F S qs ks'.
Proof.
  induction qs as [|q qs IH]; intros ks O N (A1 & A2 & A3).
  - exists ks. split; [reflexivity|]. apply sequence_inv. destruct ks as [|k ks]; [reflexivity|]. destruct (A2 k (or_introl eq_refl)) as (q & [] & _).
  - cbn [forallb] in O. apply andb_prop in O as [O1 O2]. cbn [map] in N. inversion N as [|x y N1 N2]; subst.
    destruct (in_dec (list_eq_dec Ascii.ascii_dec) (pname q) (map xtag ks)) as [I|I].
    + apply in_map_iff in I as (k & E & I). apply in_split in I as (l1 & l2 & ->).
      assert (Permutation (l1 ++ k :: l2) (k :: l1 ++ l2)) as P by (symmetry; apply Permutation_middle).
      assert (fits q k) as Fk.
      { destruct (A2 k) as (q' & [<-|I'] & X); [apply in_or_app; right; now left|exact X|]. exfalso. apply N1. rewrite <- E, (proj1 X). now apply in_map. }
      pose proof (Permutation_NoDup (Permutation_map xtag P) A1) as D. cbn [map] in D. inversion D as [|x y D1 D2]; subst.
      destruct (IH (l1 ++ l2) O2 N2) as (ks' & P' & Q').
      { split; [exact D2|]. split.
        - intros k' I'. destruct (A2 k') as (q' & [<-|J] & X); [apply (Permutation_in _ (Permutation_sym P)); now right| |now exists q'].
          exfalso. apply D1. rewrite E, <- (proj1 X). now apply in_map.
        - intros q' I' M. assert (In (pname q') (map xtag (k :: l1 ++ l2))) as J by (apply (Permutation_in _ (Permutation_map xtag P)), A3; [now right|exact M]).
          destruct J as [J|J]; [|exact J]. exfalso. apply N1. rewrite <- E, J. now apply in_map. }
      exists ([k] ++ ks'). split; [rewrite P; now constructor|]. constructor; [|exact Q']. apply (once_elem q _ O1). right. now exists k.
    + destruct (IH ks O2 N2) as (ks' & P' & Q').
      { split; [exact A1|]. split.
        - intros k I'. destruct (A2 k I') as (q' & [<-|J] & X); [|now exists q']. exfalso. apply I. rewrite <- (proj1 X). now apply in_map.
        - intros q' I' M. apply A3; [now right|exact M]. }
      exists ([] ++ ks'). split; [exact P'|]. constructor; [|exact Q']. apply (once_elem q _ O1). left. split; [reflexivity|].
      destruct (needed q) eqn:M; [|reflexivity]. exfalso. exact (I (A3 q (or_introl eq_refl) M)).
Qed.
Lemma all_inv p ks : xtag p = $"xsd:all" -> (term F S p ks <-> exists ks', Permutation ks ks' /\ sequence F S (xkids p) ks').
Proof.
  intro T. split.
  - intro H. inversion H; subst; try (exfalso; match goal with Q : xtag p = _ |- _ => rewrite T in Q; discriminate Q end). eauto.
  - intros (ks' & P & Q). now apply (term_all F S p ks ks').
Qed.
Fixpoint distinct (l : list str) : bool := match l with [] => true | x :: l' => negb (smem x l') && distinct l' end.
Lemma distinct_ok l : distinct l = true -> NoDup l.
Proof. induction l as [|x l IH]; [constructor|]. cbn [distinct]. intro H. apply andb_prop in H as [H1 H2]. constructor; [|now apply IH]. intro I. apply smem_iff in I. rewrite I in H1. discriminate H1. Qed.
Lemma assorted_perm qs ks ks' : Permutation ks ks' -> assorted qs ks -> assorted qs ks'.
Proof.
  intros P (A1 & A2 & A3). split; [exact (Permutation_NoDup (Permutation_map xtag P) A1)|]. split.
  - intros k I. apply A2. exact (Permutation_in _ (Permutation_sym P) I).
  - intros q I M. exact (Permutation_in _ (Permutation_map xtag P) (A3 q I M)).
Qed.
Definition all_ok (p : xml) : bool := has_tag $"xsd:all" p && forallb once (xkids p) && distinct (map pname (xkids p)).
Lemma all_decided p ks : all_ok p = true -> (term F S p ks <-> assorted (xkids p) ks).
Proof.
  intro H. apply andb_prop in H as [H N]. apply andb_prop in H as [T O]. apply streqb_eq in T. apply distinct_ok in N. rewrite (all_inv p ks T). split.
  - intros (ks' & P & Q). apply (assorted_perm _ ks' ks (Permutation_sym P)). now apply sequence_assorted.
  - intro A. now apply assorted_sequence.
Qed.
(** a type whose content is one particle, once *)
Definition single (t : str) (p : xml) : Prop := model S t = [p] /\ attr_is $"maxOccurs" $"unbounded" p = false /\ attr_is $"minOccurs" $"0" p = false.
Lemma plain_attrs t e : plain_type S t = true -> valid_type F S t e -> xattrs e = [].
Proof.
  intros P V. apply valid_type_inv in V as [(_ & _ & A)|(ct & C & _ & [A _] & _)]; [exact A|]. destruct (xattrs e) as [|[k v] l]; [reflexivity|]. exfalso.
  destruct (A k v (or_introl eq_refl)) as (d & I & T & _). unfold plain_type in P. rewrite C in P. apply andb_prop in P as [P _]. apply andb_prop in P as [P _].
  rewrite forallb_forall in P. specialize (P d I). unfold has_tag in P. rewrite T in P. discriminate P.
Qed.
Lemma single_valid t p e : plain_type S t = true -> single t p -> (valid_type F S t e <-> bare e /\ term F S p (xkids e)).
Proof.
  intros P (M & U & Z). split.
  - intro V. pose proof (plain_attrs t e P V) as A. apply (complex_valid F S t e P A) in V as [B Q]. rewrite M in Q. apply sequence_inv in Q as (a & b & E & Q & R). apply sequence_inv in R. subst b.
    rewrite app_nil_r in E. subst a. apply (particle_inv F S p _ U) in Q as [[Z' _]|Q]; [congruence|]. now repeat split.
  - intros ((A & B) & Q). apply (complex_valid F S t e P A). split; [exact B|]. rewrite M. rewrite <- (app_nil_r (xkids e)). constructor; [|constructor].
    apply (particle_inv F S p _ U). now right.
Qed.
Definition the (t : str) : xml := match model S t with p :: _ => p | [] => Elem [] [] [] [] end.
Definition single_b (t : str) : bool :=
  plain_type S t && match model S t with [p] => negb (attr_is $"maxOccurs" $"unbounded" p) && negb (attr_is $"minOccurs" $"0" p) | _ => false end.
Lemma single_the t e : single_b t = true -> (valid_type F S t e <-> bare e /\ term F S (the t) (xkids e)).
Proof.
  intro H. apply andb_prop in H as [P H]. apply (single_valid t (the t) e P). unfold single, the. destruct (model S t) as [|p [|]]; try discriminate H.
  apply andb_prop in H as [H1 H2]. apply negb_true_iff in H1, H2. now split.
Qed.
(** a type of parts in any order *)
Definition parts_type (t : str) : bool := single_b t && all_ok (the t).
Lemma parts_valid t e : parts_type t = true -> (valid_type F S t e <-> bare e /\ assorted (xkids (the t)) (xkids e)).
Proof. intro H. apply andb_prop in H as [H1 H2]. rewrite (single_the t e H1), (all_decided (the t) _ H2). reflexivity. Qed.
(** a type of one element, one or more times *)
Definition list_type (t : str) : bool :=
  single_b t && has_tag $"xsd:sequence" (the t) && match xkids (the t) with [q] => elem_ok q && needed q && attr_is $"maxOccurs" $"unbounded" q | _ => false end.
Definition the_item (t : str) : xml := match xkids (the t) with q :: _ => q | [] => Elem [] [] [] [] end.
Lemma list_valid t e : list_type t = true -> (valid_type F S t e <-> bare e /\ xkids e <> [] /\ Forall (fits (the_item t)) (xkids e)).
Proof.
  intro H. apply andb_prop in H as [H H2]. apply andb_prop in H as [H0 H1]. apply streqb_eq in H1. rewrite (single_the t e H0), (term_sequence_inv F S _ _ H1).
  unfold the_item. destruct (xkids (the t)) as [|q [|]]; try discriminate H2. apply andb_prop in H2 as [H2 U]. apply andb_prop in H2 as [K N]. apply negb_true_iff in N.
  assert (sequence F S [q] (xkids e) <-> particle F S q (xkids e)) as ->.
  { split.
    - intro Q. apply sequence_inv in Q as (a & b & E & Q & R). apply sequence_inv in R. subst b. now rewrite E, app_nil_r.
    - intro Q. rewrite <- (app_nil_r (xkids e)). constructor; [exact Q|constructor]. }
  rewrite (particle_elem q _ K). unfold occurs. rewrite U, N. split.
  - intros (B & [O _] & A). split; [exact B|]. split; [|exact A]. destruct O as [O|O]; [discriminate O|]. destruct (xkids e); [cbn in O; lia|discriminate].
  - intros (B & O & A). split; [exact B|]. split; [|exact A]. split; [right|now left]. destruct (xkids e); [now destruct O|cbn; lia].
Qed.
(** a choice of one element, one or more times *)
Definition data_type (t : str) : bool :=
  single_b t && has_tag $"xsd:choice" (the t) && forallb (fun q => elem_ok q && needed q && attr_is $"maxOccurs" $"unbounded" q) (xkids (the t)).
Lemma data_valid t e : data_type t = true -> (valid_type F S t e <-> bare e /\ xkids e <> [] /\ exists q, In q (xkids (the t)) /\ Forall (fits q) (xkids e)).
Proof.
  intro H. apply andb_prop in H as [H H2]. apply andb_prop in H as [H0 H1]. apply streqb_eq in H1. rewrite (single_the t e H0), (term_choice_inv F S _ _ H1).
  rewrite forallb_forall in H2. split.
  - intros (B & q & I & P). specialize (H2 q I). apply andb_prop in H2 as [H2 U]. apply andb_prop in H2 as [K N]. apply negb_true_iff in N.
    apply (particle_elem q _ K) in P as [[O _] A]. rewrite N in O. split; [exact B|]. split; [|now exists q]. destruct O as [O|O]; [discriminate O|]. destruct (xkids e); [cbn in O; lia|discriminate].
  - intros (B & O & q & I & A). split; [exact B|]. exists q. split; [exact I|]. specialize (H2 q I). apply andb_prop in H2 as [H2 U]. apply andb_prop in H2 as [K N].
    apply (particle_elem q _ K). split; [|exact A]. split; [right|now left]. destruct (xkids e); [now destruct O|cbn; lia].
Qed.
(** two elements, one after the other *)
Definition pair_type (t : str) : bool :=
  single_b t && has_tag $"xsd:sequence" (the t) && match xkids (the t) with [p; q] => once p && once q && needed p && needed q | _ => false end.
Lemma pair_valid t e : pair_type t = true -> (valid_type F S t e <-> bare e /\ exists p q a b, xkids (the t) = [p; q] /\ xkids e = [a; b] /\ fits p a /\ fits q b).
Proof.
  intro H. apply andb_prop in H as [H H2]. apply andb_prop in H as [H0 H1]. apply streqb_eq in H1. rewrite (single_the t e H0), (term_sequence_inv F S _ _ H1).
  destruct (xkids (the t)) as [|p [|q [|]]] eqn:K; try discriminate H2. apply andb_prop in H2 as [H2 N2]. apply andb_prop in H2 as [H2 N1]. apply andb_prop in H2 as [O1 O2]. split.
  - intros (B & Q). split; [exact B|]. apply sequence_inv in Q as (a & b & E & Q & R). apply sequence_inv in R as (b' & c & -> & R & Z). apply sequence_inv in Z. subst c. rewrite app_nil_r in E.
    apply (once_elem p a O1) in Q as [[_ M]|(x & -> & X)]; [congruence|]. apply (once_elem q b' O2) in R as [[_ M]|(y & -> & Y)]; [congruence|]. exists p, q, x, y. now split.
  - intros (B & p' & q' & a & b & E & -> & X & Y). injection E as <- <-. split; [exact B|]. change [a; b] with ([a] ++ [b] ++ []).
    constructor; [apply (once_elem p _ O1); right; now exists a|]. constructor; [apply (once_elem q _ O2); right; now exists b|]. constructor.
Qed.
(** any number of elements of several names, with attributes *)
Definition root_type (t : str) : bool :=
  match component S $"xsd:complexType" t with Some _ => true | None => false end && negb (builtin t) && match component S $"xsd:simpleType" t with Some _ => false | None => true end &&
  match model S t with [p] => has_tag $"xsd:choice" p && attr_is $"maxOccurs" $"unbounded" p && negb (attr_is $"minOccurs" $"0" p) && forallb once (xkids p) | _ => false end.
Definition may_be_empty (t : str) : bool := existsb (fun q => negb (needed q)) (xkids (the t)).
Lemma times_choice p : xtag p = $"xsd:choice" -> forallb once (xkids p) = true ->
  forall n ks, times F S p n ks -> (forall k, In k ks -> exists q, In q (xkids p) /\ fits q k) /\ (ks = [] -> n = 0 \/ existsb (fun q => negb (needed q)) (xkids p) = true).
Proof.
  intros T O. induction n as [|n IH]; intros ks H.
  - inversion H; subst. split; [intros k []|now left].
  - inversion H as [|p' m a b Ta Tb]; subst. apply (term_choice_inv F S p a T) in Ta as (q & I & P). rewrite forallb_forall in O. apply (once_elem q a (O q I)) in P. destruct (IH b Tb) as [IH1 _]. split.
    + intros k J. apply in_app_or in J as [J|J]; [|now apply IH1]. destruct P as [[-> _]|(e & -> & X)]; [destruct J|]. destruct J as [<-|[]]. now exists q.
    + intro E. right. apply app_eq_nil in E as [-> _]. destruct P as [[_ M]|(e & E & _)]; [|discriminate E]. apply existsb_exists. exists q. split; [exact I|]. now rewrite M.
Qed.
Lemma root_valid t ct e : root_type t = true -> component S $"xsd:complexType" t = Some ct ->
  (valid_type F S t e <-> blank_text (xtext e) = true /\ attributes_ok F S ct (xattrs e) /\
   (forall k, In k (xkids e) -> exists q, In q (xkids (the t)) /\ fits q k) /\ (xkids e = [] -> may_be_empty t = true)).
Proof.
  intros H C. unfold may_be_empty, the. apply andb_prop in H as [H H3]. apply andb_prop in H as [H H2]. apply andb_prop in H as [_ H1]. apply negb_true_iff in H1.
  destruct (model S t) as [|p [|]] eqn:M; try discriminate H3. apply andb_prop in H3 as [H3 O]. apply andb_prop in H3 as [H3 Z]. apply andb_prop in H3 as [T U]. apply streqb_eq in T. apply negb_true_iff in Z.
  assert (filter is_particle (xkids ct) = [p]) as M' by (unfold model in M; now rewrite C in M).
  assert (sequence F S [p] (xkids e) <-> particle F S p (xkids e)) as Sq.
  { split.
    - intro Q. apply sequence_inv in Q as (a & b & E & Q & R). apply sequence_inv in R. subst b. now rewrite E, app_nil_r.
    - intro Q. rewrite <- (app_nil_r (xkids e)). constructor; [exact Q|constructor]. }
  assert (forall k q, In q (xkids p) -> fits q k -> term F S p [k]) as One.
  { intros k q I X. apply (term_choice_inv F S p _ T). exists q. split; [exact I|]. rewrite forallb_forall in O. apply (once_elem q _ (O q I)). right. now exists k. }
  split.
  - intro V. apply valid_type_inv in V as [(Hs & _)|(ct' & Co & B & A & Q)].
    + exfalso. apply simple_inv in Hs as [(d & D & _)|(st & u & m & D & _)].
      * apply derives_inv in D as [(B & _)|(st & r & b & d' & D & _)]; [congruence|]. rewrite D in H2. discriminate H2.
      * rewrite D in H2. discriminate H2.
    + rewrite C in Co. injection Co as <-. rewrite M' in Q. apply Sq in Q. inversion Q as [p' n ks Tn [On _]]; subst. destruct (times_choice p T O n _ Tn) as [K1 K2].
      split; [exact B|]. split; [exact A|]. split; [exact K1|]. intro E. destruct (K2 E) as [-> |K]; [|exact K]. destruct On as [On|On]; [congruence|lia].
  - intros (B & A & K1 & K2). apply (valid_complex F S t ct e C B A). rewrite M'. apply Sq. destruct (xkids e) as [|k ks] eqn:E.
    + specialize (K2 eq_refl). apply existsb_exists in K2 as (q & I & N). apply (particle_times F S p 1); [|split; [right; lia|now left]]. change (@nil xml) with (@nil xml ++ []).
      constructor; [|constructor]. apply (term_choice_inv F S p _ T). exists q. split; [exact I|]. rewrite forallb_forall in O. apply (once_elem q _ (O q I)). left. split; [reflexivity|]. now destruct (needed q).
    + apply (particle_times F S p (length (k :: ks))); [|split; [right; cbn; lia|now left]]. clear E K2 B A Sq. revert K1. generalize (k :: ks). clear k ks. induction l as [|k l IH]; intro K1; [constructor|].
      change (k :: l) with ([k] ++ l). cbn [length app]. change (k :: l) with ([k] ++ l). constructor.
      * destruct (K1 k (or_introl eq_refl)) as (q & I & X). exact (One k q I X).
      * apply IH. intros k' I'. apply K1. now right.
Qed.
End Elems.
