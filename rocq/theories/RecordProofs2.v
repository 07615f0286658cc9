(** The conditions on the fields of a record, as formulas computed from the schema. *)
From Verif Require Import SchemaSpec PyStrProofs SchemaProofs3 RecordProofs1.
From Verif Require Import Schema XsdSpec SchemaSpec.
Local Open Scope nat_scope.

Inductive form := FHas (x : str) | FNone (l : list str) | FAll (l : list form) | FAny (l : list form).
Section Sem.
Variable h : str -> bool.
Fixpoint sem (f : form) : bool :=
  match f with
  | FHas x => h x
  | FNone l => forallb (fun x => negb (h x)) l
  | FAll l => forallb sem l
  | FAny l => existsb sem l
  end.
End Sem.
Section Compile.
Variable S : xml.
Definition oform (tf : xml -> form) (tg : xml -> list str) (p : xml) : form :=
  if attr_is $"minOccurs" $"0" p then FAny [FNone (tg p); tf p] else tf p.
Fixpoint tform (n : nat) (p : xml) : form :=
  match n with
  | O => FAny []
  | Datatypes.S n' =>
      if has_tag $"xsd:element" p then match attr $"ref" p with Some r => FHas r | None => FAny [] end
      else if has_tag $"xsd:group" p then
        match attr $"ref" p with
        | Some r => match component S $"xsd:group" r with Some g => FAll (map (oform (tform n') (tagsof S n')) (xkids g)) | None => FAny [] end
        | None => FAny [] end
      else if has_tag $"xsd:sequence" p then FAll (map (oform (tform n') (tagsof S n')) (xkids p))
      else FAny (map (fun q => FAll [FNone (filter (fun x => negb (smem x (tagsof S n' q))) (tagsof S n p)); oform (tform n') (tagsof S n') q]) (xkids p))
  end.
Definition pform (n : nat) : xml -> form := oform (tform n) (tagsof S n).
Variable txt : str -> str.
Lemma forallb_map' {X Y} (f : X -> Y) (g : Y -> bool) l : forallb g (map f l) = forallb (fun x => g (f x)) l.
Proof. induction l; [reflexivity|]. cbn [map forallb]. now rewrite IHl. Qed.
Lemma existsb_map' {X Y} (f : X -> Y) (g : Y -> bool) l : existsb g (map f l) = existsb (fun x => g (f x)) l.
Proof. induction l; [reflexivity|]. cbn [map existsb]. now rewrite IHl. Qed.
Lemma forallb_ext' {X} (f g : X -> bool) l : (forall x, f x = g x) -> forallb f l = forallb g l.
Proof. intro H. induction l; [reflexivity|]. cbn [forallb]. now rewrite H, IHl. Qed.
Lemma existsb_ext' {X} (f g : X -> bool) l : (forall x, f x = g x) -> existsb f l = existsb g l.
Proof. intro H. induction l; [reflexivity|]. cbn [existsb]. now rewrite H, IHl. Qed.
Lemma opt_sem t f g p : t p = sem (has txt) (f p) -> opt txt t g p = sem (has txt) (oform f g p).
Proof.
  intro H. unfold opt, oform. destruct (attr_is _ _ p); [|now rewrite H]. cbn [sem existsb andb]. unfold absent. now rewrite H, orb_false_r.
Qed.
Lemma tev_sem n : forall p, tev S txt n p = sem (has txt) (tform n p).
Proof.
  induction n as [|n IH]; intro p; [reflexivity|]. cbn [tev tform].
  assert (forall l, forallb (opt txt (tev S txt n) (tagsof S n)) l = sem (has txt) (FAll (map (oform (tform n) (tagsof S n)) l))) as K.
  { intro l. cbn [sem]. rewrite forallb_map'. apply forallb_ext'. intro x. now apply opt_sem. }
  destruct (has_tag _ p); [destruct (attr _ p); reflexivity|]. destruct (has_tag _ p).
  { destruct (attr _ p); [|reflexivity]. destruct (component S _ _); [apply K|reflexivity]. }
  destruct (has_tag _ p); [apply K|]. cbn [sem]. rewrite existsb_map'. apply existsb_ext'. intro q. cbn [sem forallb]. rewrite andb_true_r. f_equal. now apply opt_sem.
Qed.
Lemma pev_sem n p : pev S txt n p = sem (has txt) (pform n p).
Proof. unfold pev, pform. apply opt_sem, tev_sem. Qed.
End Compile.

(** the content model of a complex type *)
Definition model (S : xml) (t : str) : list xml :=
  match component S $"xsd:complexType" t with Some c => filter is_particle (xkids c) | None => [] end.
Definition plain_type (S : xml) (t : str) : bool :=
  match component S $"xsd:complexType" t with Some c => forallb (fun d => negb (has_tag $"xsd:attribute" d)) (xkids c) | None => false end &&
  negb (builtin t) && match component S $"xsd:simpleType" t with Some _ => false | None => true end.
Lemma complex_valid F S t e : plain_type S t = true -> xattrs e = [] ->
  (valid_type F S t e <-> blank_text (xtext e) = true /\ sequence F S (model S t) (xkids e)).
Proof.
  unfold plain_type, model. destruct (component S $"xsd:complexType" t) as [c|] eqn:C; [|intro H; discriminate H]. intros H A.
  apply andb_prop in H as [H H3]. apply andb_prop in H as [H1 H2]. apply negb_true_iff in H2. split.
  - intro V. apply valid_type_inv in V as [(Hs & _)|(ct & Co & B & _ & Sq)].
    + exfalso. apply simple_inv in Hs as [(d & D & _)|(st & u & m & D & _)].
      * apply derives_inv in D as [(B & _)|(st & r & b & d' & D & _)]; [congruence|]. rewrite D in H3. discriminate H3.
      * rewrite D in H3. discriminate H3.
    + rewrite C in Co. injection Co as <-. now split.
  - intros [B Sq]. apply (valid_complex F S t c e C B); [|exact Sq]. rewrite A. split; [intros k v []|].
    intros d I T _. rewrite forallb_forall in H1. specialize (H1 d I). unfold has_tag in H1. rewrite T in H1. discriminate H1.
Qed.
(** a record, for any schema and table *)
Definition missing (S : xml) (n : nat) (t : str) (A : list str) : list str := filter (fun x => negb (smem x (flat_map (tagsof S n) (model S t)))) A.
Definition record_ok (S : xml) (n : nat) (t : str) (A : list str) : bool :=
  plain_type S t && gseq A (good S A n) (tagsof S n) (model S t).
Lemma kids_all txt A U : absent txt (filter (fun x => negb (smem x U)) A) = true -> kids txt A = kids txt (restrict A U).
Proof.
  unfold restrict, kids. induction A as [|x l IH]; [reflexivity|]. cbn [filter flat_map]. destruct (smem x U) eqn:E; cbn [negb].
  - intro H. cbn [flat_map]. now rewrite IH.
  - unfold absent. cbn [forallb]. intro H. apply andb_prop in H as [H1 H2]. rewrite (IH H2). unfold has, kid in *. now destruct (txt x).
Qed.
Lemma record_decided F S n t A tag txt : record_ok S n t A = true ->
  (valid_type F S t (Elem tag [] [] (kids txt A)) <->
   absent txt (missing S n t A) = true /\ sem (has txt) (FAll (map (pform S n) (model S t))) = true /\
   fine_in F S txt (flat_map (tagsof S n) (model S t))).
Proof.
  intro H. apply andb_prop in H as [H1 H2]. rewrite (complex_valid F S t (Elem tag [] [] (kids txt A)) H1 eq_refl). cbn [xtext xkids].
  assert (sem (has txt) (FAll (map (pform S n) (model S t))) = forallb (pev S txt n) (model S t)) as ->.
  { cbn [sem]. rewrite forallb_map'. apply forallb_ext'. intro x. symmetry. apply pev_sem. }
  pose proof (sequence_decided F S A txt n (model S t) H2) as K. split.
  - intros [_ Sq]. assert (absent txt (missing S n t A) = true) as Ab.
    { apply absent_in. intros x I. apply filter_In in I as [I J]. apply negb_true_iff in J. destruct (has txt x) eqn:E; [|reflexivity]. exfalso.
      assert (In x (flat_map (tagsof S n) (model S t))) as L; [|apply smem_iff in L; congruence].
      apply (within_sequence F S n _ _ _ (gseq_within S A n _ H2) Sq). rewrite kids_tags. apply filter_In. now split. }
    split; [exact Ab|]. apply K. now rewrite <- (kids_all txt A _ Ab).
  - intros [Ab Q]. split; [reflexivity|]. rewrite (kids_all txt A _ Ab). now apply K.
Qed.
