(** Proofs about the element stack: heap -> zipper -> outline. *)
From Verif Require Import Xml XmlSpec.

(** induction principle for trees *)
Section XmlInd.
  Variable P : xml -> Prop.
  Hypothesis H : forall t a s ks, Forall P ks -> P (Elem t a s ks).
  Fixpoint xml_ind' (x : xml) : P x :=
    match x with
    | Elem t a s ks =>
        H t a s ks ((fix go (l : list xml) : Forall P l :=
                       match l with
                       | [] => Forall_nil P
                       | y :: l' => Forall_cons y (xml_ind' y) (go l')
                       end) ks)
    end.
End XmlInd.

(** * Zipper *)
Definition frame : Type := str * list (str * str) * str * list xml.
Definition push_kids (ks : list xml) (f : frame) : frame :=
  let '(t, a, x, k) := f in (t, a, x, k ++ ks).
Definition fclose (f : frame) : xml := let '(t, a, x, k) := f in Elem t a x k.
Fixpoint close_with (ks : list xml) (z : list frame) : option xml :=
  match z with
  | [] => None
  | f :: z' =>
      let e := fclose (push_kids ks f) in
      match z' with [] => Some e | _ => close_with [e] z' end
  end.

Definition z_addkids (ks : list xml) (z : list frame) : list frame :=
  match z with f :: z' => push_kids ks f :: z' | [] => [] end.
Definition z_pop (z : list frame) : option (list frame) :=
  match z with
  | f :: g :: z' => Some (push_kids [fclose f] g :: z')
  | _ => None
  end.
Definition z_op (o : op) (z : list frame) : option (list frame) :=
  match o with
  | OPop => z_pop z
  | OAdd t x a => Some (z_addkids [Elem t a x []] z)
  | OAddPush t x a => Some ((t, a, x, []) :: z)
  | OAddPopPush t x a => match z_pop z with Some z' => Some ((t, a, x, []) :: z') | None => None end
  | OAddList l => Some (z_addkids (map (fun kv => Elem (fst kv) [] (snd kv) []) l) z)
  end.

(** * Heap represents zipper *)
Inductive repr (h : list node) (O : list nat) : nat -> xml -> Prop :=
| repr_node i n ts : nth_error h i = Some n -> ~ In i O ->
    Forall (fun k => (i < k)%nat) (n_kids n) ->
    Forall2 (repr h O) (n_kids n) ts ->
    repr h O i (Elem (n_tag n) (n_attrs n) (n_text n) ts).

Section ReprInd.
  Variables (h : list node) (O : list nat) (P : nat -> xml -> Prop).
  Hypothesis H : forall i n ts, nth_error h i = Some n -> ~ In i O ->
    Forall (fun k => (i < k)%nat) (n_kids n) ->
    Forall2 (repr h O) (n_kids n) ts -> Forall2 P (n_kids n) ts ->
    P i (Elem (n_tag n) (n_attrs n) (n_text n) ts).
  Fixpoint repr_ind' i t (r : repr h O i t) : P i t :=
    match r in repr _ _ i t return P i t with
    | repr_node _ _ i n ts e ni lt f =>
        H i n ts e ni lt f
          ((fix go ks ts (f : Forall2 (repr h O) ks ts) : Forall2 P ks ts :=
              match f in Forall2 _ ks ts return Forall2 P ks ts with
              | Forall2_nil _ => Forall2_nil P
              | Forall2_cons k t r' f' => Forall2_cons k t (repr_ind' k t r') (go _ _ f')
              end) _ _ f)
    end.
End ReprInd.

Lemma Forall2_impl' {A B} (P Q : A -> B -> Prop) l m :
  (forall a b, P a b -> Q a b) -> Forall2 P l m -> Forall2 Q l m.
Proof. induction 2; constructor; auto. Qed.

Lemma repr_lt h O i t : repr h O i t -> (i < length h)%nat.
Proof. intros [j n ts E _ _ _]. apply nth_error_Some. congruence. Qed.

Lemma repr_heap h h' O O' i t :
  (forall j n, nth_error h j = Some n -> ~ In j O -> nth_error h' j = Some n /\ ~ In j O') ->
  repr h O i t -> repr h' O' i t.
Proof.
  intros K R. induction R using repr_ind'.
  destruct (K _ _ H H0). constructor; auto.
Qed.

Inductive chain (h : list node) (O : list nat) : list nat -> list nat -> list frame -> Prop :=
| ch_nil : chain h O [] [] []
| ch_cons extra i n ks ts os fs :
    nth_error h i = Some n -> n_kids n = ks ++ extra ->
    Forall (fun k => (i < k)%nat) (n_kids n) ->
    Forall2 (repr h O) ks ts ->
    Forall (fun j => (j < i)%nat) os ->
    chain h O (match os with [] => [] | _ => [i] end) os fs ->
    chain h O extra (i :: os) ((n_tag n, n_attrs n, n_text n, ts) :: fs).

Definition R (s : estack) (z : list frame) : Prop := chain (heap s) (opened s) [] (opened s) z.

Lemma chain_inv h O extra i os z : chain h O extra (i :: os) z ->
  exists n ts fs ks, z = (n_tag n, n_attrs n, n_text n, ts) :: fs /\
    nth_error h i = Some n /\ n_kids n = ks ++ extra /\
    Forall (fun k => (i < k)%nat) (n_kids n) /\ Forall2 (repr h O) ks ts /\
    Forall (fun j => (j < i)%nat) os /\
    chain h O (match os with [] => [] | _ => [i] end) os fs.
Proof. inversion 1; subst. exists n, ts, fs, ks. auto 10. Qed.

Lemma chain_heap h h' O O' extra os fs :
  (forall j n, nth_error h j = Some n -> ~ In j O -> nth_error h' j = Some n /\ ~ In j O') ->
  (forall j, In j os -> nth_error h j = nth_error h' j) ->
  chain h O extra os fs -> chain h' O' extra os fs.
Proof.
  intros K J C. induction C.
  - constructor.
  - econstructor; eauto.
    + rewrite <- J; [eauto | now left].
    + eapply Forall2_impl'; [|eauto]. intros a b. now apply repr_heap.
    + apply IHC. intros. apply J. now right.
Qed.

Lemma chain_lt h O extra os fs : chain h O extra os fs -> Forall (fun j => (j < length h)%nat) os.
Proof. induction 1; constructor; auto. apply nth_error_Some. congruence. Qed.

Lemma nth_update_ne {A} (f : A -> A) l : forall i j, i <> j -> nth_error (update i f l) j = nth_error l j.
Proof.
  induction l; intros [|i] [|j] N; simpl; auto; try congruence.
Qed.
Lemma nth_update_eq {A} (f : A -> A) l : forall i x, nth_error l i = Some x -> nth_error (update i f l) i = Some (f x).
Proof.
  induction l; intros [|i] x E; simpl in *; try discriminate; auto. now inversion E.
Qed.
Lemma update_length {A} (f : A -> A) l : forall i, length (update i f l) = length l.
Proof. induction l; intros [|i]; simpl; auto. Qed.

Lemma nth_extend_lt h i new j : (j < length h)%nat -> i <> j -> nth_error (extend i new h) j = nth_error h j.
Proof.
  intros L N. unfold extend. rewrite nth_error_app1 by now rewrite update_length.
  now apply nth_update_ne.
Qed.
Lemma nth_extend_eq h i new n : nth_error h i = Some n ->
  nth_error (extend i new h) i = Some (add_kids (seq (length h) (length new)) n).
Proof.
  intros E. assert (i < length h)%nat by (apply nth_error_Some; congruence).
  unfold extend. rewrite nth_error_app1 by now rewrite update_length.
  now apply nth_update_eq.
Qed.
Lemma nth_extend_new h i new k : nth_error (extend i new h) (length h + k) = nth_error new k.
Proof.
  unfold extend. rewrite nth_error_app2; rewrite update_length; [|lia]. f_equal. lia.
Qed.

Definition node_tree (n : node) : xml := Elem (n_tag n) (n_attrs n) (n_text n) [].

Lemma Forall_seq_ge i len : forall a, (i < a)%nat -> Forall (fun k => (i < k)%nat) (seq a len).
Proof. induction len; intros a La; simpl; constructor; auto. Qed.

Lemma Forall2_app_intro {A B} (P : A -> B -> Prop) a b c d :
  Forall2 P a c -> Forall2 P b d -> Forall2 P (a ++ b) (c ++ d).
Proof. apply Forall2_app. Qed.

(** adding fresh leaves under the top *)
Lemma chain_add h i os z ns :
  chain h (i :: os) [] (i :: os) z ->
  Forall (fun n => n_kids n = []) ns ->
  chain (extend i ns h) (i :: os) [] (i :: os) (z_addkids (map node_tree ns) z).
Proof.
  intros C F. destruct (chain_inv _ _ _ _ _ _ C) as (n & ts & fs & ks & -> & H2 & H3 & H4 & H5 & H7 & H9). simpl.
  assert (Li : (i < length h)%nat) by (apply nth_error_Some; congruence).
  rewrite app_nil_r in H3. subst ks.
  pose proof (nth_extend_eq h i ns n H2) as E.
  assert (K : forall O', (O' = i :: os) -> forall j n0, nth_error h j = Some n0 -> ~ In j (i :: os) ->
              nth_error (extend i ns h) j = Some n0 /\ ~ In j O').
  { intros O' -> j n0 Ej N. split; auto. rewrite nth_extend_lt; auto.
    - apply nth_error_Some; congruence.
    - intros ->. apply N. now left. }
  replace (n_tag n) with (n_tag (add_kids (seq (length h) (length ns)) n)) by reflexivity.
  replace (n_attrs n) with (n_attrs (add_kids (seq (length h) (length ns)) n)) by reflexivity.
  replace (n_text n) with (n_text (add_kids (seq (length h) (length ns)) n)) by reflexivity.
  eapply ch_cons with (ks := n_kids n ++ seq (length h) (length ns)); eauto.
  - simpl. now rewrite app_nil_r.
  - simpl. rewrite Forall_app. split; auto. now apply Forall_seq_ge.
  - apply Forall2_app_intro.
    + eapply Forall2_impl'; [|eauto]. intros a b. apply repr_heap. now apply K.
    + assert (G : forall pre suf, ns = pre ++ suf ->
        Forall2 (repr (extend i ns h) (i :: os)) (seq (length h + length pre) (length suf)) (map node_tree suf)).
      { intros pre suf. revert pre. induction suf as [|n0 suf IH]; intros pre E0; simpl; constructor.
        - assert (E1 : nth_error (extend i ns h) (length h + length pre) = Some n0).
          { rewrite nth_extend_new, E0, nth_error_app2, Nat.sub_diag; auto. }
          assert (Z0 : n_kids n0 = []).
          { rewrite Forall_forall in F. apply F. rewrite E0. apply in_or_app. right. now left. }
          unfold node_tree. constructor; auto.
          + intros [E2|I]; [lia|]. rewrite Forall_forall in H7. specialize (H7 _ I). lia.
          + rewrite Z0. constructor.
          + rewrite Z0. constructor.
        - specialize (IH (pre ++ [n0])). rewrite app_length in IH. simpl in IH.
          replace (S (length h + length pre)) with (length h + (length pre + 1))%nat by lia.
          apply IH. now rewrite <- app_assoc. }
      specialize (G [] ns eq_refl). simpl in G. now rewrite Nat.add_0_r in G.
  - eapply chain_heap; [apply K; reflexivity| |eauto].
    intros j I. rewrite nth_extend_lt; auto.
    + rewrite Forall_forall in H7. specialize (H7 _ I). lia.
    + intros ->. rewrite Forall_forall in H7. specialize (H7 _ I). lia.
Qed.

Lemma newElement_inv t x a n : newElement t x a = Ok n ->
  n = {| n_tag := t; n_attrs := a; n_text := x; n_kids := [] |}.
Proof. unfold newElement. destruct (_ && _); congruence. Qed.

Lemma makeElementList_inv l : forall ns, makeElementList l = Ok ns ->
  Forall (fun n => n_kids n = []) ns /\
  map node_tree ns = map (fun kv => Elem (fst kv) [] (snd kv) []) l.
Proof.
  induction l as [|[t v] l IH]; intros ns E; simpl in E.
  - inversion E. now split; constructor.
  - destruct (newElement t v []) eqn:E1; simpl in E; [|discriminate].
    destruct (makeElementList l) eqn:E2; simpl in E; [|discriminate].
    inversion E; subst. destruct (IH _ eq_refl) as [F M]. apply newElement_inv in E1. subst.
    split; [constructor; auto|]. simpl. now rewrite M.
Qed.

Lemma R_cons s z : R s z -> opened s = [] -> z = [].
Proof. unfold R. intros C E. rewrite E in C. now inversion C. Qed.

Lemma sim_pop s z s' : R s z -> es_pop s = Ok s' -> exists z', z_pop z = Some z' /\ R s' z'.
Proof.
  unfold R, es_pop. destruct s as [h [|i [|i' os]]]; simpl; try discriminate.
  intros C E. inversion E; subst; clear E. simpl.
  destruct (chain_inv _ _ _ _ _ _ C) as (n & ts & fs & ks & -> & H2 & H3 & H4 & H5 & H7 & H9).
  destruct (chain_inv _ _ _ _ _ _ H9) as (n0 & ts0 & fs0 & ks0 & -> & G2 & G3 & G4 & G5 & G7 & G9).
  eexists; split; [reflexivity|].
  assert (K : forall j n1, nth_error h j = Some n1 -> ~ In j (i :: i' :: os) ->
              nth_error h j = Some n1 /\ ~ In j (i' :: os)).
  { intros j n1 Ej N. split; auto. intros I. apply N. now right. }
  rewrite app_nil_r in H3. subst ks.
  eapply ch_cons with (ks := ks0 ++ [i]); eauto.
  - now rewrite app_nil_r.
  - apply Forall2_app_intro.
    + eapply Forall2_impl'; [|eauto]. intros a b. now apply repr_heap.
    + constructor; [|constructor]. simpl. constructor; auto.
      * intros [E2|I].
        -- rewrite Forall_forall in H7. specialize (H7 i' (or_introl eq_refl)). lia.
        -- rewrite Forall_forall in H7. specialize (H7 i (or_intror I)). lia.
      * eapply Forall2_impl'; [|eauto]. intros a b. now apply repr_heap.
  - eapply chain_heap; [exact K| |eauto]. auto.
Qed.

Lemma sim_push s z t x a s' : R s z -> opened s <> [] -> es_addPush t x a s = Ok s' ->
  R s' ((t, a, x, []) :: z).
Proof.
  unfold R, es_addPush. destruct s as [h [|i os]]; simpl; [congruence|].
  intros C _ E. destruct (newElement t x a) eqn:En; simpl in E; [|discriminate].
  apply newElement_inv in En. inversion E; subst; clear E. simpl.
  set (n := {| n_tag := t; n_attrs := a; n_text := x; n_kids := [] |}).
  pose proof (chain_lt _ _ _ _ _ C) as L.
  destruct (chain_inv _ _ _ _ _ _ C) as (n0 & ts & fs & ks & -> & H2 & H3 & H4 & H5 & H7 & H9).
  assert (Li : (i < length h)%nat) by (apply nth_error_Some; congruence).
  rewrite app_nil_r in H3. subst ks.
  pose proof (nth_extend_eq h i [n] n0 H2) as E. simpl in E.
  assert (Enew : nth_error (extend i [n] h) (length h) = Some n).
  { rewrite <- (Nat.add_0_r (length h)). now rewrite nth_extend_new. }
  assert (K : forall j n1, nth_error h j = Some n1 -> ~ In j (i :: os) ->
              nth_error (extend i [n] h) j = Some n1 /\ ~ In j (length h :: i :: os)).
  { intros j n1 Ej N. assert (j < length h)%nat by (apply nth_error_Some; congruence). split.
    - rewrite nth_extend_lt; auto. intros ->. apply N. now left.
    - intros [E2|I]; [lia|]. now apply N. }
  change t with (n_tag n) at 1. change a with (n_attrs n) at 1. change x with (n_text n) at 1.
  eapply ch_cons with (ks := []); eauto.
  - constructor.
  - replace (n_tag n0) with (n_tag (add_kids [length h] n0)) by reflexivity.
    replace (n_attrs n0) with (n_attrs (add_kids [length h] n0)) by reflexivity.
    replace (n_text n0) with (n_text (add_kids [length h] n0)) by reflexivity.
    eapply ch_cons with (ks := n_kids n0); eauto.
    + simpl. rewrite Forall_app. split; auto.
    + eapply Forall2_impl'; [|eauto]. intros a0 b. now apply repr_heap.
    + eapply chain_heap; [exact K| |eauto].
      intros j I. rewrite nth_extend_lt; auto.
      * rewrite Forall_forall in H7. specialize (H7 _ I). lia.
      * intros ->. rewrite Forall_forall in H7. specialize (H7 _ I). lia.
Qed.

Lemma sim_op o s z s' : R s z -> opened s <> [] -> run_op o s = Ok s' ->
  exists z', z_op o z = Some z' /\ R s' z' /\ opened s' <> [].
Proof.
  intros HR NE E. destruct o; simpl in E.
  - destruct (sim_pop _ _ _ HR E) as (z' & Ez & R'). exists z'. repeat split; auto.
    unfold es_pop in E. destruct (opened s) as [|? [|]]; inversion E; simpl; congruence.
  - unfold es_add in E. destruct s as [h [|i os]]; simpl in *; [congruence|].
    destruct (newElement tag text attrs) eqn:En; simpl in E; [|discriminate].
    apply newElement_inv in En. inversion E; subst.
    eexists; split; [reflexivity|]. split; [|simpl; congruence].
    unfold R; simpl. apply (chain_add h i os z [{| n_tag := tag; n_attrs := attrs; n_text := text; n_kids := [] |}] HR). repeat constructor.
  - eexists; split; [reflexivity|]. split; [now apply (sim_push _ _ _ _ _ _ HR NE)|].
    unfold es_addPush in E. destruct (newElement _ _ _); simpl in E; [|discriminate].
    destruct (opened s); inversion E; simpl; congruence.
  - unfold es_addPopPush in E. destruct (es_pop s) as [s1|] eqn:E1; simpl in E; [|discriminate].
    destruct (sim_pop _ _ _ HR E1) as (z' & Ez & R'). simpl. rewrite Ez.
    assert (N1 : opened s1 <> []).
    { unfold es_pop in E1. destruct (opened s) as [|? [|]]; inversion E1; simpl; congruence. }
    eexists; split; [reflexivity|]. split; [now apply (sim_push _ _ _ _ _ _ R' N1)|].
    unfold es_addPush in E. destruct (newElement _ _ _); simpl in E; [|discriminate].
    destruct (opened s1); inversion E; simpl; congruence.
  - destruct (makeElementList l) as [ns|] eqn:El; simpl in E; [|discriminate].
    destruct (makeElementList_inv _ _ El) as [F M].
    unfold es_addElementList in E. destruct s as [h [|i os]]; simpl in *; [congruence|].
    inversion E; subst. eexists; split; [reflexivity|]. split; [|simpl; congruence].
    unfold R; simpl. rewrite <- M. now apply chain_add.
Qed.

Fixpoint z_ops (os : list op) (z : list frame) : option (list frame) :=
  match os with
  | [] => Some z
  | o :: os' => match z_op o z with Some z' => z_ops os' z' | None => None end
  end.

Lemma sim_ops os : forall s z s', R s z -> opened s <> [] -> run_ops os s = Ok s' ->
  exists z', z_ops os z = Some z' /\ R s' z' /\ opened s' <> [].
Proof.
  induction os as [|o os IH]; intros s z s' HR NE E; simpl in E.
  - inversion E; subst. now exists z.
  - destruct (run_op o s) as [s1|] eqn:E1; simpl in E; [|discriminate].
    destruct (sim_op _ _ _ _ HR NE E1) as (z1 & Ez & R1 & N1). simpl. rewrite Ez. eauto.
Qed.

Lemma R_init t x a s : es_init t x a = Ok s -> R s [(t, a, x, [])] /\ opened s = [O].
Proof.
  unfold es_init. destruct (newElement t x a) eqn:En; simpl; [|discriminate].
  apply newElement_inv in En. intros E. inversion E; subst. split; [|reflexivity].
  unfold R; simpl.
  set (n := {| n_tag := t; n_attrs := a; n_text := x; n_kids := [] |}).
  change t with (n_tag n). change a with (n_attrs n). change x with (n_text n).
  eapply ch_cons with (ks := []); eauto; try constructor.
Qed.

(** * from the chain to the tree *)
Lemma tree_of_repr h O i t : repr h O i t -> forall f, (length h <= f + i)%nat -> tree_of f h i = t.
Proof.
  induction 1 using repr_ind'; intros f L.
  assert (i < length h)%nat by (apply nth_error_Some; congruence).
  destruct f as [|f]; [lia|]. simpl. rewrite H. f_equal.
  clear H2. induction H3 as [|k t ks ts Hk _ IH]; simpl; auto.
  inversion H1; subst. f_equal; auto.
  apply Hk. lia.
Qed.

Lemma chain_root h O extra ts os z : chain h O extra os z -> os <> [] ->
  (forall j, In j os -> ~ In j O) ->
  Forall2 (repr h O) extra ts ->
  exists i t, nth_error (rev os) 0 = Some i /\ close_with ts z = Some t /\ repr h O i t.
Proof.
  intros C. revert ts. induction C; intros us NE D F; [congruence|].
  assert (RR : repr h O i (fclose (push_kids us (n_tag n, n_attrs n, n_text n, ts)))).
  { simpl. constructor; auto.
    - apply D. now left.
    - rewrite H0. now apply Forall2_app_intro. }
  destruct os as [|j os].
  - inversion C; subst. exists i. eexists. split; [reflexivity|]. split; [reflexivity|exact RR].
  - inversion C; subst. specialize (IHC [fclose (push_kids us (n_tag n, n_attrs n, n_text n, ts))]).
    destruct IHC as (i0 & t & E1 & E2 & E3).
    + congruence.
    + intros k I. apply D. now right.
    + constructor; [exact RR|constructor].
    + exists i0, t. split; [|split; auto].
      change (rev (i :: j :: os)) with (rev (j :: os) ++ [i]). rewrite nth_error_app1; auto.
      apply nth_error_Some. congruence.
Qed.

Lemma chain_weaken h O O' extra os z : (forall j, In j O' -> In j O) ->
  chain h O extra os z -> chain h O' extra os z.
Proof. intros I. apply chain_heap; auto. Qed.

Lemma take_tree s z : R s z -> opened s <> [] ->
  exists t, close_with [] z = Some t /\
  es_takeTreeAndClear s = Ok (t, {| heap := heap s; opened := [] |}).
Proof.
  intros C NE. unfold R in C.
  apply (chain_weaken _ _ [] _ _ _ (fun j (b : In j []) => match b with end)) in C.
  destruct (chain_root _ _ _ [] _ _ C NE) as (i & t & E1 & E2 & E3); auto.
  exists t. split; auto. unfold es_takeTreeAndClear, pyindex.
  simpl (0 <? 0). simpl (if false then _ else _). simpl Z.to_nat. rewrite E1. simpl.
  rewrite (tree_of_repr _ _ _ _ E3); auto. lia.
Qed.

(** * outlines *)
Fixpoint z_outline (z : list frame) : list entry :=
  match z with
  | [] => []
  | (t, a, x, k) :: z' =>
      z_outline z' ++ (length z', t, a, x) :: flat_map (outline (S (length z'))) k
  end.

Lemma flat_map_app' {A B} (f : A -> list B) l m : flat_map f (l ++ m) = flat_map f l ++ flat_map f m.
Proof. induction l; simpl; auto. now rewrite IHl, app_assoc. Qed.

Lemma close_outline : forall z ks t, close_with ks z = Some t ->
  outline 0 t = z_outline z ++ flat_map (outline (length z)) ks.
Proof.
  induction z as [|[[[t a] x] k] z IH]; intros ks u E; simpl in E; [discriminate|].
  destruct z as [|g z].
  - inversion E; subst. simpl. now rewrite flat_map_app'.
  - apply IH in E. rewrite E. cbn [flat_map outline].
    cbn [z_outline]. destruct g as [[[tg ag] xg] kg].
    rewrite flat_map_app', app_nil_r, <- !app_assoc. cbn [length]. f_equal.
Qed.

Lemma z_outline_add ks : forall z, z <> [] -> z_outline (z_addkids ks z) = z_outline z ++ flat_map (outline (length z)) ks.
Proof.
  intros [|[[[t a] x] k] z] N; [congruence|]. simpl. rewrite flat_map_app', <- app_assoc. reflexivity.
Qed.

Lemma z_pop_len z z' : z_pop z = Some z' -> length z = S (length z') /\ z' <> [] /\ z_outline z' = z_outline z.
Proof.
  destruct z as [|[[[t a] x] k] [|[[[t2 a2] x2] k2] z]]; simpl; try discriminate.
  intros E; inversion E; subst. simpl. repeat split; try congruence.
  rewrite flat_map_app'. simpl. rewrite app_nil_r, <- !app_assoc. reflexivity.
Qed.

Lemma z_op_outline o z z' : z <> [] -> z_op o z = Some z' ->
  exists es, observe o (length z) = Some (length z', es) /\ z_outline z' = z_outline z ++ es /\ z' <> [].
Proof.
  intros N E. destruct o; cbn [z_op] in E.
  - destruct (z_pop_len _ _ E) as (L & N' & O). exists []. rewrite app_nil_r.
    destruct z as [|? [|]]; simpl in *; try discriminate. repeat split; auto. congruence.
  - inversion E; subst. exists [(length z, tag, attrs, text)]. rewrite z_outline_add by auto.
    destruct z as [|f z]; [congruence|]. simpl. destruct f as [[[? ?] ?] ?]. repeat split. congruence.
  - inversion E; subst. simpl. eexists. repeat split; auto. congruence.
  - destruct (z_pop z) as [z1|] eqn:Ep; [|discriminate]. inversion E; subst.
    destruct (z_pop_len _ _ Ep) as (L & N' & O).
    exists [(length z1, tag, attrs, text)]. simpl. rewrite O.
    destruct z as [|? [|]]; simpl in *; try discriminate.
    split; [|split; [reflexivity|congruence]].
    replace (length z1) with (S (length l)) by lia. reflexivity.
  - inversion E; subst. exists (map (fun kv => (length z, fst kv, [], snd kv)) l).
    rewrite z_outline_add by auto. simpl.
    destruct z as [|f z]; [congruence|]. simpl. destruct f as [[[? ?] ?] ?]. repeat split; [|congruence].
    simpl. f_equal.
    assert (G : forall d, flat_map (outline d) (map (fun kv : str * str => Elem (fst kv) [] (snd kv) []) l)
      = map (fun kv => (d, fst kv, [], snd kv)) l) by (intros d; induction l; simpl; auto; now rewrite IHl).
    apply G.
Qed.

Lemma z_ops_outline os : forall z z', z <> [] -> z_ops os z = Some z' ->
  exists es, observes os (length z) = Some (length z', es) /\ z_outline z' = z_outline z ++ es /\ z' <> [].
Proof.
  induction os as [|o os IH]; intros z z' N E; simpl in E.
  - inversion E; subst. exists []. rewrite app_nil_r. auto.
  - destruct (z_op o z) as [z1|] eqn:E1; [|discriminate].
    destruct (z_op_outline _ _ _ N E1) as (e1 & O1 & P1 & N1).
    destruct (IH _ _ N1 E) as (e2 & O2 & P2 & N2).
    exists (e1 ++ e2). cbn [observes]. rewrite O1, O2. rewrite P2, P1, <- app_assoc. auto.
Qed.

Lemma chain_length h O e os z : chain h O e os z -> length os = length z.
Proof. induction 1; simpl; auto. Qed.

Lemma stack_tree t x a s0 os s :
  es_init t x a = Ok s0 -> run_ops os s0 = Ok s ->
  exists d es tr s', observes os 1 = Some (d, es) /\ length (opened s) = d /\
    es_takeTreeAndClear s = Ok (tr, s') /\ opened s' = [] /\
    outline 0 tr = (O, t, a, x) :: es.
Proof.
  intros I E. destruct (R_init _ _ _ _ I) as [R0 O0].
  destruct (sim_ops os s0 _ s R0) as (z & Ez & Rz & Nz); auto; [rewrite O0; congruence|].
  destruct (z_ops_outline os [(t,a,x,[])] z) as (es & Oe & Pe & Ne); auto; [congruence|].
  destruct (take_tree _ _ Rz Nz) as (tr & Ec & Et).
  exists (length z), es, tr. eexists. repeat split; eauto.
  - unfold R in Rz. eapply chain_length; eauto.
  - rewrite (close_outline _ _ _ Ec). simpl. rewrite app_nil_r, Pe. reflexivity.
Qed.

(** * which sequences are refused *)
Lemma newElement_ok t x a : is_ok (newElement t x a) =
  valid_name t && valid_text x && forallb (fun kv => valid_name (fst kv) && valid_text (snd kv)) a.
Proof. unfold newElement. destruct (_ && _); reflexivity. Qed.

Lemma newElement_ex t x a :
  valid_name t && valid_text x && forallb (fun kv => valid_name (fst kv) && valid_text (snd kv)) a = true ->
  exists n, newElement t x a = Ok n.
Proof. unfold newElement. intros ->. eauto. Qed.

Lemma makeElementList_ex l : op_valid (OAddList l) = true -> exists ns, makeElementList l = Ok ns.
Proof.
  simpl. induction l as [|[t v] l IH]; simpl; eauto. rewrite andb_true_iff. intros [V W].
  destruct (newElement_ex t v []) as [n ->]; [simpl; now rewrite andb_true_r|].
  destruct (IH W) as [ns ->]. simpl. eauto.
Qed.

Lemma makeElementList_valid l : is_ok (makeElementList l) = op_valid (OAddList l).
Proof.
  simpl. induction l as [|[t v] l IH]; simpl; auto.
  destruct (newElement t v []) eqn:E; pose proof (newElement_ok t v []) as K; rewrite E in K; simpl in K;
    rewrite andb_true_r in K; rewrite <- K; simpl; auto.
  rewrite <- IH. destruct (makeElementList l); auto.
Qed.

Lemma run_op_ok o s : opened s <> [] ->
  is_ok (run_op o s) = op_valid o && match observe o (length (opened s)) with Some _ => true | None => false end.
Proof.
  intros N. destruct s as [h [|i os]]; simpl in *; [congruence|].
  destruct o; simpl.
  - unfold es_pop; simpl. destruct os; reflexivity.
  - unfold es_add; simpl. rewrite <- newElement_ok. destruct (newElement _ _ _); reflexivity.
  - unfold es_addPush. rewrite <- newElement_ok. destruct (newElement _ _ _); reflexivity.
  - unfold es_addPopPush, es_pop; simpl. destruct os; simpl; [now rewrite andb_false_r|].
    unfold es_addPush. rewrite <- newElement_ok. destruct (newElement _ _ _); reflexivity.
  - rewrite andb_true_r. pose proof (makeElementList_valid l) as K. simpl in K. rewrite <- K.
    destruct (makeElementList l); reflexivity.
Qed.

Lemma run_op_depth o s s' : opened s <> [] -> run_op o s = Ok s' ->
  exists es, observe o (length (opened s)) = Some (length (opened s'), es) /\ opened s' <> [].
Proof.
  intros N. destruct s as [h [|i os]]; simpl in *; [congruence|].
  destruct o; simpl.
  - unfold es_pop; simpl. destruct os; simpl; [discriminate|]. intros E; inversion E; simpl. eexists; split; auto. congruence.
  - unfold es_add; simpl. destruct (newElement _ _ _); simpl; [|discriminate]. intros E; inversion E; simpl. eexists; split; auto; congruence.
  - unfold es_addPush; simpl. destruct (newElement _ _ _); simpl; [|discriminate]. intros E; inversion E; simpl. eexists; split; auto; congruence.
  - unfold es_addPopPush, es_pop; simpl. destruct os; simpl; [discriminate|].
    unfold es_addPush; simpl. destruct (newElement _ _ _); simpl; [|discriminate]. intros E; inversion E; simpl. eexists; split; auto; congruence.
  - destruct (makeElementList l); simpl; [|discriminate]. intros E; inversion E; simpl. eexists; split; auto; congruence.
Qed.

Lemma run_ops_ok os : forall s, opened s <> [] ->
  is_ok (run_ops os s) = true <->
  (forallb op_valid os = true /\ observes os (length (opened s)) <> None).
Proof.
  induction os as [|o os IH]; intros s N.
  - simpl. split; auto. intros _. split; auto. congruence.
  - cbn [run_ops forallb observes]. pose proof (run_op_ok o s N) as K.
    destruct (run_op o s) as [s1|e] eqn:E; simpl in K.
    + destruct (run_op_depth _ _ _ N E) as (es & O & N1). rewrite O in *. rewrite andb_true_r in K.
      rewrite <- K. simpl. rewrite (IH s1 N1).
      destruct (observes os (length (opened s1))) as [[? ?]|]; split; intros [A B]; split; auto; congruence.
    + simpl. split; [discriminate|]. intros [A B]. apply andb_prop in A as [A1 A2]. rewrite A1 in K.
      simpl in K. destruct (observe o (length (opened s))); [discriminate|congruence].
Qed.

Lemma pop_iff s : opened s <> [] ->
  (es_pop s = Err RuntimeError <-> length (opened s) = 1%nat) /\
  (forall e, es_pop s = Err e -> e = RuntimeError).
Proof.
  unfold es_pop. destruct (opened s) as [|i [|j os]]; intros N; [congruence| |]; simpl; split; try split; intros; auto; congruence.
Qed.

(** * outlines determine trees *)
Lemma outline_head d x : exists es, outline d x = (d, xtag x, xattrs x, xtext x) :: es.
Proof. destruct x; simpl; eauto. Qed.

Lemma outline_depth : forall x d, Forall (fun e : entry => (d < fst (fst (fst e)))%nat) (tl (outline d x)) .
Proof.
  induction x using xml_ind'; intros d; simpl.
  induction H as [|x ks Hx Hk IH]; simpl; [constructor|].
  rewrite Forall_app. split; auto.
  destruct x as [t0 a0 s0 k0]. specialize (Hx (S d)). simpl in *. constructor; simpl; [lia|].
  eapply Forall_impl; [|exact Hx]. intros e. simpl. lia.
Qed.

Lemma split_deeper d (p q : list entry) p' q' :
  Forall (fun e : entry => (d < fst (fst (fst e)))%nat) p ->
  Forall (fun e : entry => (d < fst (fst (fst e)))%nat) q ->
  (p' = [] \/ exists e r, p' = e :: r /\ fst (fst (fst e)) = d) ->
  (q' = [] \/ exists e r, q' = e :: r /\ fst (fst (fst e)) = d) ->
  p ++ p' = q ++ q' -> p = q /\ p' = q'.
Proof.
  intros P. revert q. induction P as [|e p He P IH]; intros q Q P' Q' E; simpl in E.
  - destruct Q as [|e q He Q]; simpl in E; auto.
    destruct P' as [->|(f & r & -> & Hf)]; inversion E; subst. simpl in *. lia.
  - destruct Q as [|g q Hg Q]; simpl in E.
    + destruct Q' as [->|(f & r & -> & Hf)]; inversion E; subst. lia.
    + inversion E; subst. destruct (IH q Q P' Q' H1) as [-> ->]. auto.
Qed.

Lemma flat_outline_head d ks : flat_map (outline d) ks = [] \/
  exists e r, flat_map (outline d) ks = e :: r /\ fst (fst (fst e)) = d.
Proof.
  destruct ks as [|k ks]; [now left|]. right. simpl. destruct (outline_head d k) as [es ->].
  simpl. eauto.
Qed.

Lemma outline_inj : forall x d y, outline d x = outline d y -> x = y.
Proof.
  induction x using xml_ind'; intros d [t' a' s' ks'] E. simpl in E. inversion E; subst. f_equal.
  clear E. revert ks' H4. induction H as [|x ks Hx Hk IH]; intros ks' E.
  - destruct ks' as [|y ks']; auto. simpl in E. destruct (outline_head (S d) y) as [es Ey]. rewrite Ey in E. discriminate.
  - destruct ks' as [|y ks']; [simpl in E; destruct (outline_head (S d) x) as [es Ey]; rewrite Ey in E; discriminate|].
    simpl in E.
    destruct (outline_head (S d) x) as [ex Ex], (outline_head (S d) y) as [ey Ey].
    pose proof (outline_depth x (S d)) as Dx. pose proof (outline_depth y (S d)) as Dy.
    rewrite Ex in E, Dx. rewrite Ey in E, Dy. simpl in E, Dx, Dy. inversion E.
    assert (G : ex = ey /\ flat_map (outline (S d)) ks = flat_map (outline (S d)) ks').
    { apply (split_deeper (S d)); auto using flat_outline_head. }
    destruct G as [G1 G2]. f_equal; [|auto].
    apply (Hx (S d)). rewrite Ex, Ey. congruence.
Qed.

(** * recursive descent *)
Fixpoint script (x : xml) : list op :=
  match x with
  | Elem t a s ks => OAddPush t s a :: flat_map script ks ++ [OPop]
  end.
Fixpoint xml_valid (x : xml) : bool :=
  match x with
  | Elem t a s ks =>
      valid_name t && valid_text s
      && forallb (fun kv => valid_name (fst kv) && valid_text (snd kv)) a
      && forallb xml_valid ks
  end.

Lemma observes_app os1 : forall os2 d, observes (os1 ++ os2) d =
  match observes os1 d with
  | Some (d', e) => match observes os2 d' with Some (d'', e') => Some (d'', e ++ e') | None => None end
  | None => None
  end.
Proof.
  induction os1 as [|o os1 IH]; intros os2 d; simpl.
  - destruct (observes os2 d) as [[? ?]|]; auto.
  - destruct (observe o d) as [[d' e]|]; auto. rewrite IH.
    destruct (observes os1 d') as [[d2 e2]|]; auto.
    destruct (observes os2 d2) as [[d3 e3]|]; auto. now rewrite app_assoc.
Qed.

Lemma observes_script : forall x d, observes (script x) (S d) = Some (S d, outline (S d) x).
Proof.
  induction x using xml_ind'; intros d. cbn [script outline].
  change (OAddPush t s a :: flat_map script ks ++ [OPop]) with ([OAddPush t s a] ++ flat_map script ks ++ [OPop]).
  rewrite observes_app. cbn [observes observe].
  rewrite observes_app.
  assert (G : observes (flat_map script ks) (S (S d)) = Some (S (S d), flat_map (outline (S (S d))) ks)).
  { induction H as [|x ks Hx Hk IH]; auto. cbn [flat_map]. rewrite observes_app, Hx, IH. reflexivity. }
  rewrite G. cbn. now rewrite app_nil_r.
Qed.

Lemma observes_scripts ks d : observes (flat_map script ks) (S d) = Some (S d, flat_map (outline (S d)) ks).
Proof. induction ks as [|x ks IH]; auto. cbn [flat_map]. now rewrite observes_app, observes_script, IH. Qed.

Lemma script_valid : forall x, forallb op_valid (script x) = xml_valid x.
Proof.
  induction x using xml_ind'. cbn [script xml_valid forallb op_valid].
  rewrite forallb_app. cbn. rewrite andb_true_r. f_equal.
  induction H as [|x ks Hx Hk IH]; auto. cbn [flat_map forallb]. now rewrite forallb_app, Hx, IH.
Qed.

Lemma recursive_descent t a x ks : xml_valid (Elem t a x ks) = true ->
  exists s0 s s', es_init t x a = Ok s0 /\ run_ops (flat_map script ks) s0 = Ok s /\
  es_takeTreeAndClear s = Ok (Elem t a x ks, s').
Proof.
  intros V. cbn [xml_valid] in V. apply andb_prop in V as [V1 V2].
  destruct (newElement_ex t x a V1) as [n En].
  assert (I : exists s0, es_init t x a = Ok s0) by (unfold es_init; rewrite En; simpl; eauto).
  destruct I as [s0 I]. destruct (R_init _ _ _ _ I) as [_ O0].
  assert (K : is_ok (run_ops (flat_map script ks) s0) = true).
  { apply run_ops_ok; rewrite O0; [congruence|]. split.
    - clear -V2. induction ks as [|k ks IH]; auto. cbn in V2. apply andb_prop in V2 as [A B].
      cbn [flat_map]. now rewrite forallb_app, script_valid, A, IH.
    - simpl length. rewrite observes_scripts. congruence. }
  destruct (run_ops (flat_map script ks) s0) as [s|] eqn:E; [|discriminate].
  destruct (stack_tree _ _ _ _ _ _ I E) as (d & es & tr & s' & Ob & L & Et & _ & Ou).
  rewrite observes_scripts in Ob. inversion Ob; subst.
  exists s0, s, s'. repeat split; auto. rewrite Et. repeat f_equal.
  apply (outline_inj _ 0). now rewrite Ou.
Qed.
