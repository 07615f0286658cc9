From Verif Require Import PyStrProofs.
From Verif Require Import Mpc80.
From Verif Require Export Mpc80Spec DocSpec XmlSpec XmlProofs.
Local Open Scope nat_scope.

(** * The records of a file *)
Definition present (k : str) (d : item) : Prop := exists v, dget k d = Some (@Some str v).
(** what the reader hands to the converter: a header; a radar record; an optical
    record of one of these kinds *)
Definition record_of_file (d : item) : Prop :=
  (exists k v, d = texts [($"headerKeyword", k); ($"headerValue", v); ($"code", $"0")]) \/
  is_kind "R" d = true \/
  (exists c, dget $"code" d = Some (@Some str [c]) /\ In c $"A PeCBTMcEOHNnSVXx") /\
  present $"astCat" d /\ present $"mag" d /\ present $"band" d /\ present $"notes" d /\ present $"stn" d /\
  present $"packedref" d /\ (exists p, program d = Ok p) /\ (is_kind "V" d = true -> present $"pos3" d) /\
  dget $"mode" d = None /\ dget $"prog" d = None /\ dget $"ref" d = None /\ dget $"deprecated" d = None /\ dget $"subFrm" d = None.


(** * Stack operations in the converter *)
Record is_at (s : cstate) (z : list frame) (fe fo io : bool) (co : list str) (cx : list (str * list (str * str))) (se : list str) : Prop := {
  at_R : R (c_stack s) z; at_open : opened (c_stack s) <> [];
  at_fe : c_firstElement s = fe; at_fo : c_firstObsBlock s = fo; at_io : c_inObsBlock s = io;
  at_co : c_comments s = co; at_cx : c_context s = cx; at_se : c_seen s = se }.

Lemma newElement_err t x a e : newElement t x a = Err e -> e = ValueError.
Proof. unfold newElement. destruct (_ && _); [discriminate|]. now intros [= <-]. Qed.
Lemma makeElementList_err l e : makeElementList l = Err e -> e = ValueError.
Proof.
  induction l as [|[t v] l IH]; cbn; [discriminate|]. destruct (newElement t v []) eqn:E; cbn.
  - destruct (makeElementList l); cbn; [discriminate|]. intros [= <-]. auto.
  - intros [= <-]. eapply newElement_err; eauto.
Qed.
Lemma run_op_err o s e : opened s <> [] -> observe o (length (opened s)) <> None -> run_op o s = Err e -> e = ValueError.
Proof.
  intros N O. destruct s as [h [|i os]]; [now destruct N|]. destruct o; cbn in *.
  - unfold es_pop; cbn. destruct os; cbn in O; [congruence|discriminate].
  - unfold es_add; cbn. destruct (newElement _ _ _) eqn:E; cbn; [discriminate|]. intros [= <-]. eapply newElement_err; eauto.
  - unfold es_addPush; cbn. destruct (newElement _ _ _) eqn:E; cbn; [discriminate|]. intros [= <-]. eapply newElement_err; eauto.
  - unfold es_addPopPush, es_pop; cbn. destruct os; cbn in O; [congruence|]. cbn. unfold es_addPush; cbn.
    destruct (newElement _ _ _) eqn:E; cbn; [discriminate|]. intros [= <-]. eapply newElement_err; eauto.
  - destruct (makeElementList l) eqn:E; cbn; [discriminate|]. intros [= <-]. eapply makeElementList_err; eauto.
Qed.
Lemma z_observe o z z' : z <> [] -> z_op o z = Some z' -> observe o (length z) <> None.
Proof.
  destruct o, z as [|f [|g z]]; cbn; congruence.
Qed.
Lemma R_length s z : R s z -> length (opened s) = length z.
Proof. unfold R. intros H. eapply chain_length; eauto. Qed.
Lemma R_ne s z : R s z -> opened s <> [] -> z <> [].
Proof. intros H N ->. apply R_length in H. destruct (opened s); [congruence|discriminate]. Qed.

Definition fails (r : cstate * option exn) : Prop := exists s' e, r = (s', Some e) /\ e <> RuntimeError.
Lemma stk_ok o s z z' fe fo io co cx se : is_at s z fe fo io co cx se -> z_op o z = Some z' -> op_valid o = true ->
  exists s', stk o s = (s', None) /\ is_at s' z' fe fo io co cx se.
Proof.
  intros [HR HO E1 E2 E3 E4 E5 E6] Z V. unfold stk.
  pose proof (run_op_ok o _ HO) as K. rewrite V in K.
  pose proof (z_observe _ _ _ (R_ne _ _ HR HO) Z) as OB. rewrite (R_length _ _ HR) in K.
  destruct (observe o (length z)) eqn:X; [|congruence]. cbn in K.
  destruct (run_op o (c_stack s)) as [st|e] eqn:RO; [|discriminate].
  destruct (sim_op _ _ _ _ HR HO RO) as (z2 & Z2 & R2 & O2). rewrite Z in Z2. injection Z2 as <-.
  eexists. split; [reflexivity|]. constructor; auto.
Qed.
Lemma stk_bad o s z z' fe fo io co cx se : is_at s z fe fo io co cx se -> z_op o z = Some z' -> op_valid o = false ->
  fails (stk o s).
Proof.
  intros [HR HO E1 E2 E3 E4 E5 E6] Z V. unfold stk.
  pose proof (run_op_ok o _ HO) as K. rewrite V in K. cbn in K.
  destruct (run_op o (c_stack s)) as [st|e] eqn:RO; [discriminate|].
  exists s, e. split; auto.
  assert (e = ValueError) as ->; [|discriminate]. eapply run_op_err; eauto. rewrite (R_length _ _ HR). eapply z_observe; eauto. eapply R_ne; eauto.
Qed.
Lemma z_op_ne o z z' : z <> [] -> z_op o z = Some z' -> z' <> [].
Proof. destruct o, z as [|f [|g z]]; cbn; intros N [= <-]; congruence. Qed.

Lemma stks_ok os : forall s z z' fe fo io co cx se, is_at s z fe fo io co cx se -> z_ops os z = Some z' -> forallb op_valid os = true ->
  exists s', stks os s = (s', None) /\ is_at s' z' fe fo io co cx se.
Proof.
  induction os as [|o os IH]; intros s z z' fe fo io co cx se A Z V.
  - injection Z as <-. exists s. auto.
  - cbn [z_ops] in Z. destruct (z_op o z) as [z1|] eqn:Z1; [|discriminate]. cbn [forallb] in V. apply andb_prop in V as [V1 V2].
    destruct (stk_ok _ _ _ _ _ _ _ _ _ _ A Z1 V1) as (s1 & E1 & A1). cbn [stks]. unfold andthen. rewrite E1.
    apply (IH _ _ _ _ _ _ _ _ _ A1 Z V2).
Qed.
Lemma stks_bad os : forall s z z' fe fo io co cx se, is_at s z fe fo io co cx se -> z_ops os z = Some z' -> forallb op_valid os = false ->
  fails (stks os s).
Proof.
  induction os as [|o os IH]; intros s z z' fe fo io co cx se A Z V; [discriminate|].
  cbn [z_ops] in Z. destruct (z_op o z) as [z1|] eqn:Z1; [|discriminate]. cbn [stks]. unfold andthen.
  destruct (op_valid o) eqn:V1.
  - destruct (stk_ok _ _ _ _ _ _ _ _ _ _ A Z1 V1) as (s1 & E1 & A1). rewrite E1. eapply IH; eauto.
    cbn [forallb] in V. now rewrite V1 in V.
  - destruct (stk_bad _ _ _ _ _ _ _ _ _ _ A Z1 V1) as (s1 & e & E1 & N). rewrite E1. exists s1, e. auto.
Qed.
Lemma andthen_fails a b s : fails (a s) -> fails ((andthen a b) s).
Proof. intros (s' & e & E & N). unfold andthen. rewrite E. exists s', e. auto. Qed.
Lemma feed_fails T d rs s : fails (convertit T d s) -> exists s' e, feed (convertit T) (d :: rs) s = (s', Some e).
Proof. intros (s' & e & E & N). cbn [feed]. rewrite E. destruct e; try congruence; exists s'; eexists; reflexivity. Qed.


(** * The collected headers *)
Lemma z_ops_app a b z : z_ops (a ++ b) z = match z_ops a z with Some z' => z_ops b z' | None => None end.
Proof. revert z. induction a as [|o a IH]; intros z; [reflexivity|]. cbn [app z_ops]. destruct (z_op o z); auto. Qed.
Lemma z_ops_adds t l : forall z, z <> [] ->
  z_ops (map (fun v => OAdd t v []) l) z = Some (z_addkids (map (leaf t) l) z).
Proof.
  induction l as [|v l IH]; intros z N.
  - cbn. destruct z as [|[[[a b] c] k] z]; [congruence|]. cbn. now rewrite app_nil_r.
  - cbn [map z_ops z_op]. rewrite IH by (destruct z; [congruence|discriminate]).
    destruct z as [|[[[a b] c] k] z]; [congruence|]. cbn. now rewrite <- app_assoc.
Qed.
Lemma z_ops_addkv l : forall z, z <> [] ->
  z_ops (map (fun kv : str * str => OAdd (fst kv) (snd kv) []) l) z = Some (z_addkids (map (fun kv => leaf (fst kv) (snd kv)) l) z).
Proof.
  induction l as [|v l IH]; intros z N.
  - cbn. destruct z as [|[[[a b] c] k] z]; [congruence|]. cbn. now rewrite app_nil_r.
  - cbn [map z_ops z_op]. rewrite IH by (destruct z; [congruence|discriminate]).
    destruct z as [|[[[a b] c] k] z]; [congruence|]. cbn. now rewrite <- app_assoc.
Qed.
Definition entry_xml (e : str * list (str * str)) : xml := Elem (fst e) [] [] (map (fun kv => leaf (fst kv) (snd kv)) (snd e)).
Lemma z_entry e z : z <> [] ->
  z_ops (OAddPush (fst e) [] [] :: map (fun kv : str * str => OAdd (fst kv) (snd kv) []) (snd e) ++ [OPop]) z =
  Some (z_addkids [entry_xml e] z).
Proof.
  intros N. cbn [z_ops z_op]. rewrite z_ops_app, z_ops_addkv by discriminate.
  destruct z as [|f z]; [congruence|]. reflexivity.
Qed.
Lemma addkids_app a b z : z_addkids b (z_addkids a z) = z_addkids (a ++ b) z.
Proof. destruct z as [|[[[t x] c] k] z]; [reflexivity|]. cbn. now rewrite <- app_assoc. Qed.
Lemma addkids_nil z : z_addkids [] z = z.
Proof. destruct z as [|[[[t x] c] k] z]; [reflexivity|]. cbn. now rewrite app_nil_r. Qed.
Lemma addkids_ne a z : z <> [] -> z_addkids a z <> [].
Proof. destruct z; [congruence|discriminate]. Qed.
Lemma z_entries cx : forall z, z <> [] ->
  z_ops (flat_map (fun e => OAddPush (fst e) [] [] :: map (fun kv : str * str => OAdd (fst kv) (snd kv) []) (snd e) ++ [OPop]) cx) z =
  Some (z_addkids (map entry_xml cx) z).
Proof.
  induction cx as [|e cx IH]; intros z N; [cbn; now rewrite addkids_nil|].
  cbn [flat_map map]. rewrite z_ops_app, z_entry by auto. rewrite IH by (now apply addkids_ne). now rewrite addkids_app.
Qed.
Definition comment_xml (co : list str) : list xml := match co with [] => [] | _ => [Elem $"comment" [] [] (map (leaf $"line") co)] end.
Lemma z_context cx co z : z <> [] ->
  z_ops (context_ops cx co) z = Some (z_addkids (map entry_xml cx ++ comment_xml co) z).
Proof.
  intros N. unfold context_ops. rewrite z_ops_app, z_entries by auto.
  destruct co as [|l co]; [cbn [z_ops comment_xml]; now rewrite app_nil_r|].
  rewrite <- addkids_app. generalize (z_addkids (map entry_xml cx) z), (addkids_ne (map entry_xml cx) z N). clear z N. intros z N.
  unfold comment_xml. generalize (l :: co). intros c.
  cbn [z_ops z_op]. rewrite z_ops_app, z_ops_adds by discriminate. destruct z as [|f z]; [congruence|]. reflexivity.
Qed.
Lemma leaf_valid t v : xml_valid (leaf t v) = valid_name t && valid_text v.
Proof. unfold leaf. cbn. now rewrite !andb_true_r. Qed.
Lemma forallb_map {A B} (f : B -> bool) (g : A -> B) l : forallb f (map g l) = forallb (fun x => f (g x)) l.
Proof. induction l; cbn; [auto|]. now rewrite IHl. Qed.
Lemma forallb_flat {A B} (f : B -> bool) (g : A -> list B) l : forallb f (flat_map g l) = forallb (fun x => forallb f (g x)) l.
Proof. induction l; cbn; [auto|]. now rewrite forallb_app, IHl. Qed.
Lemma forallb_ext2 {A} (f g : A -> bool) l : (forall x, f x = g x) -> forallb f l = forallb g l.
Proof. intros H. induction l as [|x l IH]; cbn; auto. now rewrite H, IH. Qed.
Lemma entry_valid e :
  forallb op_valid (OAddPush (fst e) [] [] :: map (fun kv : str * str => OAdd (fst kv) (snd kv) []) (snd e) ++ [OPop]) = xml_valid (entry_xml e).
Proof.
  cbn [forallb op_valid]. rewrite forallb_app, forallb_map. cbn [forallb op_valid]. rewrite !andb_true_r.
  unfold entry_xml. cbn [xml_valid]. rewrite !andb_true_r. cbn [forallb]. rewrite ?andb_true_r. f_equal.
  rewrite forallb_map. apply forallb_ext2. intros kv. rewrite leaf_valid. cbn. now rewrite andb_true_r.
Qed.
Lemma context_valid cx co : forallb op_valid (context_ops cx co) = forallb xml_valid (map entry_xml cx ++ comment_xml co).
Proof.
  unfold context_ops. rewrite !forallb_app, forallb_flat, forallb_map. f_equal.
  - apply forallb_ext2. intros e. apply entry_valid.
  - destruct co as [|l co]; [reflexivity|]. unfold comment_xml. generalize (l :: co). intros c.
    cbn [forallb op_valid]. rewrite forallb_app, forallb_map. cbn [forallb op_valid xml_valid]. rewrite !andb_true_r.
    f_equal. rewrite forallb_map. apply forallb_ext2. intros v. rewrite leaf_valid. cbn [forallb]. now rewrite andb_true_r.
Qed.
