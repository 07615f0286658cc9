(** C22: the record types of the distributed tables; trees that come from PSV. *)
From Verif Require Import PyStrProofs XmlProofs TablesProofs PsvToXml PsvSpec PsvSpec2 PsvLines PsvProofs1 PsvProofs3 PsvProofs4 PsvProofs6 XmlToPsv JustSpec
  RoundSpec RoundProofs1 RoundProofs2 RoundProofs3 RoundProofs4 AdesMasterTables.

(** * deciding [printable] *)
Fixpoint after (ty : str) (l : list str) : option (list str * list str) :=
  match l with
  | [] => None
  | x :: l' => if streqb x ty then Some ([], l') else match after ty l' with Some (p, q) => Some (x :: p, q) | None => None end
  end.
Lemma after_ok ty l p q : after ty l = Some (p, q) -> l = p ++ ty :: q.
Proof.
  revert p q. induction l as [|x l IH]; intros p q; cbn [after]; [discriminate|]. destruct (streqb x ty) eqn:E.
  - intros H. apply some_inj in H. apply pair_equal_spec in H as [<- <-]. apply streqb_eq in E. now subst.
  - destruct (after ty l) as [[p' q']|]; [|discriminate]. intros H. apply some_inj in H. apply pair_equal_spec in H as [<- <-].
    rewrite (IH p' q') by auto. reflexivity.
Qed.
Definition apartb (T : tables) (al rq : list str) (p : str) : bool :=
  match dget p (allowed T), dget p (required T) with
  | Some alp, Some rqp => existsb (fun k => negb (smem k alp)) rq || existsb (fun k => negb (smem k al)) rqp
  | _, _ => true
  end.
Lemma apartb_ok T al rq p cols : apartb T al rq p = true -> incl cols al -> incl rq cols -> ~ fits T cols p.
Proof.
  unfold apartb. intros H I1 I2 (alp & rqp & E1 & E2 & J1 & J2). rewrite E1, E2 in H.
  apply orb_prop in H as [H|H]; apply existsb_exists in H as (k & Ik & Nk).
  - apply I2, J1, smem_In in Ik. rewrite Ik in Nk. discriminate.
  - apply J2, I1, smem_In in Ik. rewrite Ik in Nk. discriminate.
Qed.
Definition alpha1 (k : str) : bool := match k with c :: _ => is_alpha_ c | [] => false end.
Definition printableb (T : tables) (ty : str) : bool :=
  negb (streqb ty $"obsBlock") &&
  (match dget $"ades" (allowed T) with Some ts => smem ty ts && smem $"obsBlock" ts | None => false end) &&
  (match dget $"obsData" (allowed T) with Some ts => smem ty ts | None => false end) &&
  (match dget $"obsBlock" (allowed T) with Some ts => smem $"obsContext" ts && smem $"obsData" ts | None => false end) &&
  match dget ty (psvFormat T), dget ty (allowed T), dget ty (required T), dget $"ades" (allowed T) with
  | Some fs, Some al, Some rq, Some ts =>
      forallb (fun j => smem (p_just j) [$"L"; $"R"; $"C"] || streqb (p_just j) $"D" && (0 <=? p_dpos j)) fs &&
      forallb (fun k => valid_name k && alpha1 k) al &&
      match after ty ts with Some (_, post) => forallb (apartb T al rq) post | None => false end
  | _, _, _, _ => false
  end.
Lemma printableb_ok T ty : printableb T ty = true -> printable T ty.
Proof.
  unfold printableb, printable. intros H. repeat (apply andb_prop in H as [H ?]).
  destruct (dget $"ades" (allowed T)) as [ts|] eqn:Ets; [|discriminate].
  destruct (dget $"obsData" (allowed T)) as [ds|]; [|discriminate].
  destruct (dget $"obsBlock" (allowed T)) as [bs|]; [|discriminate].
  destruct (dget ty (psvFormat T)) as [fs|]; [|discriminate].
  destruct (dget ty (allowed T)) as [al|] eqn:Eal; [|discriminate].
  destruct (dget ty (required T)) as [rq|] eqn:Erq; [|discriminate].
  repeat match goal with H : _ && _ = true |- _ => apply andb_prop in H as [? ?] end.
  repeat match goal with H : smem _ _ = true |- _ => apply smem_In in H end.
  split. { intros ->. rewrite streqb_refl in H. discriminate. }
  split; [eauto|]. split; [eauto|]. split; [eauto|]. split.
  - intros al' rq' cols E1 E2 I1 I2. rewrite Eal in E1. rewrite Erq in E2. apply some_inj in E1, E2. subst al' rq'.
    destruct (after ty ts) as [[pre post]|] eqn:EA; [|discriminate]. apply after_ok in EA. subst ts.
    exists pre, post. split; [auto|]. split; [exists al, rq; auto|].
    match goal with H : forallb (apartb T al rq) post = true |- _ => rewrite forallb_forall in H; rename H into HP end.
    apply Forall_forall. intros p Ip. exact (apartb_ok T al rq p cols (HP p Ip) I1 I2).
  - exists fs, al, rq. repeat (split; [auto; fail|]).
    match goal with H : forallb _ fs = true |- _ => rewrite forallb_forall in H; rename H into HF end.
    match goal with H : forallb _ al = true |- _ => rewrite forallb_forall in H; rename H into HA end.
    split; apply Forall_forall.
    + intros j Ij. specialize (HF j Ij). apply orb_prop in HF as [HF|HF].
      * left. now apply smem_In in HF.
      * right. apply andb_prop in HF as [A B]. apply streqb_eq in A. apply Z.leb_le in B. auto.
    + intros k Ik. specialize (HA k Ik). apply andb_prop in HA as [A B]. split; auto.
      unfold alpha1 in B. destruct k as [|c r]; [discriminate|]. now exists c, r.
Qed.
Lemma master_printable : Forall (printable ades_tables) [$"optical"; $"offset"; $"occultation"; $"radar"].
Proof. repeat (constructor; [apply printableb_ok; vm_compute; reflexivity|]). constructor. Qed.

(** * trees that come from PSV *)
Definition line_trimmed (l : line) : Prop :=
  match l with
  | LTop _ t | LSub _ t => is_trimmed t
  | LHead _ _ => True
  | LData fs => Forall is_trimmed fs
  end.
Lemma cells_trimmed raw : Forall is_trimmed (cells raw).
Proof. unfold cells. apply Forall_forall. intros x I. apply in_map_iff in I as (y & <- & _). apply strip_idem. Qed.
Lemma reads_trimmed T raw l : reads_as T raw l -> line_trimmed l.
Proof.
  intros H. destruct H as [n t H|n t H|ty A B C D E|A B C]; cbn [line_trimmed]; auto using cells_trimmed.
  - destruct H as (w1 & w2 & w3 & w4 & _ & _ & _ & _ & _ & _ & H & _). exact H.
  - destruct H as (w1 & w2 & w3 & w4 & _ & _ & _ & _ & _ & _ & H & _). exact H.
Qed.
Lemma value_trimmed : forall cols row k, Forall is_trimmed row -> is_trimmed (value_of cols row k).
Proof.
  induction cols as [|c cols IH]; intros [|v row] k F; cbn [value_of]; try reflexivity.
  inversion F; subst. destruct (_ && _); auto.
Qed.
Lemma find_none_all {A} (f : A -> bool) l : (forall x, In x l -> f x = false) -> find f l = None.
Proof. induction l as [|x l IH]; intros H; [reflexivity|]. cbn [find]. rewrite H by now left. apply IH. intros y I. apply H. now right. Qed.
Lemma row_rec_value al ty cols row k : Forall is_trimmed row -> In k al -> rec_value (row_tree al ty cols row) k = value_of cols row k.
Proof.
  intros F I. unfold rec_value, row_tree. cbn [xkids].
  set (l := map _ _).
  assert (HL : forall x, In x (rev l) -> exists k', x = leaf k' (value_of cols row k') /\ value_of cols row k' <> []).
  { intros x Ix. apply in_rev in Ix. apply in_map_iff in Ix as (k' & <- & Ik). apply filter_In in Ik as [_ Nk]. exists k'. split; auto.
    intros E. rewrite E in Nk. discriminate. }
  destruct (find _ (rev l)) as [x|] eqn:E.
  - apply find_some in E as [Ix Ex]. destruct (HL x Ix) as (k' & -> & N). unfold leaf in Ex. cbn [xtag] in Ex.
    apply andb_prop in Ex as [Ex _]. apply streqb_eq in Ex. subst k'. cbn [leaf xtext]. exact (value_trimmed cols row k F).
  - destruct (value_of cols row k) as [|c v] eqn:Ev; [reflexivity|]. exfalso.
    assert (Ik : In (leaf k (value_of cols row k)) (rev l)).
    { apply -> in_rev. apply in_map_iff. exists k. split; [reflexivity|]. apply filter_In. split; auto. rewrite Ev. reflexivity. }
    pose proof (find_none _ _ E _ Ik) as H. cbn [leaf xtag xtext] in H. rewrite streqb_refl in H. cbn [andb] in H.
    assert (nonblank (value_of cols row k) = true); [|congruence]. apply nonblank_strip.
    pose proof (value_trimmed cols row k F) as Tr. unfold is_trimmed in Tr. rewrite Tr, Ev. discriminate.
Qed.
Lemma filter_ext_in' {A} (f g : A -> bool) l : (forall x, In x l -> f x = g x) -> filter f l = filter g l.
Proof. apply filter_ext_in. Qed.
Lemma row_tree_normal T ty cols row : Forall is_trimmed row ->
  normal_record T (row_tree (order_of T ty) ty cols row) = row_tree (order_of T ty) ty cols row.
Proof.
  intros F. unfold normal_record. cbn [row_tree xtag]. unfold row_tree at 3. f_equal.
  rewrite (filter_ext_in _ (fun k => negb (streqb (value_of cols row k) []))).
  - apply map_ext_in. intros k Ik. apply filter_In in Ik as [Ik _]. now rewrite row_rec_value.
  - intros k Ik. now rewrite row_rec_value.
Qed.
Lemma item_tree_normal i : Forall line_trimmed (item_lines i) -> normal_item (item_tree i) = item_tree i.
Proof.
  intros F. unfold item_lines in F. inversion F as [|? ? H1 H2]; subst. unfold normal_item, item_tree. cbn [xtag xtext xkids].
  cbn [line_trimmed] in H1. rewrite H1. f_equal. rewrite map_map. apply map_ext_in. intros [n t] I. cbn [leaf xtag xtext fst snd].
  rewrite Forall_forall in H2. specialize (H2 (LSub n t)). cbn [line_trimmed] in H2. unfold leaf. rewrite H2; auto.
  apply in_map_iff. exists (n, t). auto.
Qed.
Lemma map_id_in {A} (f : A -> A) l : (forall x, In x l -> f x = x) -> map f l = l.
Proof. intros H. rewrite <- (map_id l) at 2. now apply map_ext_in. Qed.
Lemma without_idem v : without_space (without_space v) = without_space v.
Proof. unfold without_space. induction v as [|c v IH]; [reflexivity|]. cbn [filter]. destruct (negb (pyspace c)) eqn:E; cbn [filter]; [rewrite E|]; congruence. Qed.

Lemma rows_normal T ty cols rows : Forall line_trimmed (map LData rows) ->
  forall x, In x (map (row_tree (order_of T ty) ty cols) rows) -> normal_record T x = x.
Proof.
  intros F x I. apply in_map_iff in I as (row & <- & I). apply row_tree_normal. rewrite Forall_forall in F.
  apply (F (LData row)). now apply in_map.
Qed.
Lemma Forall_flat_map_in {A B} (P : B -> Prop) (f : A -> list B) l : Forall P (flat_map f l) -> forall x, In x l -> Forall P (f x).
Proof. rewrite Forall_forall. intros H x I. apply Forall_forall. intros y J. apply H. apply in_flat_map. eauto. Qed.
Lemma section_normal T s : Forall line_trimmed (section_lines s) -> Forall (writable_child T) (section_trees T s) ->
  map (normal_child T) (section_trees T s) = section_trees T s.
Proof.
  intros F W. unfold section_lines in F. apply Forall_app in F as [Fc Fr]. inversion Fr as [|? ? _ Fd]; subst.
  apply map_id_in. intros x I. rewrite Forall_forall in W. specialize (W x I).
  unfold section_trees in I. destruct (s_ctx s) as [|i its] eqn:Ec.
  - pose proof (rows_normal T _ (s_cols s) _ Fd x I) as R. unfold normal_child, is_tag.
    destruct (streqb (xtag x) $"obsBlock") eqn:E; [|exact R]. apply streqb_eq in E. exfalso.
    apply in_map_iff in I as (row & <- & I). destruct W as [(ty & P & W)|(a & t & ca & cx & ctx & da & dx & data & ty & Ex & Nc & _)].
    + destruct W as [Et _]. rewrite Et in E. now apply P in E.
    + unfold row_tree in Ex. apply (f_equal xkids) in Ex. cbn [xkids] in Ex.
      assert (J : In (Elem $"obsContext" ca cx ctx) [Elem $"obsContext" ca cx ctx; Elem $"obsData" da dx data]) by now left.
      rewrite <- Ex in J. apply in_map_iff in J as (k & Ek & _). apply (f_equal xkids) in Ek. cbn [leaf xkids] in Ek. congruence.
  - destruct I as [<-|[]]. unfold normal_child, is_tag, block. cbn [xtag xkids]. rewrite streqb_refl. f_equal. f_equal; [|f_equal]; f_equal.
    + rewrite map_map. apply map_ext_in. intros j Ij. apply item_tree_normal.
      exact (Forall_flat_map_in _ _ _ Fc j Ij).
    + apply map_id_in. intros y Iy. exact (rows_normal T _ _ _ Fd y Iy).
Qed.
Theorem psv_normal T content t : tables_ok T -> psv_tree T content = Some t -> writable T t -> normal T t = t.
Proof.
  intros HT E W. apply psv_correct in E; auto. destruct E as (bl & v & rest & ver & d & _ & _ & VL & R & OK & -> & _).
  destruct W as (_ & _ & _ & W). unfold doc_tree in *. cbn [xkids] in W. unfold normal, version_of. cbn [xattrs dget]. rewrite streqb_refl.
  cbn [xkids]. destruct VL as (a & b & _ & _ & _ & _ & ->). rewrite without_idem. f_equal.
  assert (LT : Forall line_trimmed (doc_lines d)).
  { clear -R. induction R; constructor; auto. eapply reads_trimmed; eauto. }
  apply Forall_app in W as [W1 W2]. unfold doc_lines in LT. apply Forall_app in LT as [LT _]. rewrite map_app. f_equal.
  - clear -W1 LT. induction (d_secs d) as [|s l IH]; [reflexivity|]. cbn [flat_map] in *. apply Forall_app in W1 as [? ?], LT as [? ?].
    rewrite map_app, section_normal, IH; auto.
  - destruct (d_tail d) as [|its|[|i its] cols ty]; reflexivity.
Qed.
Theorem normal_values T ty r k : writable_record T ty r -> rec_value (normal_record T r) k = rec_value r k.
Proof.
  intros (Et & HV & _). unfold normal_record. rewrite Et.
  unfold rec_value at 1. cbn [xkids]. set (l := map _ _).
  assert (HL : forall x, In x (rev l) -> exists k', x = leaf k' (rec_value r k') /\ rec_value r k' <> []).
  { intros x Ix. apply in_rev in Ix. apply in_map_iff in Ix as (k' & <- & Ik). apply filter_In in Ik as [_ Nk]. exists k'. split; auto.
    intros E. rewrite E in Nk. discriminate. }
  destruct (find _ (rev l)) as [x|] eqn:E.
  - apply find_some in E as [Ix Ex]. destruct (HL x Ix) as (k' & -> & N). unfold leaf in Ex. cbn [xtag] in Ex.
    apply andb_prop in Ex as [Ex _]. apply streqb_eq in Ex. subst k'. cbn [leaf xtext]. exact (rec_trimmed r k).
  - destruct (rec_value r k) as [|c v] eqn:Ev; [reflexivity|]. exfalso.
    assert (Nk : rec_value r k <> []) by (rewrite Ev; discriminate).
    assert (Ik : In (leaf k (rec_value r k)) (rev l)).
    { apply -> in_rev. apply in_map_iff. exists k. split; [reflexivity|]. apply filter_In. split; [apply HV; auto|]. rewrite Ev. reflexivity. }
    pose proof (find_none _ _ E _ Ik) as H. cbn [leaf xtag xtext] in H. rewrite streqb_refl in H. cbn [andb] in H.
    assert (nonblank (rec_value r k) = true); [|congruence]. apply nonblank_strip.
    pose proof (rec_trimmed r k) as Tr. unfold is_trimmed in Tr. rewrite Tr, Ev. discriminate.
Qed.
