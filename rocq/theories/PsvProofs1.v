(** Stack operations on zippers with validity; the document grammar as a step
    function; records. *)
From Verif Require Import PyStrProofs XmlSpec XmlProofs PsvToXml PsvSpec PsvLines TablesProofs.
From Coq Require Import Btauto.

(** * validity of a zipper *)
Definition fvalid (f : frame) : bool :=
  let '(t, a, x, k) := f in
  valid_name t && valid_text x && forallb (fun kv => valid_name (fst kv) && valid_text (snd kv)) a && forallb xml_valid k.
Definition zvalid (z : list frame) : bool := forallb fvalid z.

Lemma well_named_iff : forall x, well_named x <-> xml_valid x = true.
Proof.
  induction x using xml_ind'. cbn [well_named xml_valid]. rewrite !andb_true_iff.
  assert (A : Forall (fun kv => valid_name (fst kv) = true /\ valid_text (snd kv) = true) a <->
              forallb (fun kv => valid_name (fst kv) && valid_text (snd kv)) a = true).
  { rewrite forallb_forall, Forall_forall. split; intros K kv I; specialize (K kv I);
      [apply andb_true_intro; exact K | now apply andb_prop]. }
  assert (B : (fix go (l : list xml) : Prop := match l with [] => True | k :: l' => well_named k /\ go l' end) ks
              <-> forallb xml_valid ks = true).
  { clear A. induction H as [|x ks Hx Hk IH]; [simpl; tauto|]. cbn [forallb]. rewrite andb_true_iff, <- IH, Hx. reflexivity. }
  rewrite A, B. tauto.
Qed.

Lemma fclose_valid f : xml_valid (fclose f) = fvalid f.
Proof. destruct f as [[[t a] x] k]. reflexivity. Qed.
Lemma push_valid ks f : fvalid (push_kids ks f) = fvalid f && forallb xml_valid ks.
Proof. destruct f as [[[t a] x] k]. cbn. now rewrite forallb_app, andb_assoc. Qed.
Lemma close_valid : forall z ks t, close_with ks z = Some t -> xml_valid t = zvalid z && forallb xml_valid ks.
Proof.
  induction z as [|f z IH]; intros ks t E; cbn in E; [discriminate|].
  destruct z as [|g z].
  - apply some_inj in E. subst. rewrite fclose_valid, push_valid. cbn. now rewrite andb_true_r.
  - rewrite (IH _ _ E). cbn [forallb]. rewrite fclose_valid, push_valid, andb_true_r.
    unfold zvalid. cbn [forallb]. btauto.
Qed.
Lemma z_pop_valid z z' : z_pop z = Some z' -> zvalid z' = zvalid z.
Proof.
  destruct z as [|f [|g z]]; cbn; try discriminate. intros E. apply some_inj in E. subst.
  unfold zvalid. cbn [forallb]. rewrite push_valid. cbn [forallb]. rewrite fclose_valid. btauto.
Qed.
Lemma leaves_valid l : forallb xml_valid (map (fun kv => Elem (fst kv) [] (snd kv) []) l) = op_valid (OAddList l).
Proof.
  cbn [op_valid]. induction l as [|kv l IH]; auto. cbn [map forallb]. rewrite IH. f_equal. cbn. now rewrite !andb_true_r.
Qed.
Lemma z_op_valid o z z' : z <> [] -> z_op o z = Some z' -> zvalid z' = zvalid z && op_valid o.
Proof.
  intros N E. destruct o; cbn [z_op] in E.
  - rewrite (z_pop_valid _ _ E). cbn. now rewrite andb_true_r.
  - apply some_inj in E. subst. destruct z as [|f z]; [congruence|]. unfold zvalid. cbn [z_addkids forallb].
    rewrite push_valid. cbn. rewrite !andb_true_r. btauto.
  - apply some_inj in E. subst. unfold zvalid. cbn. rewrite !andb_true_r. btauto.
  - destruct (z_pop z) as [z1|] eqn:E1; [|discriminate]. apply some_inj in E. subst.
    rewrite <- (z_pop_valid _ _ E1). unfold zvalid. cbn. rewrite !andb_true_r. btauto.
  - apply some_inj in E. subst. destruct z as [|f z]; [congruence|]. unfold zvalid. cbn [z_addkids forallb].
    rewrite push_valid, leaves_valid. btauto.
Qed.
Lemma z_op_ne o z z' : z <> [] -> z_op o z = Some z' -> z' <> [].
Proof. intros N E. destruct (z_op_outline _ _ _ N E) as (? & _ & _ & ?). auto. Qed.

Lemma z_ops_app a : forall b z, z_ops (a ++ b) z = match z_ops a z with Some z' => z_ops b z' | None => None end.
Proof. induction a as [|o a IH]; intros b z; cbn; auto. destruct (z_op o z); auto. Qed.
Lemma z_ops_valid os : forall z z', z <> [] -> z_ops os z = Some z' -> zvalid z' = zvalid z && forallb op_valid os.
Proof.
  induction os as [|o os IH]; intros z z' N E; cbn in E.
  - apply some_inj in E. subst. cbn. now rewrite andb_true_r.
  - destruct (z_op o z) as [z1|] eqn:E1; [|discriminate].
    rewrite (IH _ _ (z_op_ne _ _ _ N E1) E), (z_op_valid _ _ _ N E1). cbn. now rewrite andb_assoc.
Qed.

Lemma R_len s z : R s z -> length (opened s) = length z.
Proof. apply chain_length. Qed.

Lemma run_ops_z os : forall s z, R s z -> opened s <> [] -> zvalid z = true ->
  match run_ops os s with
  | Ok s' => exists z', z_ops os z = Some z' /\ R s' z' /\ opened s' <> [] /\ zvalid z' = true
  | Err _ => forall z', z_ops os z = Some z' -> zvalid z' = true -> False
  end.
Proof.
  intros s z HR NE V.
  assert (Nz : z <> []).
  { intros ->. apply R_len in HR. destruct (opened s); [congruence|discriminate]. }
  pose proof (run_ops_ok os s NE) as K.
  destruct (run_ops os s) as [s'|e] eqn:E.
  - destruct (sim_ops os s z s' HR NE E) as (z' & Ez & R' & N'). exists z'. repeat split; auto.
    rewrite (z_ops_valid _ _ _ Nz Ez), V. now apply K.
  - intros z' Ez Vz. rewrite (z_ops_valid _ _ _ Nz Ez), V in Vz. cbn in Vz.
    destruct (z_ops_outline _ _ _ Nz Ez) as (es & Ob & _).
    destruct K as [_ K]. rewrite (R_len _ _ HR) in K. enough (is_ok (@Err estack e) = true) by discriminate.
    apply K. split; auto. congruence.
Qed.

(** * The grammar as a step function *)
Definition with_sub (i : item) (n t : str) : item :=
  {| i_name := i_name i; i_text := i_text i; i_subs := i_subs i ++ [(n, t)] |}.
Definition with_row (s : section) (f : list str) : section :=
  {| s_ctx := s_ctx s; s_cols := s_cols s; s_type := s_type s; s_rows := s_rows s ++ [f] |}.
Definition doc_step (d : doc) (ln : line) : option doc :=
  match ln, d_tail d with
  | LTop n t, TNone => Some {| d_secs := d_secs d; d_tail := TCtx [{| i_name := n; i_text := t; i_subs := [] |}] |}
  | LTop n t, TCtx its => Some {| d_secs := d_secs d; d_tail := TCtx (its ++ [{| i_name := n; i_text := t; i_subs := [] |}]) |}
  | LTop _ _, THead _ _ _ => None
  | LSub n t, TCtx its =>
      match rev its with
      | i :: r => Some {| d_secs := d_secs d; d_tail := TCtx (rev r ++ [with_sub i n t]) |}
      | [] => None
      end
  | LSub _ _, _ => None
  | LHead c ty, TNone => Some {| d_secs := d_secs d; d_tail := THead [] c ty |}
  | LHead c ty, TCtx its => Some {| d_secs := d_secs d; d_tail := THead its c ty |}
  | LHead _ _, THead _ _ _ => None
  | LData f, TNone =>
      match rev (d_secs d) with
      | s :: r => if (length f <=? length (s_cols s))%nat
                  then Some {| d_secs := rev r ++ [with_row s f]; d_tail := TNone |} else None
      | [] => None
      end
  | LData f, THead its c ty =>
      if (length f <=? length c)%nat
      then Some {| d_secs := d_secs d ++ [{| s_ctx := its; s_cols := c; s_type := ty; s_rows := [f] |}]; d_tail := TNone |}
      else None
  | LData _, TCtx _ => None
  end.
Fixpoint doc_steps (d : doc) (L : list line) : option doc :=
  match L with
  | [] => Some d
  | ln :: L' => match doc_step d ln with Some d' => doc_steps d' L' | None => None end
  end.
Definition doc0 : doc := {| d_secs := []; d_tail := TNone |}.

Lemma doc_steps_app a : forall b d, doc_steps d (a ++ b) = match doc_steps d a with Some d' => doc_steps d' b | None => None end.
Proof. induction a as [|ln a IH]; intros b d; cbn; auto. destruct (doc_step d ln); auto. Qed.

Lemma subs_steps secs its n t : forall subs pre, doc_steps
  {| d_secs := secs; d_tail := TCtx (its ++ [{| i_name := n; i_text := t; i_subs := pre |}]) |}
  (map (fun nt => LSub (fst nt) (snd nt)) subs) =
  Some {| d_secs := secs; d_tail := TCtx (its ++ [{| i_name := n; i_text := t; i_subs := pre ++ subs |}]) |}.
Proof.
  induction subs as [|[sn st] subs IH]; intros pre.
  - cbn. now rewrite app_nil_r.
  - cbn [map doc_steps doc_step d_tail d_secs fst snd]. rewrite rev_app_distr. cbn [rev app].
    rewrite rev_involutive. unfold with_sub. cbn [i_name i_text i_subs]. rewrite IH, <- app_assoc. reflexivity.
Qed.
Lemma items_steps secs : forall its pre, pre <> [] -> doc_steps
  {| d_secs := secs; d_tail := TCtx pre |} (ctx_lines its) = Some {| d_secs := secs; d_tail := TCtx (pre ++ its) |}.
Proof.
  induction its as [|i its IH]; intros pre N.
  - cbn. now rewrite app_nil_r.
  - unfold ctx_lines in *. cbn [flat_map]. unfold item_lines at 1. rewrite <- app_comm_cons. cbn [doc_steps doc_step d_tail d_secs].
    rewrite doc_steps_app, subs_steps. cbn [app]. replace {| i_name := i_name i; i_text := i_text i; i_subs := i_subs i |} with i by now destruct i.
    rewrite IH by (destruct pre; discriminate). now rewrite <- app_assoc.
Qed.
Lemma ctx_steps secs its : its <> [] -> doc_steps
  {| d_secs := secs; d_tail := TNone |} (ctx_lines its) = Some {| d_secs := secs; d_tail := TCtx its |}.
Proof.
  intros N. destruct its as [|i its]; [congruence|]. unfold ctx_lines. cbn [flat_map]. unfold item_lines at 1.
  rewrite <- app_comm_cons. cbn [doc_steps doc_step d_tail d_secs].
  rewrite doc_steps_app. pose proof (subs_steps secs [] (i_name i) (i_text i) (i_subs i) []) as K. cbn [app] in K. rewrite K.
  replace {| i_name := i_name i; i_text := i_text i; i_subs := i_subs i |} with i by now destruct i.
  change (flat_map item_lines its) with (ctx_lines its). now rewrite items_steps by discriminate.
Qed.
Lemma head_steps secs its c ty : doc_steps {| d_secs := secs; d_tail := TNone |} (ctx_lines its ++ [LHead c ty]) =
  Some {| d_secs := secs; d_tail := THead its c ty |}.
Proof.
  destruct its as [|i its]; [reflexivity|]. rewrite doc_steps_app, ctx_steps by discriminate. reflexivity.
Qed.
Lemma rows_steps secs its c ty : forall rows pre, Forall (fun r => (length r <= length c)%nat) rows -> doc_steps
  {| d_secs := secs ++ [{| s_ctx := its; s_cols := c; s_type := ty; s_rows := pre |}]; d_tail := TNone |} (map LData rows) =
  Some {| d_secs := secs ++ [{| s_ctx := its; s_cols := c; s_type := ty; s_rows := pre ++ rows |}]; d_tail := TNone |}.
Proof.
  induction rows as [|r rows IH]; intros pre F.
  - cbn. now rewrite app_nil_r.
  - inversion F; subst. cbn [map doc_steps doc_step d_tail d_secs]. rewrite rev_app_distr. cbn [rev app].
    cbn [s_cols]. replace (length r <=? length c)%nat with true by (symmetry; now apply Nat.leb_le).
    rewrite rev_involutive. unfold with_row. cbn [s_ctx s_cols s_type s_rows]. rewrite IH by auto.
    now rewrite <- app_assoc.
Qed.
Lemma section_steps secs s : section_ok s ->
  doc_steps {| d_secs := secs; d_tail := TNone |} (section_lines s) = Some {| d_secs := secs ++ [s]; d_tail := TNone |}.
Proof.
  intros [N F]. destruct s as [its c ty rows]. unfold section_lines. cbn [s_ctx s_cols s_type s_rows] in *.
  change (ctx_lines its ++ LHead c ty :: map LData rows) with (ctx_lines its ++ [LHead c ty] ++ map LData rows).
  rewrite app_assoc, doc_steps_app, head_steps.
  destruct rows as [|r rows]; [congruence|]. inversion F; subst. cbn [map doc_steps doc_step d_tail d_secs].
  replace (length r <=? length c)%nat with true by (symmetry; now apply Nat.leb_le).
  rewrite rows_steps by auto. reflexivity.
Qed.
Lemma sections_steps : forall ss secs, Forall section_ok ss ->
  doc_steps {| d_secs := secs; d_tail := TNone |} (flat_map section_lines ss) = Some {| d_secs := secs ++ ss; d_tail := TNone |}.
Proof.
  induction ss as [|s ss IH]; intros secs F.
  - cbn. now rewrite app_nil_r.
  - inversion F; subst. cbn [flat_map]. rewrite doc_steps_app, section_steps, IH by auto. now rewrite <- app_assoc.
Qed.
Lemma doc_steps_complete d : doc_ok d -> doc_steps doc0 (doc_lines d) = Some d.
Proof.
  intros [F N]. destruct d as [ss tl]. unfold doc_lines. cbn [d_secs d_tail] in *.
  rewrite doc_steps_app. unfold doc0. rewrite (sections_steps ss [] F). cbn [app].
  destruct tl as [|its|its c ty]; cbn [tail_lines].
  - reflexivity.
  - apply ctx_steps. now apply N.
  - apply head_steps.
Qed.

Lemma rev_snoc {A} (l : list A) x r : rev l = x :: r -> l = rev r ++ [x].
Proof. intros E. rewrite <- (rev_involutive l), E. reflexivity. Qed.

Lemma doc_step_sound d ln d' : doc_ok d -> doc_step d ln = Some d' -> doc_ok d' /\ doc_lines d' = doc_lines d ++ [ln].
Proof.
  intros [F N] E. destruct d as [ss tl]. unfold doc_ok, doc_lines. cbn [d_secs d_tail] in *.
  destruct ln as [n t|n t|c ty|f]; destruct tl as [|its|its c' ty']; cbn [doc_step d_tail d_secs] in E; try discriminate.
  - apply some_inj in E. subst. cbn [d_secs d_tail]. split; [split; auto; intros; congruence|]. cbn. now rewrite app_nil_r.
  - apply some_inj in E. subst. cbn [d_secs d_tail]. split; [split; auto; intros ? K; inversion K; destruct its; discriminate|].
    cbn [tail_lines]. unfold ctx_lines. rewrite flat_map_app', <- app_assoc. reflexivity.
  - destruct (rev its) as [|i r] eqn:Er; [discriminate|]. apply rev_snoc in Er. subst its. apply some_inj in E. subst. cbn [d_secs d_tail].
    split; [split; auto; intros ? K; inversion K; destruct (rev r); discriminate|].
    cbn [tail_lines]. unfold ctx_lines. rewrite !flat_map_app', <- !app_assoc. do 2 f_equal.
    cbn. rewrite !app_nil_r. unfold item_lines, with_sub. cbn [i_name i_text i_subs]. rewrite map_app. reflexivity.
  - apply some_inj in E. subst. cbn [d_secs d_tail]. split; [split; auto; intros; congruence|]. cbn. now rewrite app_nil_r.
  - apply some_inj in E. subst. cbn [d_secs d_tail]. split; [split; auto; intros; congruence|]. cbn [tail_lines]. now rewrite app_assoc.
  - destruct (rev ss) as [|s r] eqn:Er; [discriminate|]. apply rev_snoc in Er. subst ss.
    destruct (_ <=? _)%nat eqn:L; [|discriminate]. apply Nat.leb_le in L. apply some_inj in E. subst. cbn [d_secs d_tail].
    apply Forall_app in F as [F1 F2]. inversion F2; subst. destruct H1 as [G1 G2]. split; [split|].
    + apply Forall_app. split; auto. constructor; auto. split; cbn [s_rows with_row s_cols].
      * destruct (s_rows s); discriminate.
      * apply Forall_app. split; auto.
    + congruence.
    + cbn [tail_lines]. rewrite !flat_map_app', <- !app_assoc. f_equal. cbn. rewrite !app_nil_r.
      unfold section_lines. cbn [s_ctx s_cols s_type s_rows with_row]. rewrite map_app. cbn [map].
      rewrite <- app_assoc. reflexivity.
  - destruct (_ <=? _)%nat eqn:L; [|discriminate]. apply Nat.leb_le in L. apply some_inj in E. subst. cbn [d_secs d_tail].
    split; [split|].
    + apply Forall_app. split; auto. constructor; auto. split; cbn; [discriminate|auto].
    + congruence.
    + cbn [tail_lines]. rewrite flat_map_app', app_nil_r. cbn. rewrite app_nil_r. unfold section_lines. cbn.
      rewrite <- !app_assoc. reflexivity.
Qed.
Lemma doc_steps_sound L : forall d d', doc_ok d -> doc_steps d L = Some d' -> doc_ok d' /\ doc_lines d' = doc_lines d ++ L.
Proof.
  induction L as [|ln L IH]; intros d d' K E; cbn in E.
  - apply some_inj in E. subst. now rewrite app_nil_r.
  - destruct (doc_step d ln) as [d1|] eqn:E1; [|discriminate].
    destruct (doc_step_sound _ _ _ K E1) as [K1 L1]. destruct (IH _ _ K1 E) as [K2 L2].
    split; auto. rewrite L2, L1, <- app_assoc. reflexivity.
Qed.
Lemma doc0_ok : doc_ok doc0.
Proof. split; [constructor|]. cbn. congruence. Qed.

(** * records *)
Lemma dget_zip : forall hs fs d k,
  dget k (zip_dict hs fs d) =
  if smem k (firstn (length fs) hs) then Some (value_of hs fs k) else dget k d.
Proof.
  induction hs as [|h hs IH]; intros fs d k.
  - cbn. destruct fs; reflexivity.
  - destruct fs as [|f fs]; [reflexivity|]. cbn [zip_dict length firstn value_of].
    rewrite IH. unfold smem at 2. cbn [existsb]. fold (smem k (firstn (length fs) hs)).
    destruct (streqb k h) eqn:E.
    + apply streqb_eq in E. subst h. cbn [orb andb].
      destruct (smem k (firstn (length fs) hs)); cbn [negb]; auto. apply dget_dset_eq.
    + cbn [orb andb]. destruct (smem k (firstn (length fs) hs)); auto. apply dget_dset_ne.
      intros ->. rewrite (proj2 (streqb_eq h h) eq_refl) in E. discriminate.
Qed.
Lemma value_of_nil : forall hs fs k, smem k (firstn (length fs) hs) = false -> value_of hs fs k = [].
Proof.
  induction hs as [|h hs IH]; intros [|f fs] k; cbn [length firstn value_of]; auto.
  unfold smem. cbn [existsb]. rewrite orb_false_iff. intros [E1 E2]. rewrite E1. cbn [andb]. now apply IH.
Qed.
Lemma record_items_spec al hs fs :
  record_items al hs fs =
  map (fun k => (k, value_of hs fs k)) (filter (fun k => negb (streqb (value_of hs fs k) [])) al).
Proof.
  unfold record_items. induction al as [|k al IH]; auto. cbn [flat_map filter]. rewrite IH, dget_zip. cbn [dget].
  destruct (smem k (firstn (length fs) hs)) eqn:E.
  - destruct (value_of hs fs k) as [|c v] eqn:Ev; cbn [streqb negb app map]; auto. rewrite Ev. reflexivity.
  - rewrite (value_of_nil _ _ _ E). reflexivity.
Qed.
