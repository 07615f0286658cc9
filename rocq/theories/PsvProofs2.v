(** The converter's state machine implements the grammar. *)
From Verif Require Import PyStrProofs XmlSpec XmlProofs PsvToXml PsvSpec PsvLines TablesProofs PsvProofs1.

(** * where the machine stands in a document *)
Definition item_frame (i : item) : frame := (i_name i, [], i_text i, map (fun nt => leaf (fst nt) (snd nt)) (i_subs i)).
Definition row_frame (al : list str) (ty : str) (cols row : list str) : frame :=
  (ty, [], [], map (fun k => leaf k (value_of cols row k)) (filter (fun k => negb (streqb (value_of cols row k) [])) al)).
Definition A (v : str) (ks : list xml) : frame := ($"ades", [($"version", v)], [], ks).
Definition ctxf (its : list item) : frame := ($"obsContext", [], [], map item_tree its).

Inductive Z (T : tables) (v : str) : doc -> pstate -> list frame -> list str -> option (option str) -> Prop :=
| Z_empty hv ht : Z T v doc0 EMPTY [A v []] hv ht
| Z_ctx secs its i hv :
    Z T v {| d_secs := secs; d_tail := TCtx (its ++ [i]) |} OBSCONTEXT
      [item_frame i; ctxf its; ($"obsBlock", [], [], []); A v (flat_map (section_trees T) secs)] hv (Some None)
| Z_fobs secs its i cols ty al : dget ty (allowed T) = Some al ->
    Z T v {| d_secs := secs; d_tail := THead (its ++ [i]) cols ty |} FIRST_OBSDATA
      [item_frame i; ctxf its; ($"obsBlock", [], [], []); A v (flat_map (section_trees T) secs)] cols (Some (Some ty))
| Z_fdata secs cols ty al : dget ty (allowed T) = Some al ->
    Z T v {| d_secs := secs; d_tail := THead [] cols ty |} FIRST_DATA
      [A v (flat_map (section_trees T) secs)] cols (Some (Some ty))
| Z_data secs cols ty rows r al : dget ty (allowed T) = Some al ->
    Z T v {| d_secs := secs ++ [{| s_ctx := []; s_cols := cols; s_type := ty; s_rows := rows ++ [r] |}]; d_tail := TNone |} DATA
      [row_frame al ty cols r; A v (flat_map (section_trees T) secs ++ map (row_tree al ty cols) rows)] cols (Some (Some ty))
| Z_obs secs i its cols ty rows r al : dget ty (allowed T) = Some al ->
    Z T v {| d_secs := secs ++ [{| s_ctx := i :: its; s_cols := cols; s_type := ty; s_rows := rows ++ [r] |}]; d_tail := TNone |} OBSDATA
      [row_frame al ty cols r; ($"obsData", [], [], map (row_tree al ty cols) rows);
       ($"obsBlock", [], [], [fclose (ctxf (i :: its))]); A v (flat_map (section_trees T) secs)] cols (Some (Some ty)).

Lemma item_tree_frame i : item_tree i = fclose (item_frame i).
Proof. reflexivity. Qed.
Lemma row_tree_frame al ty c r : row_tree al ty c r = fclose (row_frame al ty c r).
Proof. reflexivity. Qed.
Lemma order_some T ty al : dget ty (allowed T) = Some al -> order_of T ty = al.
Proof. unfold order_of. now intros ->. Qed.

Lemma tail_ctx its i : tail_trees (TCtx (its ++ [i])) = [block (its ++ [i]) []].
Proof. destruct its; reflexivity. Qed.
Lemma tail_head its i c ty : tail_trees (THead (its ++ [i]) c ty) = [block (its ++ [i]) []].
Proof. destruct its; reflexivity. Qed.

Lemma section_trees_data T cols ty rows al : dget ty (allowed T) = Some al ->
  section_trees T {| s_ctx := []; s_cols := cols; s_type := ty; s_rows := rows |} = map (row_tree al ty cols) rows.
Proof. intros H. unfold section_trees, rows_trees. cbn [s_ctx s_type s_cols s_rows]. now rewrite (order_some _ _ _ H). Qed.
Lemma section_trees_obs T i its cols ty rows al : dget ty (allowed T) = Some al ->
  section_trees T {| s_ctx := i :: its; s_cols := cols; s_type := ty; s_rows := rows |} =
  [block (i :: its) [Elem $"obsData" [] [] (map (row_tree al ty cols) rows)]].
Proof. intros H. unfold section_trees, rows_trees. cbn [s_ctx s_type s_cols s_rows]. now rewrite (order_some _ _ _ H). Qed.

Lemma Z_close T v d st z hv ht : Z T v d st z hv ht -> close_with [] z = Some (doc_tree T v d).
Proof.
  destruct 1; unfold doc_tree; cbn [d_secs d_tail].
  - reflexivity.
  - rewrite tail_ctx. unfold block. rewrite map_app. cbn. now rewrite app_nil_r.
  - rewrite tail_head. unfold block. rewrite map_app. cbn. now rewrite app_nil_r.
  - cbn. reflexivity.
  - rewrite flat_map_app'. cbn [flat_map tail_trees]. rewrite !app_nil_r, (section_trees_data _ _ _ _ _ H), map_app.
    cbn. rewrite ?app_nil_r, <- app_assoc. reflexivity.
  - rewrite flat_map_app'. cbn [flat_map tail_trees]. rewrite !app_nil_r, (section_trees_obs _ _ _ _ _ _ _ H), map_app.
    unfold block. cbn. rewrite ?app_nil_r. reflexivity.
Qed.

(** * the actions in normal form *)
Definition exec (ops : list op) (hv : list str) (ht : option (option str)) (st : pstate) (g : glob) : res glob :=
  match g_stack g with
  | None => Err NameError
  | Some s => do s' <- run_ops ops s;
              Ok {| g_firstLine := g_firstLine g; g_state := st; g_headerVals := hv; g_headerType := ht; g_stack := Some s' |}
  end.

Definition item_op (mk : str -> str -> list (str * str) -> op) (n t : str) : op := mk n t [].
Definition row_ops (mk : str -> str -> list (str * str) -> op) (al : list str) (ty : str) (hv f : list str) : list op :=
  [mk ty [] []; OAddList (record_items al hv f)].

(** ops, header values, header type, next state for a line *)
Definition plan (T : tables) (st : pstate) (ln : line) (hv : list str) (ht : option (option str)) :
  option (list op * list str * option (option str) * pstate) :=
  match st, ln with
  | EMPTY, LTop n t => Some ([OAddPush $"obsBlock" [] []; OAddPush $"obsContext" [] []; OAddPush n t []], hv, Some None, OBSCONTEXT)
  | EMPTY, LHead c ty => Some ([], c, Some (Some ty), FIRST_DATA)
  | OBSCONTEXT, LTop n t => Some ([OAddPopPush n t []], hv, ht, OBSCONTEXT)
  | OBSCONTEXT, LSub n t => Some ([OAdd n t []], hv, ht, OBSCONTEXT)
  | OBSCONTEXT, LHead c ty => Some ([], c, Some (Some ty), FIRST_OBSDATA)
  | FIRST_OBSDATA, LData f =>
      match ht with
      | Some (Some ty) => if (length f <=? length hv)%nat
          then Some ([OPop; OPop; OAddPush $"obsData" [] []] ++ row_ops OAddPush (order_of T ty) ty hv f, hv, ht, OBSDATA) else None
      | _ => None
      end
  | OBSDATA, LTop n t => Some ([OPop; OPop; OPop; OAddPush $"obsBlock" [] []; OAddPush $"obsContext" [] []; OAddPush n t []], hv, Some None, OBSCONTEXT)
  | OBSDATA, LHead c ty => Some ([OPop; OPop; OPop], c, Some (Some ty), FIRST_DATA)
  | OBSDATA, LData f =>
      match ht with
      | Some (Some ty) => if (length f <=? length hv)%nat
          then Some (row_ops OAddPopPush (order_of T ty) ty hv f, hv, ht, OBSDATA) else None
      | _ => None
      end
  | FIRST_DATA, LData f =>
      match ht with
      | Some (Some ty) => if (length f <=? length hv)%nat
          then Some (row_ops OAddPush (order_of T ty) ty hv f, hv, ht, DATA) else None
      | _ => None
      end
  | DATA, LTop n t => Some ([OPop; OAddPush $"obsBlock" [] []; OAddPush $"obsContext" [] []; OAddPush n t []], hv, Some None, OBSCONTEXT)
  | DATA, LHead c ty => Some ([OPop], c, Some (Some ty), FIRST_DATA)
  | DATA, LData f =>
      match ht with
      | Some (Some ty) => if (length f <=? length hv)%nat
          then Some (row_ops OAddPopPush (order_of T ty) ty hv f, hv, ht, DATA) else None
      | _ => None
      end
  | _, _ => None
  end.

Lemma run_ops_app a : forall b s, run_ops (a ++ b) s = do s' <- run_ops a s; run_ops b s'.
Proof. induction a as [|o a IH]; intros b s; cbn; auto. destruct (run_op o s); cbn; auto. Qed.

(** which line a row of the dispatch table sees *)
Definition ht_ok (T : tables) (st : pstate) (ht : option (option str)) : Prop :=
  match st with
  | EMPTY => True
  | OBSCONTEXT => ht = Some None
  | _ => exists ty al, ht = Some (Some ty) /\ dget ty (allowed T) = Some al
  end.

Lemma data_nf T mk next f g ty al : g_headerType g = Some (Some ty) -> dget ty (allowed T) = Some al ->
  dataAction_with T mk next f g =
  if (length f <=? length (g_headerVals g))%nat
  then exec (row_ops mk (order_of T ty) ty (g_headerVals g) f) (g_headerVals g) (Some (Some ty)) next g
  else Err NameError.
Proof.
  intros H D. unfold dataAction_with. rewrite Nat.leb_antisym. destruct (_ <? _)%nat; cbn [negb]; auto.
  rewrite H, D, (order_some _ _ _ D). unfold on_stack, exec, row_ops. destruct (g_stack g) as [s|] eqn:Gs; [|reflexivity].
  cbn [run_ops rbind]. destruct (run_op (mk ty [] []) s) as [s1|]; cbn [rbind]; [|reflexivity].
  cbn [g_stack]. cbn [run_ops rbind]. destruct (run_op (OAddList _) s1) as [s2|]; cbn [rbind]; [|reflexivity].
  unfold set_state. cbn. rewrite H. reflexivity.
Qed.

Definition ctx_of (fs : list str) : option (str * str) :=
  match fs with [] => None | [n] => Some (n, []) | n :: t :: _ => Some (n, t) end.
Lemma ctx_op_of mk fs : ctx_op mk fs = match ctx_of fs with Some (n, t) => Ok (mk n t []) | None => Err IndexError end.
Proof. destruct fs as [|n [|t r]]; reflexivity. Qed.
Lemma line_top fs : line_of TOP_HEADER_LINE fs = match ctx_of fs with Some (n, t) => Some (LTop n t) | None => None end.
Proof. destruct fs as [|n [|t r]]; reflexivity. Qed.
Lemma line_sub fs : line_of SECOND_HEADER_LINE fs = match ctx_of fs with Some (n, t) => Some (LSub n t) | None => None end.
Proof. destruct fs as [|n [|t r]]; reflexivity. Qed.
Lemma line_data fs : line_of DATA_RECORD_LINE fs = Some (LData fs).
Proof. destruct fs; reflexivity. Qed.
Lemma line_head fs : line_of KEYWORD_RECORD_LINE fs = match rev fs with t :: r => Some (LHead (rev r) t) | [] => None end.
Proof. destruct fs; reflexivity. Qed.

Lemma ctx_nf mk next fs g : obsContextAction_with mk next fs g =
  match ctx_of fs with Some (n, t) => exec [mk n t []] (g_headerVals g) (g_headerType g) next g | None => Err IndexError end.
Proof.
  unfold obsContextAction_with. rewrite ctx_op_of. destruct (ctx_of fs) as [[n t]|]; [|reflexivity]. cbn [rbind].
  unfold on_stack, exec. destruct (g_stack g); [|reflexivity]. destruct (run_ops _ _); reflexivity.
Qed.
Lemma sub_nf next fs g : subObsContextAction next fs g =
  match ctx_of fs with Some (n, t) => exec [OAdd n t []] (g_headerVals g) (g_headerType g) next g | None => Err IndexError end.
Proof. apply (ctx_nf OAdd). Qed.

Lemma on_stack_exec {X} ops g (k : glob -> res X) :
  (do g' <- on_stack ops g; k g') =
  match g_stack g with
  | None => Err NameError
  | Some s => do s' <- run_ops ops s;
      k {| g_firstLine := g_firstLine g; g_state := g_state g; g_headerVals := g_headerVals g;
           g_headerType := g_headerType g; g_stack := Some s' |}
  end.
Proof. unfold on_stack. destruct (g_stack g); [|reflexivity]. destruct (run_ops ops e); reflexivity. Qed.

(** running further operations first *)
Lemma exec_pre ops ops' hv ht st g :
  (do g' <- on_stack ops g; exec ops' hv ht st g') = exec (ops ++ ops') hv ht st g.
Proof.
  rewrite on_stack_exec. unfold exec. cbn [g_stack g_firstLine]. destruct (g_stack g); [|reflexivity].
  rewrite run_ops_app. destruct (run_ops ops e); reflexivity.
Qed.
Lemma exec_set_header ops hv ht st g v y : exec ops hv ht st (set_header v y g) = exec ops hv ht st g.
Proof. reflexivity. Qed.
Lemma set_nf hv ht st g : g_stack g <> None -> 
  Ok (set_state st (set_header hv ht g)) = exec [] hv (Some ht) st g.
Proof. unfold exec. cbn [run_ops rbind]. destruct (g_stack g) eqn:E; [|congruence]. intros _. unfold set_state, set_header. cbn. now rewrite E. Qed.

Definition ob_ops (n t : str) := [OAddPush $"obsBlock" [] []; OAddPush $"obsContext" [] []; OAddPush n t []].
Lemma first_nf next fs g : match ctx_of fs with
  | Some (n, t) => firstObsBlockAction next fs g = exec (ob_ops n t) (g_headerVals g) (Some None) next g
  | None => is_ok (firstObsBlockAction next fs g) = false
  end.
Proof.
  unfold firstObsBlockAction. rewrite on_stack_exec. cbn [g_stack set_header].
  destruct (ctx_of fs) as [[n t]|] eqn:E.
  - unfold exec. destruct (g_stack g); [|reflexivity]. change (ob_ops n t) with ([OAddPush $"obsBlock" [] []; OAddPush $"obsContext" [] []] ++ [OAddPush n t []]).
    rewrite run_ops_app. destruct (run_ops _ e); [|reflexivity]. cbn [rbind]. rewrite ctx_nf, E. reflexivity.
  - destruct (g_stack g); [|reflexivity]. destruct (run_ops _ e); [|reflexivity]. cbn [rbind]. rewrite ctx_nf, E. reflexivity.
Qed.
Lemma first_pre ops next fs g : match ctx_of fs with
  | Some (n, t) => (do g' <- on_stack ops g; firstObsBlockAction next fs g') = exec (ops ++ ob_ops n t) (g_headerVals g) (Some None) next g
  | None => is_ok (do g' <- on_stack ops g; firstObsBlockAction next fs g') = false
  end.
Proof.
  destruct (ctx_of fs) as [[n t]|] eqn:E.
  - rewrite <- exec_pre, !on_stack_exec. destruct (g_stack g); [|reflexivity]. destruct (run_ops ops e); [|reflexivity]. cbn [rbind].
    match goal with |- firstObsBlockAction _ _ ?g' = _ => pose proof (first_nf next fs g') as K end. rewrite E in K. exact K.
  - rewrite on_stack_exec. destruct (g_stack g); [|reflexivity]. destruct (run_ops ops e); [|reflexivity]. cbn [rbind].
    match goal with |- is_ok (firstObsBlockAction _ _ ?g') = _ => pose proof (first_nf next fs g') as K end. rewrite E in K. exact K.
Qed.

Lemma open_nf next fs g : g_stack g <> None -> openDataKeywordHeaderAction next fs g =
  match rev fs with t :: r => exec [] (rev r) (Some (Some t)) next g | [] => Err IndexError end.
Proof. intros N. unfold openDataKeywordHeaderAction. destruct (rev fs); [reflexivity|]. now apply set_nf. Qed.
Lemma open_pre ops next fs g : g_stack g <> None ->
  match rev fs with
  | t :: r => (do g' <- on_stack ops g; openDataKeywordHeaderAction next fs g') = exec ops (rev r) (Some (Some t)) next g
  | [] => is_ok (do g' <- on_stack ops g; openDataKeywordHeaderAction next fs g') = false
  end.
Proof.
  intros N. destruct (rev fs) as [|t r] eqn:E.
  - rewrite on_stack_exec. destruct (g_stack g); [|reflexivity]. destruct (run_ops ops e); [|reflexivity]. cbn [rbind].
    unfold openDataKeywordHeaderAction. now rewrite E.
  - rewrite <- (app_nil_r ops) at 2. rewrite <- exec_pre, !on_stack_exec.
    destruct (g_stack g); [|reflexivity]. destruct (run_ops ops e); [|reflexivity]. cbn [rbind].
    rewrite open_nf by (cbn; congruence). now rewrite E.
Qed.

Lemma act_plan T st k fs g : ht_ok T st (g_headerType g) -> g_stack g <> None ->
  let '(next, act) := stateTransitions T st k in
  match line_of k fs with
  | Some ln =>
      match plan T st ln (g_headerVals g) (g_headerType g) with
      | Some (ops, hv, ht, next') => act next fs g = exec ops hv ht next' g
      | None => is_ok (act next fs g) = false
      end
  | None => is_ok (act next fs g) = false
  end.
Proof.
  intros H N.
  destruct k; [rewrite line_top|rewrite line_sub|rewrite line_head|rewrite line_data].
  - destruct st; cbn [stateTransitions];
      try (destruct (ctx_of fs) as [[n t]|]; reflexivity).
    + pose proof (first_nf OBSCONTEXT fs g) as K. destruct (ctx_of fs) as [[n t]|]; exact K.
    + unfold obsContextAction. rewrite ctx_nf. destruct (ctx_of fs) as [[n t]|]; reflexivity.
    + unfold closeObsBlockOpenObsBlockAction. cbn zeta.
      pose proof (first_pre [OPop; OPop; OPop] OBSCONTEXT fs (set_header (g_headerVals g) None g)) as K.
      destruct (ctx_of fs) as [[n t]|]; exact K.
    + pose proof (first_pre [OPop] OBSCONTEXT fs g) as K.
      destruct (ctx_of fs) as [[n t]|]; exact K.
  - destruct st; cbn [stateTransitions];
      try (destruct (ctx_of fs) as [[n t]|]; reflexivity).
    rewrite sub_nf. destruct (ctx_of fs) as [[n t]|]; reflexivity.
  - destruct st; cbn [stateTransitions];
      try (destruct (rev fs) as [|t r]; reflexivity).
    + rewrite open_nf by auto. destruct (rev fs); reflexivity.
    + cbn [ht_ok] in H. unfold keywordHeaderAction. rewrite H. destruct (rev fs) as [|t r]; [reflexivity|].
      cbn [plan]. now apply set_nf.
    + pose proof (open_pre [OPop; OPop; OPop] FIRST_DATA fs g N) as K. destruct (rev fs); exact K.
    + pose proof (open_pre [OPop] FIRST_DATA fs g N) as K. destruct (rev fs); exact K.
  - destruct st; cbn [stateTransitions]; try reflexivity; cbn [ht_ok] in H; destruct H as (ty & al & Ht & Ha).
    + unfold firstObsDataAction. cbn [plan]. rewrite Ht. rewrite on_stack_exec.
      destruct (g_stack g) as [s|] eqn:Gs; [|congruence].
      destruct (length fs <=? length (g_headerVals g))%nat eqn:L.
      * unfold exec. rewrite Gs, run_ops_app. destruct (run_ops [OPop; OPop; OAddPush $"obsData" [] []] s); [|reflexivity]. cbn [rbind].
        rewrite (data_nf _ _ _ _ _ ty al) by (auto). cbn [g_headerVals]. rewrite L. reflexivity.
      * destruct (run_ops [OPop; OPop; OAddPush $"obsData" [] []] s); [|reflexivity]. cbn [rbind].
        rewrite (data_nf _ _ _ _ _ ty al) by (auto). cbn [g_headerVals]. rewrite L. reflexivity.
    + unfold dataAction. rewrite (data_nf _ _ _ _ _ ty al) by auto. cbn [plan]. rewrite Ht.
      destruct (_ <=? _)%nat; reflexivity.
    + unfold firstDataAction. rewrite (data_nf _ _ _ _ _ ty al) by auto. cbn [plan]. rewrite Ht.
      destruct (_ <=? _)%nat; reflexivity.
    + unfold dataAction. rewrite (data_nf _ _ _ _ _ ty al) by auto. cbn [plan]. rewrite Ht.
      destruct (_ <=? _)%nat; reflexivity.
Qed.

(** * the plan follows the grammar *)
Definition ln_ok (T : tables) (ln : line) : Prop :=
  match ln with LHead _ ty => exists al, dget ty (allowed T) = Some al | _ => True end.

Lemma leb_case {X} a b (x y : X) : (if (a <=? b)%nat then x else y) = (if (a <=? b)%nat then x else y).
Proof. reflexivity. Qed.

Lemma z_row mk al ty hv f z : (mk = OAddPush \/ mk = OAddPopPush) ->
  z_ops (row_ops mk al ty hv f) z =
  match mk ty [] [] with
  | OAddPush _ _ _ => Some (row_frame al ty hv f :: z)
  | _ => match z_pop z with Some z' => Some (row_frame al ty hv f :: z') | None => None end
  end.
Proof.
  intros D. unfold row_ops. rewrite record_items_spec. unfold row_frame.
  destruct D as [-> | ->]; cbn [z_ops z_op].
  - cbn [z_addkids push_kids app]. rewrite map_map. reflexivity.
  - destruct (z_pop z); [|reflexivity]. cbn [z_addkids push_kids app]. rewrite map_map. reflexivity.
Qed.

Lemma plan_step T v d st z hv ht ln : Z T v d st z hv ht -> ln_ok T ln ->
  match plan T st ln hv ht with
  | Some (ops, hv', ht', st') =>
      exists d' z', doc_step d ln = Some d' /\ z_ops ops z = Some z' /\ Z T v d' st' z' hv' ht'
  | None => doc_step d ln = None
  end.
Proof.
  intros HZ Hl. destruct HZ; destruct ln as [n t|n t|c ty0|f]; cbn [plan]; try reflexivity.
  - (* EMPTY, top *)
    eexists; eexists; split; [reflexivity|]; split; [reflexivity|].
    apply (Z_ctx T v [] [] {| i_name := n; i_text := t; i_subs := [] |}).
  - destruct Hl as [al Ha]. eexists; eexists; split; [reflexivity|]; split; [reflexivity|]. eapply (Z_fdata T v []); eauto.
  - (* OBSCONTEXT *)
    eexists; eexists; split; [reflexivity|]; split; [reflexivity|].
    match goal with |- Z _ _ _ _ ?z _ _ =>
      replace z with ([item_frame {| i_name := n; i_text := t; i_subs := [] |}; ctxf (its ++ [i]); ($"obsBlock", [], [], []); A v (flat_map (section_trees T) secs)]) end.
    + apply Z_ctx.
    + unfold ctxf. rewrite map_app. reflexivity.
  - cbn [doc_step d_tail d_secs]. rewrite rev_app_distr. cbn [rev app]. rewrite rev_involutive.
    eexists; eexists; split; [reflexivity|]; split; [reflexivity|].
    match goal with |- Z _ _ _ _ ?z _ _ =>
      replace z with ([item_frame (with_sub i n t); ctxf its; ($"obsBlock", [], [], []); A v (flat_map (section_trees T) secs)]) end.
    + apply Z_ctx.
    + unfold item_frame. cbn [with_sub i_subs i_name i_text]. rewrite map_app. reflexivity.
  - destruct Hl as [al Ha]. eexists; eexists; split; [reflexivity|]; split; [reflexivity|]. eapply Z_fobs; eauto.
  - (* FIRST_OBSDATA, data *)
    cbn [doc_step d_tail d_secs]. destruct (_ <=? _)%nat; [|reflexivity].
    rewrite (order_some _ _ _ H). rewrite z_ops_app.
    destruct (its ++ [i]) as [|j js] eqn:Ej; [destruct its; discriminate|].
    eexists; eexists; split; [reflexivity|]; split.
    + cbn [z_ops z_op z_pop push_kids item_frame ctxf A app]. rewrite z_row by auto. reflexivity.
    + match goal with |- Z _ _ _ _ ?z _ _ =>
        replace z with ([row_frame al ty cols f; ($"obsData", [], [], map (row_tree al ty cols) []);
          ($"obsBlock", [], [], [fclose (ctxf (j :: js))]); A v (flat_map (section_trees T) secs)]) end.
      * apply (Z_obs T v secs j js cols ty [] f al H).
      * rewrite <- Ej. unfold ctxf. rewrite map_app. reflexivity.
  - (* FIRST_DATA, data *)
    cbn [doc_step d_tail d_secs]. destruct (_ <=? _)%nat; [|reflexivity].
    rewrite (order_some _ _ _ H). rewrite z_row by auto.
    eexists; eexists; split; [reflexivity|]; split; [reflexivity|].
    match goal with |- Z _ _ _ _ ?z _ _ =>
        replace z with ([row_frame al ty cols f; A v (flat_map (section_trees T) secs ++ map (row_tree al ty cols) [])]) end.
    * apply (Z_data T v secs cols ty [] f al H).
    * cbn [map]. now rewrite app_nil_r.
  - (* DATA, top *)
    eexists; eexists; split; [reflexivity|]; split; [reflexivity|].
    match goal with |- Z _ _ {| d_secs := ?ss; d_tail := _ |} _ ?z _ _ =>
        replace z with ([item_frame {| i_name := n; i_text := t; i_subs := [] |}; ctxf []; ($"obsBlock", [], [], []); A v (flat_map (section_trees T) ss)]) end.
    + apply (Z_ctx T v _ [] {| i_name := n; i_text := t; i_subs := [] |}).
    + cbn [d_secs]. rewrite flat_map_app'. cbn [flat_map]. rewrite app_nil_r, (section_trees_data _ _ _ _ _ H), map_app. unfold item_frame, ctxf, A. cbn.
      now rewrite app_assoc.
  - (* DATA, head *)
    destruct Hl as [al0 Ha]. eexists; eexists; split; [reflexivity|]; split; [reflexivity|].
    match goal with |- Z _ _ {| d_secs := ?ss; d_tail := _ |} _ ?z _ _ =>
        replace z with ([A v (flat_map (section_trees T) ss)]) end.
    + eapply Z_fdata; eauto.
    + cbn [d_secs]. rewrite flat_map_app'. cbn [flat_map]. rewrite app_nil_r, (section_trees_data _ _ _ _ _ H), map_app. unfold A. cbn.
      now rewrite app_assoc.
  - (* DATA, data *)
    cbn [doc_step d_tail d_secs]. rewrite rev_app_distr. cbn [rev app s_cols]. rewrite rev_involutive. destruct (_ <=? _)%nat; [|reflexivity].
    rewrite (order_some _ _ _ H). rewrite z_row by auto.
    eexists; eexists; split; [reflexivity|]; split; [reflexivity|].
    match goal with |- Z _ _ _ _ ?z _ _ =>
        replace z with ([row_frame al ty cols f; A v (flat_map (section_trees T) secs ++ map (row_tree al ty cols) (rows ++ [r]))]) end.
    * apply (Z_data T v secs cols ty (rows ++ [r]) f al H).
    * rewrite map_app. unfold A. cbn. now rewrite <- app_assoc.
  - (* OBSDATA, top *)
    eexists; eexists; split; [reflexivity|]; split; [reflexivity|].
    match goal with |- Z _ _ {| d_secs := ?ss; d_tail := _ |} _ ?z _ _ =>
        replace z with ([item_frame {| i_name := n; i_text := t; i_subs := [] |}; ctxf []; ($"obsBlock", [], [], []); A v (flat_map (section_trees T) ss)]) end.
    + apply (Z_ctx T v _ [] {| i_name := n; i_text := t; i_subs := [] |}).
    + cbn [d_secs]. rewrite flat_map_app'. cbn [flat_map]. rewrite app_nil_r, (section_trees_obs _ _ _ _ _ _ _ H), map_app. unfold item_frame, ctxf, A. cbn. reflexivity.
  - (* OBSDATA, head *)
    destruct Hl as [al0 Ha]. eexists; eexists; split; [reflexivity|]; split; [reflexivity|].
    match goal with |- Z _ _ {| d_secs := ?ss; d_tail := _ |} _ ?z _ _ =>
        replace z with ([A v (flat_map (section_trees T) ss)]) end.
    + eapply Z_fdata; eauto.
    + cbn [d_secs]. rewrite flat_map_app'. cbn [flat_map]. rewrite app_nil_r, (section_trees_obs _ _ _ _ _ _ _ H), map_app. unfold A. cbn. reflexivity.
  - (* OBSDATA, data *)
    cbn [doc_step d_tail d_secs]. rewrite rev_app_distr. cbn [rev app s_cols]. rewrite rev_involutive. destruct (_ <=? _)%nat; [|reflexivity].
    rewrite (order_some _ _ _ H). rewrite z_row by auto.
    eexists; eexists; split; [reflexivity|]; split; [reflexivity|].
    match goal with |- Z _ _ _ _ ?z _ _ =>
        replace z with ([row_frame al ty cols f; ($"obsData", [], [], map (row_tree al ty cols) (rows ++ [r]));
       ($"obsBlock", [], [], [fclose (ctxf (i :: its))]); A v (flat_map (section_trees T) secs)]) end.
    * apply (Z_obs T v secs i its cols ty (rows ++ [r]) f al H).
    * rewrite map_app. reflexivity.
Qed.
