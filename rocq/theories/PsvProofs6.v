(** Shape of the result, errors, second conversion, last line. *)
From Verif Require Import PyStrProofs XmlSpec XmlProofs PsvToXml PsvSpec PsvLines TablesProofs PsvProofs1 PsvProofs2 PsvProofs3 PsvSpec2 PsvProofs4 PsvProofs5.

(** * records and shape *)
Lemma sections_typed T rest d : Forall2 (reads_as T) rest (doc_lines d) ->
  Forall (fun s => header_has_type T (s_cols s) (s_type s) /\ Forall (Forall is_trimmed) (s_rows s)) (d_secs d).
Proof.
  intros F. apply Forall_forall. intros s I.
  assert (K : forall ln, In ln (section_lines s) -> exists raw, reads_as T raw ln).
  { intros ln Il. assert (J : In ln (doc_lines d)).
    { unfold doc_lines. apply in_or_app. left. apply in_flat_map. eauto. }
    clear -F J. induction F; [contradiction|]. destruct J as [<-|J]; eauto. }
  split.
  - destruct (K (LHead (s_cols s) (s_type s))) as [raw R].
    { unfold section_lines. apply in_or_app. right. now left. }
    inversion R; subst; auto.
  - apply Forall_forall. intros r Ir. destruct (K (LData r)) as [raw R].
    { unfold section_lines. apply in_or_app. right. right. now apply in_map. }
    inversion R; subst. unfold cells. apply Forall_forall. intros x Ix. apply in_map_iff in Ix as (y & <- & _).
    apply is_trimmed_iff. apply strip_is_trimmed.
Qed.

Lemma value_In : forall H row k, value_of H row k = [] \/ In (value_of H row k) row.
Proof.
  induction H as [|h H IH]; intros [|x row] k; cbn [value_of]; auto.
  destruct (_ && _); [right; now left|]. destruct (IH row k); auto. right. now right.
Qed.
Lemma filter_subseq {A} (f : A -> bool) l : subsequence (filter f l) l.
Proof. induction l; cbn; [constructor|]. destruct (f a); [apply sub_take|apply sub_skip]; auto. Qed.

Lemma row_good T types s row : dget $"ades" (allowed T) = Some types ->
  header_has_type T (s_cols s) (s_type s) -> Forall is_trimmed row ->
  good_record T (row_tree (order_of T (s_type s)) (s_type s) (s_cols s) row).
Proof.
  intros Ht (pre & post & A & (al & rq & B & _) & _) F. unfold good_record, row_tree. cbn [xattrs xtext xkids xtag].
  split; auto. split; auto. split.
  - apply Forall_forall. intros x Ix. apply in_map_iff in Ix as (k & <- & Ik). apply filter_In in Ik as [_ Ek].
    apply negb_true_iff in Ek. unfold good_leaf, leaf. cbn. repeat split; auto.
    + intros E. rewrite E in Ek. discriminate.
    + destruct (value_In (s_cols s) row k) as [E|I]; [rewrite E; reflexivity|]. rewrite Forall_forall in F. now apply F.
  - exists (pre ++ s_type s :: post), al. repeat split; auto.
    + apply in_or_app. right. now left.
    + rewrite map_map. cbn. rewrite map_id. rewrite (order_some _ _ _ B). apply filter_subseq.
Qed.

Definition not_block (T : tables) (s : section) : Prop := s_type s <> $"obsBlock".

Lemma records_app v ks1 ks2 : records (Elem $"ades" v [] (ks1 ++ ks2)) = records (Elem $"ades" v [] ks1) ++ records (Elem $"ades" v [] ks2).
Proof. unfold records. cbn [xkids]. apply flat_map_app'. Qed.

Lemma records_good T lines t : tables_ok T -> psv_means T lines t -> Forall (good_record T) (records t).
Proof.
  intros HT M. apply means_iff in M as (vl & rest & version & d & E & VL & FL & DK & -> & W).
  destruct HT as (types & HT & _). pose proof (sections_typed T rest d FL) as S.
  unfold doc_tree. rewrite records_app. apply Forall_app. split.
  - induction S as [|s ss [Hs Hr] S IH]; [constructor|]. cbn [flat_map]. rewrite records_app. apply Forall_app. split; auto.
    unfold section_trees. destruct (s_ctx s) as [|i its].
    + unfold rows_trees. clear IH. induction Hr as [|r rs Hr Hrs IHr]; [constructor|]. cbn [map].
      change (?x :: ?l) with ([x] ++ l). rewrite records_app. apply Forall_app. split; auto.
      unfold records. cbn [xkids flat_map]. rewrite app_nil_r.
      destruct (is_tag $"obsBlock" _).
      * replace (flat_map xkids _) with (@nil xml); [constructor|].
        unfold row_tree. cbn [xkids]. generalize (filter (fun k => negb (streqb (value_of (s_cols s) r k) [])) (order_of T (s_type s))).
        intros l. induction l as [|k l IHl]; auto. cbn [map filter]. destruct (is_tag _ _); cbn [flat_map leaf xkids app]; auto.
      * constructor; [|constructor]. eapply row_good; eauto.
    + unfold records, block. cbn [xkids flat_map].
      change (is_tag $"obsBlock" (Elem $"obsBlock" ?a ?b ?c)) with true. cbn iota. cbn [xkids filter].
      change (is_tag $"obsData" (Elem $"obsContext" ?a ?b ?c)) with false.
      change (is_tag $"obsData" (Elem $"obsData" ?a ?b ?c)) with true. cbn iota. cbn [flat_map xkids]. rewrite !app_nil_r.
      unfold rows_trees. apply Forall_forall. intros x I. apply in_map_iff in I as (r & <- & Ir).
      eapply row_good; eauto. rewrite Forall_forall in Hr. now apply Hr.
  - assert (B : forall its, records (Elem $"ades" [($"version", version)] [] [block its []]) = []) by reflexivity.
    destruct (d_tail d) as [|its|[|i its] c ty]; cbn [tail_trees]; rewrite ?B; constructor.
Qed.

Lemma shape T lines t types : dget $"ades" (allowed T) = Some types -> psv_means T lines t -> ades_shape types t.
Proof.
  intros HT M. apply means_iff in M as (vl & rest & version & d & E & VL & FL & DK & -> & W).
  pose proof (sections_typed T rest d FL) as S. destruct DK as [OK N].
  exists version, (flat_map (section_trees T) (d_secs d)), (tail_trees (d_tail d)). split; [reflexivity|]. split.
  - apply Forall_flat_map. rewrite Forall_forall in *. intros s Is. destruct (S s Is) as [(pre & post & A & _) _].
    rewrite HT in A. apply some_inj in A. subst types. destruct (OK s Is) as [NR _].
    unfold section_trees. destruct (s_ctx s) as [|i its].
    + apply Forall_forall. intros x I. right. unfold rows_trees in I. apply in_map_iff in I as (r & <- & _).
      unfold record_of, row_tree. cbn. apply in_or_app. right. now left.
    + constructor; [|constructor]. left. exists (map item_tree (i :: its)), (rows_trees T s).
      split; [reflexivity|]. split; [discriminate|]. unfold rows_trees. destruct (s_rows s); [congruence|discriminate].
  - destruct (d_tail d) as [|its|[|i its] c ty] eqn:Et; cbn [tail_trees]; auto.
    + right. exists (block its []). split; auto. exists (map item_tree its). split; [reflexivity|].
      specialize (N its eq_refl). destruct its; [congruence|discriminate].
    + right. exists (block (i :: its) []). split; auto. exists (map item_tree (i :: its)). split; [reflexivity|discriminate].
Qed.

(** * errors *)
Lemma prefix_inv T lines d : tables_ok T -> prefix_means T lines d ->
  exists v g, parse_all T lines g_init = Ok g /\ Inv T v g d.
Proof.
  intros HT (vl & rest & version & E & VL & FL & DK & W). apply well_named_iff in W.
  destruct (find_nonblank lines) as [F|(b & v' & r' & -> & F & N)].
  - exfalso. replace (filter nonblank lines) with (@nil str) in E; [discriminate|].
    clear -F. induction F; auto. cbn. apply nonblank_false in H. now rewrite H.
  - rewrite filter_app in E. cbn [filter] in E. rewrite N in E.
    replace (filter nonblank b) with (@nil str) in E.
    2: { clear -F. induction F; auto. cbn. apply nonblank_false in H. now rewrite H. }
    cbn in E. inversion E; subst.
    rewrite parse_all_app, parse_blanks by auto. cbn [rbind parse_all].
    pose proof (doc_steps_complete d DK) as D.
    assert (V0 : valid_text version = true).
    { unfold doc_tree in W. cbn [xml_valid] in W. rewrite <- version_ok. cbn [xml_valid]. apply andb_prop in W as [W _].
      rewrite W. reflexivity. }
    destruct (first_line_ok T vl version g_init eq_refl eq_refl VL V0) as (g1 & E1 & I1). rewrite E1. cbn [rbind].
    destruct (body_complete T version r' HT _ _ _ _ I1 FL D W) as (g2 & E2 & I2). eauto.
Qed.

Lemma doc_step_none d ln : doc_ok d ->
  (~ exists d', doc_ok d' /\ doc_lines d' = doc_lines d ++ [ln]) -> doc_step d ln = None.
Proof.
  intros DK N. destruct (doc_step d ln) as [d'|] eqn:E; auto. exfalso. apply N.
  destruct (doc_step_sound _ _ _ DK E) as [DK' L]. eauto.
Qed.

(** the plan refuses with NameError *)
Lemma refuse T v d z g s k fs ln : Z T v d (g_state g) z (g_headerVals g) (g_headerType g) ->
  g_stack g = Some s -> R s z -> opened s <> [] -> zvalid z = true ->
  ln_ok T ln -> line_of k fs = Some ln -> doc_step d ln = None ->
  let '(next, act) := stateTransitions T (g_state g) k in act next fs g = Err NameError.
Proof.
  intros HZ Gs HR NO V Hl L D. pose proof (plan_step _ _ _ _ _ _ _ ln HZ Hl) as P.
  destruct (plan T (g_state g) ln (g_headerVals g) (g_headerType g)) as [[[[ops hv'] ht'] st']|] eqn:Ep.
  { destruct P as (d' & z' & E & _). congruence. }
  assert (LT : forall n t, line_of TOP_HEADER_LINE fs = Some (LTop n t) \/ line_of TOP_HEADER_LINE fs = None \/ True) by auto.
  pose proof (Z_ht _ _ _ _ _ _ _ HZ) as Ht.
  destruct k; [rewrite line_top in L|rewrite line_sub in L|rewrite line_head in L|rewrite line_data in L].
  - destruct (ctx_of fs) as [[n t]|]; [|discriminate]. apply some_inj in L. subst ln.
    destruct (g_state g); cbn [plan stateTransitions] in *; try discriminate; reflexivity.
  - destruct (ctx_of fs) as [[n t]|]; [|discriminate]. apply some_inj in L. subst ln.
    destruct (g_state g); cbn [plan stateTransitions] in *; try discriminate; reflexivity.
  - destruct (rev fs) as [|ty r]; [discriminate|]. apply some_inj in L. subst ln.
    destruct (g_state g); cbn [plan stateTransitions] in *; try discriminate; reflexivity.
  - apply some_inj in L. subst ln.
    destruct (g_state g) eqn:St; cbn [plan stateTransitions ht_ok] in *; try reflexivity; destruct Ht as (ty & al & Et & Ea); rewrite Et in Ep.
    + destruct (length fs <=? length (g_headerVals g))%nat eqn:Le; [discriminate|].
      unfold firstObsDataAction. rewrite on_stack_exec, Gs.
      pose proof (run_ops_z [OPop; OPop; OAddPush $"obsData" [] []] s z HR NO V) as RZ.
      destruct (run_ops _ s) as [s'|e].
      * cbn [rbind]. rewrite (data_nf _ _ _ _ _ ty al) by auto. cbn [g_headerVals]. now rewrite Le.
      * exfalso.
        assert (exists z', z_ops [OPop; OPop; OAddPush $"obsData" [] []] z = Some z') as [z' Ez].
        { clear -HZ. remember FIRST_OBSDATA as st. destruct HZ; try discriminate. eexists. reflexivity. }
        apply (RZ z' Ez). rewrite (z_ops_valid _ _ _ (Z_ne _ _ _ _ _ _ _ HZ) Ez), V. reflexivity.
    + unfold dataAction. rewrite (data_nf _ _ _ _ _ ty al) by auto. destruct (_ <=? _)%nat; [discriminate|reflexivity].
    + unfold firstDataAction. rewrite (data_nf _ _ _ _ _ ty al) by auto. destruct (_ <=? _)%nat; [discriminate|reflexivity].
    + unfold dataAction. rewrite (data_nf _ _ _ _ _ ty al) by auto. destruct (_ <=? _)%nat; [discriminate|reflexivity].
Qed.

Lemma data_kind T raw : tables_ok T -> data_line raw -> parsePSVLine T raw = Ok (Some (DATA_RECORD_LINE, cells raw)).
Proof.
  intros HT D. pose proof (parse_reads T raw HT) as P. pose proof (reads_data T raw D (LData (cells raw))) as [_ K]. specialize (K eq_refl).
  destruct (parsePSVLine T raw) as [[[k fs]|]|e].
  - destruct P as [_ P]. apply P in K.
    destruct k; [rewrite line_top in K|rewrite line_sub in K|rewrite line_head in K|rewrite line_data in K].
    + destruct (ctx_of fs) as [[? ?]|]; discriminate.
    + destruct (ctx_of fs) as [[? ?]|]; discriminate.
    + destruct (rev fs); discriminate.
    + apply some_inj in K. congruence.
  - exfalso. apply nonblank_false in P. rewrite (data_nonblank _ D) in P. discriminate.
  - destruct P as (_ & _ & P). now apply P in K.
Qed.

Lemma refused T lines pre raw post d ln g0 : tables_ok T -> lines = pre ++ raw :: post -> g0 = g_init ->
  prefix_means T pre d -> reads_as T raw ln ->
  (~ exists d', doc_ok d' /\ doc_lines d' = doc_lines d ++ [ln]) ->
  parse_all T lines g0 = Err NameError.
Proof.
  intros HT -> -> PM RL N. destruct (prefix_inv T pre d HT PM) as (v & g & E & [F (z & s & HZ & Gs & HR & NO & V)]).
  assert (DK : doc_ok d) by (destruct PM as (? & ? & ? & ? & ? & ? & ? & ?); auto).
  apply doc_step_none in N; auto.
  rewrite parse_all_app, E. cbn [rbind parse_all]. pose proof (parse_reads T raw HT) as P. unfold parsePSV.
  destruct (parsePSVLine T raw) as [[[k fs]|]|e]; cbn [rbind].
  - destruct P as [_ P]. rewrite F. pose proof (refuse T v d z g s k fs ln HZ Gs HR NO V (reads_ln_ok _ _ _ RL)) as K.
    destruct (stateTransitions T (g_state g) k) as [next act]. rewrite K; auto. now apply P.
  - exfalso. apply strip_nil_iff in P. inversion RL; subst;
          try (apply starts_ctx in H; [|reflexivity]; destruct H as [q K]; congruence).
        + apply H. now apply strip_nil_iff.
        + apply H1. rewrite <- firstchars_iff. rewrite cells_space; [reflexivity|]. now apply strip_nil_iff.
  - destruct P as (_ & _ & P). now apply P in RL.
Qed.

Lemma too_many_step d f : match current_columns d with Some cols => (length cols < length f)%nat | None => True end ->
  doc_step d (LData f) = None.
Proof.
  unfold current_columns. destruct d as [ss tl]. cbn [d_tail d_secs]. destruct tl as [|its|its c ty]; cbn [doc_step d_tail d_secs]; auto.
  - destruct (rev ss) as [|s r]; auto. intros L. replace (_ <=? _)%nat with false; auto. symmetry. apply Nat.leb_gt. exact L.
  - intros L. replace (_ <=? _)%nat with false; auto. symmetry. apply Nat.leb_gt. exact L.
Qed.
Lemma step_none_iff d ln : doc_ok d -> doc_step d ln = None -> ~ exists d', doc_ok d' /\ doc_lines d' = doc_lines d ++ [ln].
Proof.
  intros DK N (d' & DK' & E). pose proof (doc_steps_complete d' DK') as C. rewrite E, doc_steps_app, (doc_steps_complete d DK) in C.
  cbn in C. rewrite N in C. discriminate.
Qed.

Lemma too_many T content pre raw post d : tables_ok T -> lines_of content = pre ++ raw :: post ->
  prefix_means T pre d -> data_line raw ->
  match current_columns d with Some cols => (length cols < length (cells raw))%nat | None => True end ->
  psvtoxml T content g_init = Err NameError.
Proof.
  intros HT E PM D C. unfold psvtoxml. fold (lines_of content).
  assert (DK : doc_ok d) by (destruct PM as (? & ? & ? & ? & ? & ? & ? & ?); auto).
  rewrite (refused T _ pre raw post d (LData (cells raw)) g_init HT E eq_refl PM); auto.
  - now apply reads_data.
  - apply step_none_iff; auto. now apply too_many_step.
Qed.
Lemma refused_psv T content pre raw post d ln : tables_ok T -> lines_of content = pre ++ raw :: post ->
  prefix_means T pre d -> reads_as T raw ln ->
  (~ exists d', doc_ok d' /\ doc_lines d' = doc_lines d ++ [ln]) ->
  psvtoxml T content g_init = Err NameError.
Proof.
  intros HT E PM RL N. unfold psvtoxml. fold (lines_of content).
  now rewrite (refused T _ pre raw post d ln g_init HT E eq_refl PM RL N).
Qed.

(** * the last line *)
Lemma file_lines_snoc c x : ceqb x nl = false ->
  map (fun l => removelast l) (file_lines (c ++ [x])) = map (fun l => removelast l) (file_lines (c ++ [nl])).
Proof.
  intros N. induction c as [|y c IH].
  - cbn. rewrite N. reflexivity.
  - cbn [app file_lines]. destruct (ceqb y nl) eqn:E; cbn [map]; [now rewrite IH|].
    assert (G : forall d, file_lines (c ++ [d]) <> []).
    { intros d. destruct c as [|z c]; cbn; [destruct (ceqb d nl); discriminate|].
      destruct (ceqb z nl); [discriminate|]. destruct (file_lines (c ++ [d])); discriminate. }
    assert (M : forall d, Forall (fun l => l <> []) (file_lines (c ++ [d]))).
    { clear. intros d. generalize (c ++ [d]). intros s. induction s as [|z s IH]; cbn; [constructor|].
      destruct (ceqb z nl); [constructor; [discriminate|auto]|]. destruct IH; constructor; auto; discriminate. }
    pose proof (G x) as Gx. pose proof (G nl) as Gn. pose proof (M x) as Mx. pose proof (M nl) as Mn.
    destruct (file_lines (c ++ [x])) as [|l ls]; [congruence|]. destruct (file_lines (c ++ [nl])) as [|l' ls']; [congruence|].
    cbn [map] in *. injection IH as I1 I2. rewrite I2. f_equal. inversion Mx; inversion Mn; subst.
    destruct l as [|a l]; [congruence|]. destruct l' as [|a' l']; [congruence|].
    change (removelast (y :: a :: l)) with (y :: removelast (a :: l)). change (removelast (y :: a' :: l')) with (y :: removelast (a' :: l')).
    now rewrite I1.
Qed.
Lemma univ_no_cr s : no_cr s -> univ_newlines s = s.
Proof.
  unfold no_cr. induction s as [|c s IH]; intros N; cbn [univ_newlines]; auto.
  replace (ceqb c cr) with false.
  - f_equal. apply IH. intros I. apply N. now right.
  - symmetry. apply ceqb_neq. intros ->. apply N. now left.
Qed.
Lemma last_char T c x g : no_cr (c ++ [x]) -> x <> nl -> psvtoxml T (c ++ [x]) g = psvtoxml T (c ++ [nl]) g.
Proof.
  intros N Nx. unfold psvtoxml.
  assert (N2 : no_cr (c ++ [nl])).
  { intros I. apply in_app_or in I as [I|[I|[]]]; [|discriminate I]. apply N. apply in_or_app. now left. }
  rewrite !univ_no_cr by auto. rewrite (file_lines_snoc c x) by now apply ceqb_neq. reflexivity.
Qed.

(** * a second conversion *)
Lemma left_behind T content t g : tables_ok T -> psvtoxml T content g_init = Ok (t, g) ->
  exists v d s z hv ht, Z T v d (g_state g) z hv ht /\ g_firstLine g = false /\ g_stack g = Some s /\ opened s = [] /\
    t = doc_tree T v d /\ hv = g_headerVals g /\ ht = g_headerType g.
Proof.
  intros HT E. unfold psvtoxml in E. fold (lines_of content) in E.
  destruct (parse_all T (lines_of content) g_init) as [g'|e] eqn:Ep; [|destruct e; discriminate].
  destruct (find_nonblank (lines_of content)) as [F|(b & vl & r & El & F & NV)].
  - rewrite parse_blanks in Ep by auto. apply Ok_inj in Ep. subst g'. discriminate.
  - rewrite El, parse_all_app, parse_blanks in Ep by auto. cbn [rbind parse_all] in Ep.
    destruct (parsePSV T vl g_init) as [g1|] eqn:E1; cbn [rbind] in Ep; [|discriminate].
    destruct (first_line T vl g_init g1 eq_refl eq_refl NV E1) as (v & VL & I1).
    destruct (body_sound T v r HT _ _ _ I1 Ep) as (L & d & FL & D & I).
    destruct (Inv_take _ _ _ _ I) as (s & s' & Gs & Et & O). rewrite Gs, Et in E. cbn [rbind] in E.
    apply Ok_inj in E. injection E as <- <-. destruct I as [Fl (z & s0 & HZ & _)].
    exists v, d, s', z, (g_headerVals g'), (g_headerType g'). cbn. repeat split; auto.
Qed.

Lemma second_call T c1 t1 g c2 b vl r v : tables_ok T ->
  psvtoxml T c1 g_init = Ok (t1, g) -> xkids t1 <> [] \/ g_state g <> EMPTY ->
  lines_of c2 = b ++ vl :: r -> Forall all_space b -> version_line vl v ->
  exists e, psvtoxml T c2 g = Err e /\ (e = SystemExit \/ e = NameError).
Proof.
  intros HT E1 NE E2 F VL. destruct (left_behind T c1 t1 g HT E1) as (v1 & d & s & z & hv & ht & HZ & Fl & Gs & Op & -> & -> & ->).
  assert (NE' : g_state g <> EMPTY).
  { destruct NE as [NE|NE]; auto. intros K. remember (g_state g) as st. destruct HZ; try discriminate. now apply NE. }
  clear NE.
  destruct (version_line_top T vl v VL) as [fs P].
  assert (fs <> []) as Nf.
  { intros ->. destruct VL as (a & q & -> & _ & _ & Wa & _). unfold parsePSVLine in P.
    destruct (strip _) as [|c0 s0] eqn:Es in P; [discriminate|]. destruct (ceqb c0 "#") eqn:C.
    - assert (split1 s0 = []) as S by congruence. apply ceqb_eq in C. subst c0.
      destruct (split1_elim s0) as [[A _]|(? & ? & ? & ? & _ & _ & _ & _ & _ & _ & K)]; [|congruence].
      destruct (strip_decomp (a ++ $"=" ++ q)) as (x & y & D & X & Y). rewrite Es in D.
      assert (WS : without_space (a ++ $"=" ++ q) = $"#").
      { rewrite D. unfold without_space. rewrite !filter_app.
        assert (Z0 : forall l, forallb pyspace l = true -> filter (fun c => negb (pyspace c)) l = []).
        { clear. induction l as [|c l IH]; cbn; auto. intros H. apply andb_prop in H as [-> H]. cbn. auto. }
        rewrite (Z0 x X), (Z0 y Y). cbn. rewrite (Z0 s0 A). reflexivity. }
      unfold without_space in WS, Wa. rewrite !filter_app, Wa in WS. discriminate WS.
    - destruct (ceqb c0 "!"); [discriminate|]. cbn zeta in P. destruct (forallb is_alpha_ _) in P; [|discriminate].
      destruct (dget _ _) in P; [|discriminate]. destruct (header_type _ _ _ _) as [[[|? ?]|]|] in P; discriminate. }
  assert (K : exists e, parsePSV T vl g = Err e /\ (e = RuntimeError \/ e = NameError)).
  { unfold parsePSV. rewrite P. cbn [rbind]. rewrite Fl.
    assert (ctx_of fs <> None) by (destruct fs as [|? [|? ?]]; cbn; congruence).
    assert (X : exists n t, ctx_of fs = Some (n, t)) by (destruct (ctx_of fs) as [[? ?]|]; [eauto|congruence]). destruct X as (n & t & Ec).
    destruct (g_state g); cbn [stateTransitions]; try congruence.
    - unfold obsContextAction. rewrite ctx_nf, Ec. unfold exec. rewrite Gs. cbn [run_ops run_op]. unfold es_addPopPush, es_pop.
      rewrite Op. cbn. eauto.
    - exists NameError. split; [reflexivity|auto].
    - unfold closeObsBlockOpenObsBlockAction. cbn zeta. rewrite on_stack_exec. cbn [set_header g_stack]. rewrite Gs. cbn [run_ops run_op]. unfold es_pop at 1. rewrite Op. cbn. eauto.
    - exists NameError. split; [reflexivity|auto].
    - unfold closeDataOpenObsBlockAction. rewrite on_stack_exec. rewrite Gs. cbn [run_ops run_op]. unfold es_pop. rewrite Op. cbn. eauto. }
  destruct K as (e & Ke & De). unfold psvtoxml. fold (lines_of c2). rewrite E2, parse_all_app, parse_blanks by auto.
  cbn [rbind parse_all]. rewrite Ke. cbn [rbind]. destruct De as [-> | ->]; eauto.
Qed.
