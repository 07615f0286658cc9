(** psvtoxml computes the meaning of a PSV file. *)
From Verif Require Import PyStrProofs XmlSpec XmlProofs PsvToXml PsvSpec PsvLines TablesProofs PsvProofs1 PsvProofs2.

Lemma Ok_inj {X} (a b : X) : Ok a = Ok b -> a = b.
Proof. congruence. Qed.

Record Inv (T : tables) (v : str) (g : glob) (d : doc) : Prop := {
  inv_first : g_firstLine g = false;
  inv_z : exists z s, Z T v d (g_state g) z (g_headerVals g) (g_headerType g) /\
            g_stack g = Some s /\ R s z /\ opened s <> [] /\ zvalid z = true }.

Lemma Z_ht T v d st z hv ht : Z T v d st z hv ht -> ht_ok T st ht.
Proof. destruct 1; cbn; eauto. Qed.
Lemma Z_valid T v d st z hv ht : Z T v d st z hv ht -> zvalid z = xml_valid (doc_tree T v d).
Proof. intros H. rewrite (close_valid _ _ _ (Z_close _ _ _ _ _ _ _ H)). cbn. now rewrite andb_true_r. Qed.
Lemma Z_ne T v d st z hv ht : Z T v d st z hv ht -> z <> [].
Proof. destruct 1; discriminate. Qed.

Lemma reads_ln_ok T raw ln : reads_as T raw ln -> ln_ok T ln.
Proof.
  destruct 1; cbn; auto. destruct H3 as (? & ? & _ & (al & ? & E & _) & _). eauto.
Qed.

Lemma steps_mono T v L : forall d st z hv ht d', Z T v d st z hv ht -> Forall (ln_ok T) L ->
  doc_steps d L = Some d' -> xml_valid (doc_tree T v d') = true -> xml_valid (doc_tree T v d) = true.
Proof.
  induction L as [|ln L IH]; intros d st z hv ht d' HZ F E V; cbn in E.
  - apply some_inj in E. now subst.
  - inversion F; subst. pose proof (plan_step _ _ _ _ _ _ _ ln HZ H1) as P.
    destruct (plan T st ln hv ht) as [[[[ops hv'] ht'] st']|].
    + destruct P as (d1 & z1 & E1 & Ez & Z1). rewrite E1 in E.
      pose proof (IH _ _ _ _ _ _ Z1 H2 E V) as V1. rewrite <- (Z_valid _ _ _ _ _ _ _ Z1) in V1.
      rewrite (z_ops_valid _ _ _ (Z_ne _ _ _ _ _ _ _ HZ) Ez) in V1. apply andb_prop in V1 as [V1 _].
      now rewrite <- (Z_valid _ _ _ _ _ _ _ HZ).
    + rewrite P in E. discriminate.
Qed.

Lemma step T v raw g d : tables_ok T -> Inv T v g d -> nonblank raw = true ->
  (forall g', parsePSV T raw g = Ok g' ->
     exists ln d', reads_as T raw ln /\ doc_step d ln = Some d' /\ Inv T v g' d') /\
  (forall ln d', reads_as T raw ln -> doc_step d ln = Some d' -> xml_valid (doc_tree T v d') = true ->
     exists g', parsePSV T raw g = Ok g' /\ Inv T v g' d').
Proof.
  intros HT [F (z & s & HZ & Gs & HR & NO & V)] NB.
  assert (NS : ~ all_space raw).
  { unfold all_space, nonblank in *. intros K. rewrite K in NB. discriminate. }
  pose proof (parse_reads T raw HT) as P. unfold parsePSV.
  destruct (parsePSVLine T raw) as [[[k fs]|]|e]; cbn [rbind].
  2: contradiction.
  2: { destruct P as (_ & _ & P). split; [discriminate|]. intros ln d' K. now apply P in K. }
  destruct P as [_ P]. rewrite F.
  pose proof (act_plan T (g_state g) k fs g (Z_ht _ _ _ _ _ _ _ HZ)) as AP.
  destruct (stateTransitions T (g_state g) k) as [next act].
  specialize (AP ltac:(congruence)).
  destruct (line_of k fs) as [ln|] eqn:L.
  2: { split.
       - intros g' E. rewrite E in AP. discriminate.
       - intros ln d' K. apply P in K. discriminate. }
  assert (RL : reads_as T raw ln) by now apply P.
  pose proof (plan_step _ _ _ _ _ _ _ ln HZ (reads_ln_ok _ _ _ RL)) as PS.
  destruct (plan T (g_state g) ln (g_headerVals g) (g_headerType g)) as [[[[ops hv'] ht'] st']|].
  2: { split.
       - intros g' E. rewrite E in AP. discriminate.
       - intros ln' d' K D. apply P in K. apply some_inj in K. subst ln'. congruence. }
  destruct PS as (d1 & z1 & D1 & Ez & Z1). rewrite AP. unfold exec. rewrite Gs.
  pose proof (run_ops_z ops s z HR NO V) as RZ.
  destruct (run_ops ops s) as [s'|e]; cbn [rbind].
  - destruct RZ as (z' & Ez' & R' & N' & V'). rewrite Ez in Ez'. apply some_inj in Ez'. subst z'.
    assert (I : Inv T v {| g_firstLine := g_firstLine g; g_state := st'; g_headerVals := hv'; g_headerType := ht'; g_stack := Some s' |} d1).
    { constructor; cbn; auto. exists z1, s'. auto. }
    split.
    + intros g' E. apply Ok_inj in E. subst g'. exists ln, d1. auto.
    + intros ln' d' K D _. apply P in K. apply some_inj in K. subst ln'. rewrite D1 in D. apply some_inj in D. subst d'.
      eexists. split; [reflexivity|]. exact I.
  - split; [discriminate|]. intros ln' d' K D W. exfalso. apply P in K. apply some_inj in K. subst ln'.
    rewrite D1 in D. apply some_inj in D. subst d'. apply (RZ z1 Ez). now rewrite (Z_valid _ _ _ _ _ _ _ Z1).
Qed.

Lemma parse_blank T raw g : nonblank raw = false -> parsePSV T raw g = Ok g.
Proof.
  intros H. unfold parsePSV, parsePSVLine. unfold nonblank in H. apply negb_false_iff in H.
  apply strip_nil_iff in H. now rewrite H.
Qed.

Lemma body_sound T v lines : tables_ok T -> forall g d g', Inv T v g d -> parse_all T lines g = Ok g' ->
  exists L d', Forall2 (reads_as T) (filter nonblank lines) L /\ doc_steps d L = Some d' /\ Inv T v g' d'.
Proof.
  intros HT. induction lines as [|raw lines IH]; intros g d g' I E; cbn [parse_all] in E.
  - apply Ok_inj in E. subst. exists [], d. split; [constructor|]. auto.
  - cbn [filter]. destruct (nonblank raw) eqn:NB.
    + destruct (parsePSV T raw g) as [g1|] eqn:E1; cbn [rbind] in E; [|discriminate].
      destruct (step T v raw g d HT I NB) as [S _]. destruct (S _ E1) as (ln & d1 & RL & D1 & I1).
      destruct (IH _ _ _ I1 E) as (L & d' & F & D & I'). exists (ln :: L), d'. split; [now constructor|].
      cbn. rewrite D1. auto.
    + rewrite parse_blank in E by auto. cbn [rbind] in E. eauto.
Qed.
Lemma body_complete T v lines : tables_ok T -> forall g d L d', Inv T v g d ->
  Forall2 (reads_as T) (filter nonblank lines) L -> doc_steps d L = Some d' ->
  xml_valid (doc_tree T v d') = true -> exists g', parse_all T lines g = Ok g' /\ Inv T v g' d'.
Proof.
  intros HT. induction lines as [|raw lines IH]; intros g d L d' I F D V; cbn [filter] in F; cbn [parse_all].
  - inversion F; subst. cbn in D. apply some_inj in D. subst. eauto.
  - destruct (nonblank raw) eqn:NB.
    + inversion F as [|? ln ? L' RL F']; subst. cbn in D. destruct (doc_step d ln) as [d1|] eqn:D1; [|discriminate].
      assert (V1 : xml_valid (doc_tree T v d1) = true).
      { destruct I as [_ (z & s & HZ & _)].
        pose proof (plan_step _ _ _ _ _ _ _ ln HZ (reads_ln_ok _ _ _ RL)) as PS.
        destruct (plan T (g_state g) ln (g_headerVals g) (g_headerType g)) as [[[[ops hv'] ht'] st']|]; [|congruence].
        destruct PS as (d1' & z1 & D1' & Ez & Z1). rewrite D1 in D1'. apply some_inj in D1'. subst d1'.
        assert (FO : Forall (ln_ok T) L') by (clear -F'; induction F'; constructor; auto; eapply reads_ln_ok; eauto).
        exact (steps_mono _ _ _ _ _ _ _ _ _ Z1 FO D V). }
      destruct (step T v raw g d HT I NB) as [_ S]. destruct (S _ _ RL D1 V1) as (g1 & E1 & I1).
      rewrite E1. cbn [rbind]. eauto.
    + rewrite parse_blank by auto. cbn [rbind]. eauto.
Qed.

(** the first line *)
Lemma first_line T raw g g' : g_firstLine g = true -> g_state g = EMPTY -> nonblank raw = true -> parsePSV T raw g = Ok g' ->
  exists v, version_line raw v /\ Inv T v g' doc0.
Proof.
  intros F S NB E. unfold parsePSV in E. destruct (parsePSVLine T raw) as [[[k fs]|]|e] eqn:P; cbn [rbind] in E; [| |discriminate].
  - rewrite F in E. destruct (splitc "=" raw) as [|a [|b [|c r]]] eqn:Sp; try discriminate.
    destruct (streqb (squeeze a) $"#version") eqn:Q; [|discriminate]. apply streqb_eq in Q.
    destruct (es_init $"ades" [] [($"version", squeeze b)]) as [s|] eqn:I; cbn [rbind] in E; [|discriminate].
    apply Ok_inj in E. subst g'. exists (squeeze b). split.
    + apply version_line_iff. exists a, b. auto.
    + destruct (R_init _ _ _ _ I) as [HR O]. constructor; cbn; auto.
      exists [A (squeeze b) []], s. rewrite S. repeat split; auto; [constructor|rewrite O; discriminate|].
      unfold es_init in I. pose proof (newElement_ok $"ades" [] [($"version", squeeze b)]) as K.
      destruct (newElement _ _ _) in I, K; [|discriminate]. cbn [is_ok] in K.
      symmetry. etransitivity; [exact K|]. unfold zvalid, A. cbn [forallb fvalid fst snd]. rewrite !andb_true_r. reflexivity.
  - exfalso. unfold parsePSVLine in P. destruct (strip raw) eqn:Es.
    + apply strip_nil_iff in Es. unfold nonblank, all_space in *. rewrite Es in NB. discriminate.
    + destruct (ceqb a "#"); [discriminate|]. destruct (ceqb a "!"); [discriminate|]. cbn zeta in P.
      destruct (forallb is_alpha_ _); [|discriminate]. destruct (dget _ _); [|discriminate].
      destruct (header_type _ _ _ _) as [[[|? ?]|]|]; discriminate.
Qed.
Lemma version_ok v : xml_valid (Elem $"ades" [($"version", v)] [] []) = valid_text v.
Proof. cbn [xml_valid forallb fst snd]. rewrite !andb_true_r. reflexivity. Qed.
Lemma first_line_ok T raw v g : g_firstLine g = true -> g_state g = EMPTY -> version_line raw v -> valid_text v = true ->
  exists g', parsePSV T raw g = Ok g' /\ Inv T v g' doc0.
Proof.
  intros F S VL V. destruct (version_line_top T _ _ VL) as [fs P].
  assert (exists g', parsePSV T raw g = Ok g') as [g' E].
  { unfold parsePSV. rewrite P. cbn [rbind]. rewrite F.
    pose proof VL as VL'. apply version_line_iff in VL' as (a & b & Sp & Q & ->). rewrite Sp, Q.
    rewrite (proj2 (streqb_eq _ _) eq_refl). unfold es_init.
    destruct (newElement_ex $"ades" [] [($"version", squeeze b)]) as [n ->].
    - pose proof (version_ok (squeeze b)) as K. cbn [xml_valid] in K. rewrite V in K. cbn [forallb] in K. rewrite andb_true_r in K. exact K.
    - cbn [rbind]. eauto. }
  exists g'. split; auto.
  assert (NB : nonblank raw = true).
  { unfold nonblank. apply negb_true_iff. destruct (forallb pyspace raw) eqn:B; auto. exfalso.
    apply strip_nil_iff in B. unfold parsePSVLine in P. rewrite B in P. discriminate. }
  destruct (first_line T raw g g' F S NB E) as (v' & VL' & I).
  apply version_line_iff in VL as (a & b & Sp & _ & ->). apply version_line_iff in VL' as (a' & b' & Sp' & _ & ->).
  rewrite Sp in Sp'. inversion Sp'; subst. exact I.
Qed.
Lemma version_nonblank raw v : version_line raw v -> nonblank raw = true.
Proof.
  intros (a & b & -> & _ & _ & V & _). unfold nonblank. apply negb_true_iff. rewrite !forallb_app. cbn.
  now rewrite !andb_false_r.
Qed.

Lemma parse_all_app T a : forall b g, parse_all T (a ++ b) g = do g' <- parse_all T a g; parse_all T b g'.
Proof. induction a as [|l a IH]; intros b g; cbn; auto. destruct (parsePSV T l g); cbn; auto. Qed.
Lemma parse_blanks T b g : Forall all_space b -> parse_all T b g = Ok g.
Proof.
  induction 1; cbn; auto. rewrite parse_blank; [exact IHForall|]. unfold nonblank. unfold all_space in H. now rewrite H.
Qed.
Lemma find_nonblank (l : list str) : Forall all_space l \/ exists b v r, l = b ++ v :: r /\ Forall all_space b /\ nonblank v = true.
Proof.
  induction l as [|x l IH]; [left; constructor|]. destruct (nonblank x) eqn:N.
  - right. exists [], x, l. auto.
  - unfold nonblank in N. apply negb_false_iff in N. destruct IH as [F|(b & v & r & -> & F & Nv)].
    + left. constructor; auto.
    + right. exists (x :: b), v, r. split; auto.
Qed.

Lemma Inv_take T v g d : Inv T v g d -> exists s s', g_stack g = Some s /\ es_takeTreeAndClear s = Ok (doc_tree T v d, s') /\ opened s' = [].
Proof.
  intros [_ (z & s & HZ & Gs & HR & NO & V)]. destruct (take_tree _ _ HR NO) as (t & C & E).
  rewrite (Z_close _ _ _ _ _ _ _ HZ) in C. apply some_inj in C. subst t. eauto.
Qed.

Lemma psv_correct T content t : tables_ok T ->
  psv_tree T content = Some t <-> psv_means T (lines_of content) t.
Proof.
  intros HT. unfold psv_tree, psvtoxml. fold (lines_of content). generalize (lines_of content) as lines. intros lines. split.
  - destruct (parse_all T lines g_init) as [g'|e] eqn:E; [|destruct e; discriminate].
    destruct (find_nonblank lines) as [F|(b & vl & r & -> & F & NV)].
    + rewrite parse_blanks in E by auto. apply Ok_inj in E. subst g'. discriminate.
    + rewrite parse_all_app, parse_blanks in E by auto. cbn [rbind parse_all] in E.
      destruct (parsePSV T vl g_init) as [g1|] eqn:E1; cbn [rbind] in E; [|discriminate].
      destruct (first_line T vl g_init g1 eq_refl eq_refl NV E1) as (v & VL & I1).
      destruct (body_sound T v r HT _ _ _ I1 E) as (L & d & FL & D & I).
      destruct (Inv_take _ _ _ _ I) as (s & s' & Gs & Et & _). rewrite Gs, Et. cbn [rbind].
      intros K. apply some_inj in K. subst t.
      destruct (doc_steps_sound L doc0 d doc0_ok D) as [Ok' Ln].
      exists b, vl, r, v, d. split; auto. split; auto. split; auto. split; [|split; [exact Ok'|split; auto]].
      * rewrite Ln. exact FL.
      * apply well_named_iff. destruct I as [_ (z & s0 & HZ & _ & _ & _ & V)]. now rewrite <- (Z_valid _ _ _ _ _ _ _ HZ).
  - intros (b & vl & r & v & d & -> & F & VL & FL & DK & -> & W). apply well_named_iff in W.
    rewrite parse_all_app, parse_blanks by auto. cbn [rbind parse_all].
    pose proof (doc_steps_complete d DK) as D.
    assert (V0 : valid_text v = true).
    { unfold doc_tree in W. cbn [xml_valid] in W. rewrite <- version_ok. cbn [xml_valid]. apply andb_prop in W as [W _].
      rewrite W. reflexivity. }
    destruct (first_line_ok T vl v g_init eq_refl eq_refl VL V0) as (g1 & E1 & I1). rewrite E1. cbn [rbind].
    destruct (body_complete T v r HT _ _ _ _ I1 FL D W) as (g2 & E2 & I2). rewrite E2.
    destruct (Inv_take _ _ _ _ I2) as (s & s' & Gs & Et & _). rewrite Gs, Et. reflexivity.
Qed.

Lemma psv_means_functional T lines t t' : tables_ok T -> psv_means T lines t -> psv_means T lines t' -> t = t'.
Proof.
  intros HT (b & vl & r & v & d & E & F & VL & FL & DK & -> & W) (b' & vl' & r' & v' & d' & E' & F' & VL' & FL' & DK' & -> & W').
  assert (b = b' /\ vl = vl' /\ r = r') as (<- & <- & <-).
  { pose proof (version_nonblank _ _ VL) as N. pose proof (version_nonblank _ _ VL') as N'. subst lines. clear -E' F F' N N'.
    revert b' F' E'. induction F as [|x b Hx F IH]; intros b' F' E; inversion F' as [|y b'' Hy F'']; subst; cbn in E.
    - inversion E; auto.
    - inversion E; subst. unfold nonblank in N. unfold all_space in Hy. rewrite Hy in N. discriminate.
    - inversion E; subst. unfold nonblank in N'. unfold all_space in Hx. rewrite Hx in N'. discriminate.
    - inversion E; subst. destruct (IH _ F'' H1) as (-> & -> & ->). auto. }
  assert (v = v').
  { apply version_line_iff in VL as (a & q & Sp & _ & ->). apply version_line_iff in VL' as (a' & q' & Sp' & _ & ->).
    rewrite Sp in Sp'. inversion Sp'. reflexivity. }
  subst v'. f_equal.
  assert (L : doc_lines d = doc_lines d').
  { assert (U : forall raw a b, reads_as T raw a -> reads_as T raw b -> a = b).
    { intros raw x y Hx Hy. pose proof (parse_reads T raw HT) as P. destruct (parsePSVLine T raw) as [[[k fs]|]|e].
      - destruct P as [_ P]. apply P in Hx. apply P in Hy. congruence.
      - exfalso. apply strip_nil_iff in P. inversion Hx; subst;
          try (apply starts_ctx in H; [|reflexivity]; destruct H as [q K]; congruence).
        + apply H. now apply strip_nil_iff.
        + apply H1. rewrite <- firstchars_iff. rewrite cells_space; [reflexivity|]. now apply strip_nil_iff.
      - destruct P as (_ & _ & P). now apply P in Hx. }
    clear -FL FL' U. revert FL FL'. generalize (doc_lines d) (doc_lines d').
    generalize (filter (fun l => negb (forallb pyspace l)) r). intros rs L L' F. revert L'.
    induction F; intros L' F'; inversion F'; subst; auto. f_equal; eauto. }
  pose proof (doc_steps_complete d DK) as D. rewrite L, (doc_steps_complete d' DK') in D. congruence.
Qed.
