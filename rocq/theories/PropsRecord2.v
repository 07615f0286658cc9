(** C41: records with arbitrary children.  C48: valid documents survive the
    conversion to PSV and back. *)
From Verif Require Import SchemaSpec PyStrProofs XmlProofs SchemaProofs2 SchemaProofs3 SchemaCheck XsdMatch RecordProofs3 RecordProofs12 PsvProofs1 AdesMasterTables PropsSchema PropsPsv PropsRound PropsRecord PropsPsvValid PropsMpc80 PropsDoc LexProofs4.
From Verif Require Import PsvToXml XmlToPsv PsvSpec2 Schema XsdSpec SchemaSpec XsdPattern XsdFiles ValueSpec ValidSpec ValidSpec2 LexSpec.
Local Open Scope nat_scope.

(** * C41: records *)
(** Any record is valid for the general schema exactly when it has no text and
    no attributes of its own, its children are fields of the table, in the order
    of the table and none twice, they are complete (RecordSpec), and each is valid. *)
Theorem C41_any_general : forall F e table,
  In (xtag e) [$"optical"; $"offset"; $"occultation"; $"radar"; $"opticalResidual"; $"radarResidual"] ->
  dget (xtag e) (allowed ades_tables) = Some table ->
  (valid F general_xsd e <->
   bare e /\ in_order (map xtag (xkids e)) table /\ NoDup (map xtag (xkids e)) /\ complete (xtag e) (occurs_in (xkids e)) = true /\
   forall k, In k (xkids e) -> valid F general_xsd k).
Proof.
  intros F e table I E. pose proof (general_any F (xtag e) e eq_refl I) as H. pose proof (fields_nodup (xtag e) I) as N. unfold fields in H, N. rewrite E in H, N. rewrite H. split.
  - intros (B & O & C & K). split; [exact B|]. split; [exact O|]. split; [exact (LexProofs3.in_order_nodup _ _ O N)|]. now split.
  - intros (B & O & _ & C & K). split; [exact B|]. split; [exact O|]. now split.
Qed.
(** the same for a submission, where no reserved field may occur *)
Theorem C41_any_submit : forall F e table,
  In (xtag e) [$"optical"; $"offset"; $"occultation"; $"radar"] ->
  dget (xtag e) (allowed ades_tables) = Some table ->
  (valid F submit_xsd e <->
   bare e /\ in_order (map xtag (xkids e)) table /\ NoDup (map xtag (xkids e)) /\ complete (xtag e) (occurs_in (xkids e)) = true /\
   forall k, In k (xkids e) -> ~ In (xtag k) (map lit reserved) /\ valid F submit_xsd k).
Proof.
  intros F e table I E. assert (In (xtag e) kinds6) as I6 by (rewrite <- (firstn_skipn 4 kinds6); apply in_or_app; left; exact I).
  pose proof (submit_any F (xtag e) e eq_refl I) as H. pose proof (fields_nodup (xtag e) I6) as N. unfold fields in H, N. rewrite E in H, N. rewrite H. split.
  - intros (B & O & R & C & K). split; [exact B|]. split; [exact O|]. split; [exact (LexProofs3.in_order_nodup _ _ O N)|]. split; [exact C|]. intros k J. split; [|now apply K].
    intro Q. apply R in Q. unfold occurs_in in Q. assert (existsb (fun c => streqb (xtag c) (xtag k)) (xkids e) = true) as X; [|rewrite X in Q; discriminate Q].
    apply existsb_exists. exists k. split; [exact J|]. now apply streqb_eq.
  - intros (B & O & _ & C & K). split; [exact B|]. split; [exact O|]. split; [|split; [exact C|intros k J; now apply K]].
    intros x Q. unfold occurs_in. destruct (existsb _ (xkids e)) eqn:X; [|reflexivity]. apply existsb_exists in X as (k & J & T). apply streqb_eq in T. subst x. now destruct (K k J).
Qed.
Print Assumptions C41_any_general.
Print Assumptions C41_any_submit.

(** * C48 *)
(** A valid document of which PSV can express every element (LexSpec.psv_can) is
    converted without an error, and what is written is read back as the same
    document, but for white space around the texts. *)
Theorem C48_round_trip : forall F t, reads_texts F -> reads_literals F ->
  xtag t = $"ades" -> valid F general_xsd t -> well_named t -> NoDup (map fst (xattrs t)) ->
  (forall k, inside k t -> psv_can k) ->
  exists content, xmltopsv ades_tables t = Ok content /\ psv_tree ades_tables content = Some (trim_texts t).
Proof.
  intros F t RT RL T V W N P. destruct (document_writable F RT RL t T V W N P) as [Wr E].
  destruct (C22_round_trip ades_tables t C20_master_tables Wr) as (c & X & Y). exists c. split; [exact X|]. now rewrite Y, E.
Qed.
Theorem C48_submit : forall F t, reads_texts F -> reads_literals F ->
  xtag t = $"ades" -> valid F submit_xsd t -> well_named t -> NoDup (map fst (xattrs t)) ->
  (forall k, inside k t -> psv_can k) ->
  exists content, xmltopsv ades_tables t = Ok content /\ psv_tree ades_tables content = Some (trim_texts t).
Proof. intros F t RT RL T V. apply C48_round_trip with (F := F); auto. now apply C35_submit_general_files. Qed.
(** without such white space the document that comes back is the one that was
    written, and so is valid again *)
Theorem C48_identity : forall F S t, In S [general_xsd; submit_xsd] -> reads_texts F -> reads_literals F ->
  xtag t = $"ades" -> valid F S t -> well_named t -> NoDup (map fst (xattrs t)) ->
  (forall k, inside k t -> psv_can k /\ strip (xtext k) = xtext k) ->
  exists content, xmltopsv ades_tables t = Ok content /\ psv_tree ades_tables content = Some t /\ valid F S t.
Proof.
  intros F S t I RT RL T V W N P. assert (valid F general_xsd t) as G. { destruct I as [<-|[<-|[]]]; [exact V|now apply C35_submit_general_files]. }
  destruct (C48_round_trip F t RT RL T G W N (fun k H => proj1 (P k H))) as (c & X & Y). exists c. split; [exact X|]. split; [|exact V]. rewrite Y. f_equal.
  assert (forall k, inside k t -> strip (xtext k) = xtext k) as Q by (intros k H; now apply P). clear -Q.
  induction t as [n a s ks IH] using XmlProofs.xml_ind'. cbn [trim_texts]. f_equal; [exact (Q _ (inside_self _))|].
  rewrite <- (map_id ks) at 2. apply map_ext_in. intros c Ic. rewrite Forall_forall in IH. apply IH; [exact Ic|]. intros k H. apply Q. now apply (inside_child k c).
Qed.
Print Assumptions C48_round_trip.
Print Assumptions C48_submit.
Print Assumptions C48_identity.

(** * Examples *)
Definition lf (x v : str) : xml := Elem x [] v [].
Definition one_record (r : xml) : xml := Elem $"ades" [($"version", $"2022")] [] [r].
Definition some_optical (id rest : list xml) (time : str) : xml :=
  Elem $"optical" [] [nl] (id ++ [lf $"mode" $"CCD"; lf $"stn" $"I41"; lf $"obsTime" time; lf $"ra" $"1.5"; lf $"dec" $"-2.5"; lf $"astCat" $"Gaia2"] ++ rest).
Definition a_time : str := $"2016-08-29T12:23:34.12Z".
Definition number_1 : xml := lf $"permID" $"1".
(** a reading of the facets that satisfies the assumptions *)
Definition literalb (b s : str) : bool :=
  let v := trim s in
  match v with [] => false | c :: _ => forallb literal_char v && (points v <=? 1) && (negb (streqb b $"xsd:dateTime") || isdig c || ceqb c "-") end.
Definition numeric_base (b : str) : bool := smem b (map lit ["xsd:decimal"; "xsd:integer"; "xsd:positiveInteger"; "xsd:double"; "xsd:dateTime"]%string).
Definition reading (d : derivation) (s : str) : Prop := XsdMatch.texts d s /\ (numeric_base (fst d) = true -> literalb (fst d) s = true).
Lemma reading_literals : reads_literals reading.
Proof.
  intros b st s I [_ H]. cbn [fst] in H. apply RecordProofs1.smem_iff in I. apply H in I. unfold literalb in I. destruct (trim s) as [|c r]; [discriminate I|].
  apply andb_prop in I as [I D]. apply andb_prop in I as [L P]. split; [intro Q; discriminate Q|]. split; [exact L|]. split; [now apply Nat.leb_le|].
  intros ->. exists c, r. split; [reflexivity|]. apply orb_prop in D as [D|D]; [apply orb_prop in D as [D|D]; [discriminate D|now left]|right; now apply Ascii.eqb_eq].
Qed.

Lemma reading_texts : reads_texts reading.
Proof. intros st s. rewrite <- (texts_read st s). split; [intros [H _]; exact H|]. intro H. split; [exact H|]. intro Q. vm_compute in Q. discriminate Q. Qed.
Definition reading_b (d : derivation) (s : str) : bool := if texts_b d s then if numeric_base (fst d) then literalb (fst d) s else true else false.
Lemma reading_sound d s : reading_b d s = true -> reading d s.
Proof.
  unfold reading_b. destruct (texts_b d s) eqn:T; [|intro H; discriminate H]. intro H. split; [now apply texts_sound|]. intro N. now rewrite N in H.
Qed.
Lemma valid_reading S e : SchemaCheck.checks reading_b S 30 e = true -> valid reading S e.
Proof. intro H. apply (valid_weaken (fun d s => reading_b d s = true) reading S e reading_sound). now apply (checks_valid reading_b S 30). Qed.
(** a test for the elements PSV can express *)
Fixpoint nodes (f : xml -> bool) (t : xml) : bool := f t && match t with Elem _ _ _ ks => forallb (nodes f) ks end.
Lemma nodes_ok f t : nodes f t = true -> forall k, inside k t -> f k = true.
Proof.
  intros H k I. revert H. induction I as [t|k c t I IH J]; intro H.
  - destruct t. cbn [nodes] in H. now apply andb_prop in H.
  - apply IH. destruct t as [n a s ks]. cbn [nodes xkids] in *. apply andb_prop in H as [_ H]. rewrite forallb_forall in H. now apply H.
Qed.
Definition psv_canb (k : xml) : bool :=
  let v := strip (xtext k) in
  let is_in l := smem (xtag k) (map lit l) in
  negb (is_in ["opticalResidual"; "radarResidual"; "localUse"]%string) && negb (existsb (fun c => ceqb c nl || ceqb c cr) v) &&
  (negb (is_in text_fields) || negb (streqb v [])) &&
  (negb (is_in text_fields) || streqb (xtag k) $"remarks" || match v with c :: _ => negb (ceqb c "#" || ceqb c "!") | [] => true end) &&
  (negb (is_in pointed_fields) || (points v <=? 1)) && (negb (streqb (xtag k) $"obsTime") || negb (existsb (ceqb "|") v)).
Lemma psv_canb_ok k : psv_canb k = true -> psv_can k.
Proof.
  unfold psv_canb. set (v := strip (xtext k)). intro H.
  apply andb_prop in H as [H H6]. apply andb_prop in H as [H H5]. apply andb_prop in H as [H H4]. apply andb_prop in H as [H H3]. apply andb_prop in H as [H1 H2].
  unfold psv_can. fold v. split; [|split; [|split; [|split; [|split]]]].
  - intro I. apply RecordProofs1.smem_iff in I. rewrite I in H1. discriminate H1.
  - apply negb_true_iff in H2. split; intro I; (assert (existsb (fun c => ceqb c nl || ceqb c cr) v = true) as X; [|rewrite X in H2; discriminate H2]); apply existsb_exists; eexists; (split; [exact I|reflexivity]).
  - intro I. apply RecordProofs1.smem_iff in I. rewrite I in H3. intro Q. rewrite Q in H3. discriminate H3.
  - intros I N. apply RecordProofs1.smem_iff in I. rewrite I in H4. destruct (streqb (xtag k) $"remarks") eqn:R; [apply streqb_eq in R; contradiction|].
    intros (c & r & E & [Q|Q]); rewrite E, Q in H4; discriminate H4.
  - intro I. apply RecordProofs1.smem_iff in I. rewrite I in H5. now apply Nat.leb_le.
  - intro T. rewrite T in H6. change (negb (streqb $"obsTime" $"obsTime")) with false in H6. cbn [orb] in H6. apply negb_true_iff in H6. intro I.
    assert (existsb (ceqb "|") v = true) as X; [|rewrite X in H6; discriminate H6]. apply existsb_exists. exists "|"%char. now split.
Qed.
Definition covered (t : xml) : Prop :=
  xtag t = $"ades" /\ well_named t /\ NoDup (map fst (xattrs t)) /\ forall k, inside k t -> psv_can k.
Lemma covered_dec t : streqb (xtag t) $"ades" && xml_valid t && nodes psv_canb t = true -> length (xattrs t) = 1 -> covered t.
Proof.
  intros H L. apply andb_prop in H as [H P]. apply andb_prop in H as [T W]. split; [now apply streqb_eq|]. split; [now apply well_named_iff|].
  split; [|intros k I; apply psv_canb_ok; exact (nodes_ok _ _ P k I)]. destruct (xattrs t) as [|a [|b l]]; [discriminate L| |discriminate L]. constructor; [intros []|constructor].
Qed.
(** documents with headers, two kinds of records, white space and a text that
    looks like a context line: they meet the assumptions *)
Definition ex_general : xml :=
  Elem $"ades" [($"version", $"2022")] [nl]
    (some_optical [number_1] [lf $"remarks" $" # seen, e.g. 1.5 and 2.5 "] a_time ::
     xkids (PropsPsvValid.tree_of (ex_head ++ ex_rows)) ++
     xkids (document [ex_R; ex_r])).
Example C48_example : covered ex_general /\ valid reading general_xsd ex_general /\ length (xkids ex_general) = 4 /\
  reads_texts reading /\ reads_literals reading /\ trim_texts ex_general <> ex_general.
Proof.
  split; [apply covered_dec; vm_compute; reflexivity|]. split; [apply valid_reading; vm_compute; reflexivity|]. split; [vm_compute; reflexivity|].
  split; [exact reading_texts|]. split; [exact reading_literals|]. intro Q. apply (f_equal xtext) in Q. vm_compute in Q. discriminate Q.
Qed.
Example C48_example_submit : covered (PropsPsvValid.tree_of (ex_head ++ ex_rows)) /\ valid reading submit_xsd (PropsPsvValid.tree_of (ex_head ++ ex_rows)) /\
  trim_texts (PropsPsvValid.tree_of (ex_head ++ ex_rows)) = PropsPsvValid.tree_of (ex_head ++ ex_rows).
Proof. split; [apply covered_dec; vm_compute; reflexivity|]. split; [apply valid_reading; vm_compute; reflexivity|]. vm_compute. reflexivity. Qed.

(** * What PSV cannot express *)
(** Valid documents with one observation, and what becomes of them: the
    conversion fails, the PSV text cannot be read, or something else comes back. *)
Definition two_lines : str := $"a" ++ [nl] ++ $"b".
Theorem C48_points_refuted : forall t, t = one_record (some_optical [number_1; lf $"obsSubID" $"a.b.c"] [] a_time) ->
  valid reading general_xsd t /\ xmltopsv ades_tables t = Err RuntimeError.
Proof. intros t ->. split; [apply valid_reading|]; vm_compute; reflexivity. Qed.
Theorem C48_residual_refuted : forall t, t = one_record (Elem $"opticalResidual" [] [] [number_1; lf $"obsTime" a_time; lf $"orbProd" $"x"; lf $"orbID" $"y"; lf $"resRA" $"1"; lf $"resDec" $"1"; lf $"selAst" $"A"; lf $"sigRA" $"1"; lf $"sigDec" $"1"]) ->
  valid reading general_xsd t /\ xmltopsv ades_tables t = Err KeyError.
Proof. intros t ->. split; [apply valid_reading|]; vm_compute; reflexivity. Qed.
(** a name that looks like a context line, a text of two lines, and a time with
    a bar, which the pattern for leap seconds lets pass *)
Theorem C48_unreadable_refuted : forall t, In t
   [one_record (some_optical [lf $"artSat" $"#1"] [] a_time);
    one_record (some_optical [number_1] [lf $"remarks" two_lines] a_time);
    one_record (some_optical [number_1] [] $"2016-12-31T23:59:60|5Z")] ->
  valid reading general_xsd t /\ exists content, xmltopsv ades_tables t = Ok content /\ psv_tree ades_tables content = None.
Proof.
  intros t I. destruct I as [<-|[<-|[<-|[]]]]; (split; [apply valid_reading; vm_compute; reflexivity|]);
  (eexists; split; [vm_compute; reflexivity|vm_compute; reflexivity]).
Qed.
(** the element for local use is left out, and a remark of a no-break space is lost *)
Theorem C48_lost_refuted : forall x, In x [lf $"remarks" [ascii_of_nat 160]; lf $"localUse" []] ->
  valid reading general_xsd (one_record (some_optical [number_1] [x] a_time)) /\
  exists content, xmltopsv ades_tables (one_record (some_optical [number_1] [x] a_time)) = Ok content /\
    psv_tree ades_tables content = Some (trim_texts (one_record (some_optical [number_1] [] a_time))).
Proof.
  intros x I. destruct I as [<-|[<-|[]]]; (split; [apply valid_reading; vm_compute; reflexivity|]);
  (eexists; split; [vm_compute; reflexivity|vm_compute; reflexivity]).
Qed.
Print Assumptions C48_points_refuted.
Print Assumptions C48_residual_refuted.
Print Assumptions C48_unreadable_refuted.
Print Assumptions C48_lost_refuted.
