(** Whole documents of 80-column files. *)
From Verif Require Import SchemaSpec PyStrProofs SchemaProofs3 RecordProofs1 RecordProofs2 RecordProofs3 RecordProofs4 RecordProofs5 RecordProofs6 RecordProofs7 RecordProofs8 AdesMasterTables.
From Verif Require Import XmlProofs Mpc80 Mpc80Spec Schema XsdSpec SchemaSpec XsdFiles DocSpec ValidSpec.
Local Open Scope nat_scope.

Section Rows.
Variable F : derivation -> str -> Prop.
Let S := general_xsd.
Let opt := fields $"optical".
Let rad := fields $"radar".
Lemma general_both : In S both. Proof. now left. Qed.
Definition kind_name (d : item) : str := if is_kind "R" d then $"radar" else $"optical".
Lemma row_fine d xs : left_out d = false -> row opt rad d = Some xs ->
  exists e, xs = [e] /\ xtag e = kind_name d /\ (valid F S e <-> record_fine F S opt rad d).
Proof.
  intros L H. unfold row in H. rewrite L in H. unfold record_fine, kind_name. destruct (is_kind "R" d).
  - unfold checked in H. destruct (xml_valid _); [|discriminate H]. injection H as <-. eexists. split; [reflexivity|]. split; [reflexivity|].
    refine (general_record F $"radar" (text_of d) _). do 3 right. now left.
  - destruct (program d) as [p|]; [|discriminate H]. destruct (reference d) as [r|]; [|discriminate H].
    unfold checked in H. destruct (xml_valid _); [|discriminate H]. injection H as <-. eexists. split; [reflexivity|]. split; [reflexivity|].
    refine (iff_trans (general_record F $"optical" (optical_text p r d) _) _); [now left|]. split.
    + intro K. exists p, r. split; [reflexivity|]. split; [reflexivity|]. exact K.
    + intros (p' & r' & E1 & E2 & K). injection E1 as <-. injection E2 as <-. exact K.
Qed.
Lemma rows_cases ds : forall xs, rows opt rad ds = Some xs ->
  (forall e, In e xs -> exists d, In d ds /\ left_out d = false /\ xtag e = kind_name d /\ (valid F S e <-> record_fine F S opt rad d)) /\
  (forall d, In d ds -> left_out d = false -> exists e, In e xs /\ xtag e = kind_name d /\ (valid F S e <-> record_fine F S opt rad d)).
Proof.
  unfold rows. induction ds as [|d ds IH]; intros xs H; cbn [together] in H.
  - injection H as <-. split; [intros e []|intros d []].
  - destruct (row opt rad d) as [x|] eqn:R; [|discriminate H]. destruct (together (row opt rad) ds) as [y|]; [|discriminate H]. injection H as <-. destruct (IH y eq_refl) as [I1 I2]. split.
    + intros e I. apply in_app_or in I as [I|I].
      * destruct (left_out d) eqn:L; [unfold row in R; rewrite L in R; injection R as <-; destruct I|]. destruct (row_fine d x L R) as (e' & -> & T & V). destruct I as [<-|[]]. exists d. split; [now left|]. now split.
      * destruct (I1 e I) as (d' & J & K). exists d'. split; [now right|exact K].
    + intros d' [<-|I] L.
      * destruct (row_fine d x L R) as (e & -> & K). exists e. split; [now left|exact K].
      * destruct (I2 d' I L) as (e & J & K). exists e. split; [apply in_or_app; now right|exact K].
Qed.
Lemma kind_tag d : In (kind_name d) (map lit record_names).
Proof. unfold kind_name. destruct (is_kind "R" d); vm_compute; tauto. Qed.
Definition good_version : Prop := simple F S $"VersionType" $"2022".
Lemma ades_valid ks : (forall k, In k ks -> In (xtag k) (map lit (record_names ++ ["obsBlock"%string]))) ->
  (valid F S (ades ks) <-> good_version /\ forall k, In k ks -> valid F S k).
Proof.
  intro N. rewrite (root_kids F S (ades ks) general_both eq_refl). unfold ades. cbn [xtext xattrs xkids]. split.
  - intros (_ & A & _ & K & _). split; [exact (proj2 (A _ _ (or_introl eq_refl)))|]. intros k I. exact (proj2 (K k I)).
  - intros (V & K). split; [reflexivity|]. split; [|split; [|split]].
    + intros k v [E|[]]. injection E as <- <-. now split.
    + exists $"2022". now left.
    + intros k I. split; [|now apply K]. unfold S. rewrite (proj1 root_general). specialize (N k I). rewrite !map_app in *. apply in_app_or in N as [N|N]; apply in_or_app; [now left|right; apply in_or_app; now right].
    + intros _. exact (proj2 root_general).
Qed.
Lemma headerless_valid ds xs : rows opt rad ds = Some xs ->
  (valid F S (ades xs) <-> good_version /\ forall d, In d ds -> left_out d = false -> record_fine F S opt rad d).
Proof.
  intro R. destruct (rows_cases ds xs R) as [R1 R2]. rewrite ades_valid.
  - split; intros [V H]; (split; [exact V|]).
    + intros d I L. destruct (R2 d I L) as (e & J & _ & K). apply K. now apply H.
    + intros e I. destruct (R1 e I) as (d & J & L & _ & K). apply K. now apply H.
  - intros k I. destruct (R1 k I) as (d & _ & _ & T & _). rewrite T. rewrite map_app. apply in_or_app. left. apply kind_tag.
Qed.
Lemma block_valid g bs : block opt rad g = Some bs ->
  exists b, bs = [b] /\ xtag b = $"obsBlock" /\ (valid F S b <-> headers_fine F S (fst g) /\ records_fine F S opt rad (snd g)).
Proof.
  unfold block. destruct (rows opt rad (snd g)) as [rs|] eqn:R; [|intro H; discriminate H]. destruct (xml_valid _); [|intro H; discriminate H]. intro H. injection H as <-.
  eexists. split; [reflexivity|]. split; [reflexivity|]. destruct (rows_cases _ rs R) as [R1 R2].
  rewrite (obsBlock_valid F S (Elem $"obsBlock" [] [] [context (fst g); Elem $"obsData" [] [] rs]) general_both eq_refl). cbn [xkids].
  assert (valid F S (Elem $"obsData" [] [] rs) <-> records_fine F S opt rad (snd g)) as D.
  { rewrite (obsData_valid F S (Elem $"obsData" [] [] rs) general_both eq_refl). cbn [xkids]. unfold records_fine. split.
    - intros (_ & N & kind & I & A). split.
      + intros d J L. destruct (R2 d J L) as (e & K & _ & V). apply V. now apply A.
      + destruct rs as [|e rs]; [now destruct N|]. destruct (R1 e (or_introl eq_refl)) as (d & J & L & T & _). exists (is_kind "R" d). split; [now exists d|].
        intros d' J' L'. destruct (R2 d' J' L') as (e' & K' & T' & _). pose proof (proj1 (A e (or_introl eq_refl))) as E1. pose proof (proj1 (A e' K')) as E2.
        assert (kind_name d' = kind_name d) as Q by congruence. unfold kind_name in Q. destruct (is_kind "R" d'), (is_kind "R" d); try reflexivity; vm_compute in Q; discriminate Q.
    - intros (A & rt & (d & J & L) & U). split; [apply bare_elem|]. destruct (R2 d J L) as (e & K & T & _). split; [now destruct rs|]. exists (kind_name d). split; [apply kind_tag|].
      intros k I. destruct (R1 k I) as (d' & J' & L' & T' & V'). split; [|apply V'; now apply A]. rewrite T'. unfold kind_name. now rewrite (U d' J' L'), (U d J L). }
  rewrite <- D, <- (context_fine F S general_both (fst g)). split.
  - intros (_ & c & d & E & _ & Vc & _ & Vd). injection E as <- <-. now split.
  - intros [Vc Vd]. split; [apply bare_elem|]. eexists _, _. split; [reflexivity|]. split; [reflexivity|]. split; [exact Vc|]. split; [reflexivity|exact Vd].
Qed.
Lemma blocks_valid gs : forall bs, blocks opt rad gs = Some bs ->
  (valid F S (ades bs) <-> good_version /\ forall g, In g gs -> headers_fine F S (fst g) /\ records_fine F S opt rad (snd g)).
Proof.
  assert (forall gs bs, blocks opt rad gs = Some bs ->
    (forall b, In b bs -> xtag b = $"obsBlock") /\ ((forall b, In b bs -> valid F S b) <-> forall g, In g gs -> headers_fine F S (fst g) /\ records_fine F S opt rad (snd g))) as K.
  { unfold blocks. clear gs. induction gs as [|g gs IH]; intros bs H; cbn [together] in H.
    - injection H as <-. split; [intros b []|]. split; [intros _ g []|intros _ b []].
    - destruct (block opt rad g) as [x|] eqn:Bk; [|discriminate H]. destruct (together (block opt rad) gs) as [y|]; [|discriminate H]. injection H as <-.
      destruct (block_valid g x Bk) as (b & -> & T & V). destruct (IH y eq_refl) as [I1 I2]. split; [intros b' [<-|I]; [exact T|now apply I1]|]. split.
      + intros H g' [<-|I]; [apply V, H; now left|]. apply I2; [|exact I]. intros b' J. apply H. now right.
      + intros H b' [<-|I]; [apply V, H; now left|]. apply I2; [|exact I]. intros g' J. apply H. now right. }
  intros bs H. destruct (K gs bs H) as [K1 K2]. rewrite ades_valid.
  - split; intros [V A]; (split; [exact V|]); now apply K2.
  - intros k I. rewrite (K1 k I), map_app. apply in_or_app. right. now left.
Qed.
End Rows.
