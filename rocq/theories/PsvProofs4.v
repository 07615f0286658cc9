(** Consequences: blanks, column order, shape. *)
From Verif Require Import PyStrProofs XmlSpec XmlProofs PsvToXml PsvSpec PsvLines TablesProofs PsvProofs1 PsvProofs2 PsvProofs3 PsvSpec2.

Lemma means_iff T lines t : psv_means T lines t <->
  exists v rest version d, filter nonblank lines = v :: rest /\ version_line v version /\
    Forall2 (reads_as T) rest (doc_lines d) /\ doc_ok d /\ t = doc_tree T version d /\ well_named t.
Proof.
  split.
  - intros (b & vl & r & v & d & -> & F & VL & FL & DK & E & W).
    exists vl, (filter nonblank r), v, d. repeat split; auto; try apply DK.
    rewrite filter_app. cbn [filter]. rewrite (version_nonblank _ _ VL).
    replace (filter nonblank b) with (@nil str); auto.
    clear -F. induction F; auto. cbn. unfold nonblank at 1. unfold all_space in H. now rewrite H.
  - intros (vl & r & v & d & E & VL & FL & DK & Et & W).
    destruct (find_nonblank lines) as [F|(b & v' & r' & -> & F & N)].
    + exfalso. replace (filter nonblank lines) with (@nil str) in E; [discriminate|].
      clear -F. induction F; auto. cbn. unfold nonblank at 1. unfold all_space in H. now rewrite H.
    + rewrite filter_app in E. cbn [filter] in E. rewrite N in E.
      replace (filter nonblank b) with (@nil str) in E.
      * cbn in E. inversion E; subst. exists b, vl, r', v, d. auto 10.
      * clear -F. induction F; auto. cbn. unfold nonblank at 1. unfold all_space in H. now rewrite H.
Qed.

Lemma nonblank_false b : nonblank b = false <-> all_space b.
Proof. unfold nonblank, all_space. rewrite negb_false_iff. tauto. Qed.
Lemma nonblank_true b : nonblank b = true <-> ~ all_space b.
Proof. rewrite <- nonblank_false. destruct (nonblank b); split; intros; congruence. Qed.

Lemma ctx_nonblank m raw n t : pyspace m = false -> ctx_line m raw n t -> nonblank raw = true.
Proof.
  intros Hm C. apply nonblank_true. intros B. apply strip_nil_iff in B.
  apply (starts_ctx m raw n t Hm) in C as [r E]. congruence.
Qed.

Lemma ctx_unique m raw n t n' t' : pyspace m = false -> ctx_line m raw n t -> ctx_line m raw n' t' -> n = n' /\ t = t'.
Proof.
  intros Hm C C'. apply ctx_line_iff in C as (r & E & S); auto. apply ctx_line_iff in C' as (r' & E' & S'); auto.
  rewrite E in E'. inversion E'; subst. rewrite S in S'. destruct t, t'; inversion S'; auto.
Qed.

Lemma cells_blank x y : cells x = cells y -> all_space x -> ~ is_context y -> all_space y.
Proof.
  intros E B N. rewrite (cells_space _ B) in E. symmetry in E. unfold cells in E.
  destruct (splitc "|" y) as [|h [|h2 t]] eqn:S; cbn [map] in E; [discriminate| |discriminate].
  assert (E0 : strip h = []) by congruence. clear E.
  assert (h = y).
  { clear -S. revert h S. induction y as [|c y IH]; intros h S; cbn in S; [congruence|].
    destruct (ceqb c "|"); [destruct (splitc "|" y) eqn:E; [now apply splitc_ne in E|discriminate]|].
    destruct (splitc "|" y) as [|h' t'] eqn:E; [now apply splitc_ne in E|]. destruct t'; [|discriminate]. inversion S; subst. f_equal. auto. }
  subst h. now apply strip_nil_iff.
Qed.

Lemma same_reads T x y ln : same_but_blanks x y -> reads_as T x ln -> reads_as T y ln.
Proof.
  intros S Rx. destruct S as [Nx Ny Ec|n t Cx Cy|n t Cx Cy].
  - inversion Rx; subst.
    + exfalso. apply Nx. left. eapply starts_ctx; eauto.
    + exfalso. apply Nx. right. eapply starts_ctx; eauto.
    + rewrite Ec in *. apply r_head; auto.
      * intros B. apply H. apply (cells_blank y x); auto.
      * intros K. apply Ny. now left.
      * intros K. apply Ny. now right.
    + rewrite Ec in *. apply r_data; auto; intros K; apply Ny; [now left|now right].
  - assert (Hs : starts_with "#" x) by (eapply starts_ctx; eauto; reflexivity).
    inversion Rx; subst; try contradiction.
    + destruct (ctx_unique "#" x n t n0 t0 eq_refl Cx H) as [<- <-]. now apply r_top.
    + exfalso. apply starts_ctx in H; [|reflexivity]. destruct Hs as [r E], H as [r' E']. congruence.
  - assert (Hs : starts_with "!" x) by (eapply starts_ctx; eauto; reflexivity).
    inversion Rx; subst; try contradiction.
    + exfalso. apply starts_ctx in H; [|reflexivity]. destruct Hs as [r E], H as [r' E']. congruence.
    + destruct (ctx_unique "!" x n t n0 t0 eq_refl Cx H) as [<- <-]. now apply r_sub.
Qed.
Lemma same_sym x y : same_but_blanks x y -> same_but_blanks y x.
Proof. destruct 1; [apply sb_cells; auto|eapply sb_top; eauto|eapply sb_sub; eauto]. Qed.
Lemma same_nonblank x y : same_but_blanks x y -> nonblank x = nonblank y.
Proof.
  destruct 1.
  - destruct (nonblank x) eqn:A, (nonblank y) eqn:B; auto.
    + exfalso. apply nonblank_true in A. apply nonblank_false in B. apply A. apply (cells_blank y x); auto.
    + exfalso. apply nonblank_false in A. apply nonblank_true in B. apply B. apply (cells_blank x y); auto.
  - now rewrite (ctx_nonblank "#" x n t eq_refl H), (ctx_nonblank "#" y n t eq_refl H0).
  - now rewrite (ctx_nonblank "!" x n t eq_refl H), (ctx_nonblank "!" y n t eq_refl H0).
Qed.

Lemma bd_filter l l' : blanks_differ l l' -> Forall2 same_but_blanks (filter nonblank l) (filter nonblank l').
Proof.
  induction 1; cbn [filter].
  - constructor.
  - apply nonblank_false in H. now rewrite H.
  - apply nonblank_false in H. now rewrite H.
  - rewrite (same_nonblank _ _ H). destruct (nonblank y); auto.
Qed.
Lemma bd_sym l l' : blanks_differ l l' -> blanks_differ l' l.
Proof. induction 1; [constructor|apply bd_right|apply bd_left|apply bd_line]; auto using same_sym. Qed.
Lemma fd_sym l l' : files_differ_in_blanks l l' -> files_differ_in_blanks l' l.
Proof.
  intros (b & x & r & b' & y & r' & v & E & E' & F & F' & V & V' & B).
  exists b', y, r', b, x, r, v. repeat split; auto. now apply bd_sym.
Qed.
Lemma blanks_means T l l' t : files_differ_in_blanks l l' -> psv_means T l t -> psv_means T l' t.
Proof.
  intros (b & x & r & b' & y & r' & v & -> & -> & F & F' & V & V' & B) M.
  apply bd_filter in B. apply means_iff. apply means_iff in M as (vl & rest & version & d & E & VL & FL & DK & Et & W).
  assert (K : forall b x r, Forall all_space b -> version_line x v -> filter nonblank (b ++ x :: r) = x :: filter nonblank r).
  { clear. intros b x r F V. rewrite filter_app. cbn [filter]. rewrite (version_nonblank _ _ V).
    replace (filter nonblank b) with (@nil str); auto.
    clear -F. induction F; auto. cbn. apply nonblank_false in H. now rewrite H. }
  rewrite (K b x r F V) in E. inversion E; subst vl rest.
  exists y, (filter nonblank r'), version, d. repeat split; auto; try apply DK.
  - apply version_line_iff in V as (a & q & Sp & _ & ->). apply version_line_iff in VL as (a' & q' & Sp' & _ & ->).
    rewrite Sp in Sp'. inversion Sp'; subst. auto.
  - clear -B FL. revert FL. generalize (doc_lines d). induction B as [|x0 y0 r0 r0' S B IH]; intros L FL; inversion FL; subst; constructor; auto.
    eapply same_reads; eauto.
Qed.
Lemma option_ext {A} (x y : option A) : (forall a, x = Some a -> y = Some a) -> (forall a, y = Some a -> x = Some a) -> x = y.
Proof. intros H K. destruct x; [symmetry; auto|]. destruct y; auto. Qed.
Lemma blanks_ok T c c' : tables_ok T -> files_differ_in_blanks (lines_of c) (lines_of c') -> psv_tree T c = psv_tree T c'.
Proof.
  intros HT B. apply option_ext; intros t H; apply psv_correct in H; auto; apply psv_correct; auto;
    eapply blanks_means; eauto using fd_sym.
Qed.
