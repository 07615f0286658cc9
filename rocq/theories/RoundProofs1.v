(** XML - PSV - XML: printed lines. *)
From Verif Require Import PyStrProofs XmlSpec XmlProofs PsvToXml PsvSpec PsvSpec2 PsvLines TablesProofs JustSpec JustProofs
  PsvProofs4 PsvProofs5 XmlToPsv RoundSpec.

Lemma splitc_one sep s : ~ In sep s -> splitc sep s = [s].
Proof.
  induction s as [|c s IH]; intros N; cbn [splitc]; [reflexivity|].
  replace (ceqb c sep) with false by (symmetry; apply ceqb_neq; intros ->; apply N; now left).
  rewrite IH by (intros I; apply N; now right). reflexivity.
Qed.
Lemma splitc_cons sep a s : ~ In sep a -> splitc sep (a ++ sep :: s) = a :: splitc sep s.
Proof.
  induction a as [|c a IH]; intros N; cbn [app splitc].
  - replace (ceqb sep sep) with true by (symmetry; now apply ceqb_eq). reflexivity.
  - replace (ceqb c sep) with false by (symmetry; apply ceqb_neq; intros ->; apply N; now left).
    rewrite IH by (intros I; apply N; now right). reflexivity.
Qed.
Lemma split_join cs : cs <> [] -> Forall (fun c => ~ In "|"%char c) cs -> splitc "|" (join_bar cs) = cs.
Proof.
  intros N F. destruct cs as [|c cs]; [congruence|]. inversion F as [|? ? H F']; subst. clear N F. cbn [join_bar].
  revert c H. induction F' as [|d cs D F' IH]; intros c H; cbn [map concat].
  - rewrite app_nil_r. now apply splitc_one.
  - cbn [app]. rewrite splitc_cons by auto. f_equal. now apply IH.
Qed.
Lemma strip_rstrip s : strip (rstrip s) = strip s.
Proof.
  destruct (rstrip_prefix s) as (b & E & B). rewrite E at 2. symmetry. now apply strip_post.
Qed.
Lemma cells_rstrip s : cells (rstrip s) = cells s.
Proof. rewrite <- !cells_strip. now rewrite strip_rstrip. Qed.
Lemma cells_join cs : cs <> [] -> Forall (fun c => ~ In "|"%char c) cs -> cells (rstrip (join_bar cs)) = map strip cs.
Proof. intros N F. rewrite cells_rstrip. unfold cells. now rewrite split_join. Qed.

(** the first visible character *)
Lemma strip_head s c r : lstrip s = c :: r -> exists r', strip s = c :: r'.
Proof.
  intros E. pose proof (lstrip_head s) as H. rewrite E in H.
  destruct (lstrip_suffix s) as (a & E2 & A). rewrite E in E2. rewrite E2, strip_pre by auto.
  destruct (strip_decomp (c :: r)) as (x & y & D & X & Y). destruct x as [|d x].
  - cbn [app] in D. destruct (strip (c :: r)) as [|d s'] eqn:S.
    + cbn [app] in D. rewrite <- D in Y. cbn in Y. rewrite H in Y. discriminate.
    + cbn [app] in D. injection D as -> _. eauto.
  - cbn [app] in D. injection D as <- _. cbn in X. rewrite H in X. discriminate.
Qed.
Lemma starts_lstrip m s : starts_with m s -> exists r, lstrip s = m :: r.
Proof.
  intros (r & E). destruct (lstrip s) as [|c l] eqn:L.
  - unfold strip in E. apply lstrip_nil_iff in L. apply strip_nil_iff in L. unfold strip in L. congruence.
  - destruct (strip_head s c l L) as (r' & E'). assert (c = m) by congruence. subst. eauto.
Qed.
Lemma lstrip_join (c : str) (cs : list str) : lstrip (join_bar (c :: cs)) =
  match lstrip c with [] => lstrip (concat (map (fun y => "|"%char :: y) cs)) | x :: l => x :: l ++ concat (map (fun y => "|"%char :: y) cs) end.
Proof.
  cbn [join_bar]. destruct (lstrip_suffix c) as (a & E & A). pose proof (lstrip_head c) as H.
  destruct (lstrip c) as [|x l] eqn:L.
  - rewrite app_nil_r in E. subst a. now rewrite lstrip_app.
  - rewrite E at 1. rewrite <- app_assoc, lstrip_app by auto. cbn [app]. now rewrite lstrip_nospace.
Qed.
Lemma starts_rstrip m s : starts_with m (rstrip s) <-> starts_with m s.
Proof. unfold starts_with. now rewrite strip_rstrip. Qed.
Lemma join_not_context (c : str) (cs : list str) : (forall m r, strip c = m :: r -> m <> "#"%char /\ m <> "!"%char) -> ~ is_context (rstrip (join_bar (c :: cs))).
Proof.
  intros H [K|K]; apply (proj1 (starts_rstrip _ _)) in K; apply starts_lstrip in K as (r & K); rewrite lstrip_join in K;
  (destruct (lstrip c) as [|x l] eqn:L; [destruct cs as [|d cs]; cbn in K; discriminate|]);
  destruct (strip_head c x l L) as (r' & E); destruct (H _ _ E); injection K as ? _; congruence.
Qed.
Lemma nonblank_cells raw : ~ Forall (fun c => c = []) (cells raw) -> nonblank raw = true.
Proof.
  intros H. apply nonblank_true. intros A. apply H. rewrite cells_space by auto. repeat constructor.
Qed.

(** * padded texts *)
Definition padded (v s : str) : Prop := exists a b, s = spaces a ++ v ++ spaces b.
Lemma padded_strip v s : is_trimmed v -> padded v s -> strip s = v.
Proof.
  intros T (a & b & ->). apply strip_pad; try apply spaces_space. now apply is_trimmed_iff.
Qed.
Lemma spaces_chars n c : In c (spaces n) -> c = " "%char.
Proof. unfold spaces. intros I. now apply repeat_spec in I. Qed.
Lemma padded_chars v s c : padded v s -> In c s -> In c v \/ c = " "%char.
Proof.
  intros (a & b & ->) I. apply in_app_or in I as [I|I]; [right; eapply spaces_chars; eauto|].
  apply in_app_or in I as [I|I]; auto. right; eapply spaces_chars; eauto.
Qed.

(** * context lines *)
Lemma name_word n : valid_name n = true -> is_word n.
Proof.
  unfold valid_name. destruct n as [|c n]; [discriminate|]. intros H. apply andb_prop in H as [H1 H2]. split; [discriminate|].
  assert (A : forall c, name_char c = true -> pyspace c = false).
  { intros x. apply implf_ascii. vm_compute. reflexivity. }
  constructor.
  - apply A. unfold name_char. now rewrite H1.
  - apply Forall_forall. intros x I. apply A. rewrite forallb_forall in H2. auto.
Qed.
Lemma context_reads m e : pyspace m = false -> valid_name (xtag e) = true -> ctx_line m (context_line [m] e) (xtag e) (strip (xtext e)).
Proof.
  intros M V. pose proof (name_word _ V) as W. unfold context_line, getElementTagText, regularizeWhiteSpace.
  assert (T : is_trimmed (strip (xtext e))) by apply strip_idem. generalize dependent (strip (xtext e)). intros x T.
  destruct x as [|c x].
  - assert (E : rstrip ([m] ++ $" " ++ xtag e ++ $" " ++ []) = m :: " "%char :: xtag e).
    { transitivity (rstrip ((m :: " "%char :: xtag e) ++ $" ")); [reflexivity|].
      rewrite rstrip_app by reflexivity. apply rstrip_trimmed.
      apply trimmed_intro; auto. intros a d E. destruct W as [N F].
      assert (I : In d (xtag e)).
      { clear -E N. destruct (exists_last N) as (y & z & Ey). rewrite Ey in *. change (m :: " "%char :: y ++ [z]) with ((m :: " "%char :: y) ++ [z]) in E.
        apply app_inj_tail in E as [_ ->]. apply in_or_app. right. now left. }
      rewrite Forall_forall in F. auto. }
    rewrite E. exists [], $" ", [], []. split; [cbn [app]; now rewrite !app_nil_r|].
    repeat split; auto; try (unfold all_space; reflexivity); try apply W; try congruence.
  - assert (E : rstrip ([m] ++ $" " ++ xtag e ++ $" " ++ c :: x) = m :: " "%char :: xtag e ++ $" " ++ c :: x).
    { transitivity (rstrip (m :: " "%char :: xtag e ++ $" " ++ c :: x)); [reflexivity|].
      apply rstrip_trimmed. apply is_trimmed_iff in T. apply trimmed_intro; auto. intros a d E.
      destruct (exists_last (l := c :: x)) as (y & z & E2); [discriminate|]. rewrite E2 in T, E.
      rewrite !app_comm_cons, !app_assoc in E. apply app_inj_tail in E as [_ <-]. eapply trimmed_last; eauto. }
    rewrite E. exists [], $" ", $" ", []. split; [cbn [app]; now rewrite !app_nil_r|].
    repeat split; auto; try (unfold all_space; reflexivity); try apply W; intros _; discriminate.
Qed.
