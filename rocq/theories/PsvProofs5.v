(** Column order. *)
From Verif Require Import PyStrProofs XmlSpec XmlProofs PsvToXml PsvSpec PsvLines TablesProofs PsvProofs1 PsvProofs2 PsvProofs3 PsvSpec2 PsvProofs4.

Lemma streqb_refl s : streqb s s = true.
Proof. now apply streqb_eq. Qed.
Lemma firstn_len {A B} (a : list A) (b : list B) : length b = length a -> firstn (length b) a = a.
Proof. intros ->. apply firstn_all. Qed.
Lemma value_in : forall H row k v, NoDup H -> length row = length H -> In (k, v) (combine H row) -> value_of H row k = v.
Proof.
  induction H as [|h H IH]; intros [|x row] k v N L I; cbn in L, I; try contradiction; try discriminate.
  inversion N; subst. cbn [value_of]. rewrite firstn_len by lia. destruct I as [I|I].
  - inversion I; subst. rewrite streqb_refl. cbn [andb].
    replace (smem k H) with false; auto. symmetry. destruct (smem k H) eqn:E; auto. apply smem_In in E. contradiction.
  - replace (streqb k h) with false; [cbn [andb]; apply IH; auto|].
    symmetry. destruct (streqb k h) eqn:E; auto. apply streqb_eq in E. subst. exfalso. apply H2. eapply in_combine_l; eauto.
Qed.
Lemma value_out : forall H row k, ~ In k H -> value_of H row k = [].
Proof.
  induction H as [|h H IH]; intros [|x row] k N; cbn [value_of]; auto.
  replace (streqb k h) with false; [cbn [andb]; apply IH; intros I; apply N; now right|].
  symmetry. destruct (streqb k h) eqn:E; auto. apply streqb_eq in E. subst. exfalso. apply N. now left.
Qed.
Lemma map_fst_combine {A B} : forall (a : list A) (b : list B), length b = length a -> map fst (combine a b) = a.
Proof. induction a; intros [|y b] L; cbn in *; try discriminate; auto. f_equal. apply IHa. lia. Qed.
Lemma value_perm H H' row row' k : NoDup H -> length row = length H -> length row' = length H' ->
  Permutation (combine H row) (combine H' row') -> value_of H row k = value_of H' row' k.
Proof.
  intros N L L' P.
  assert (PH : Permutation H H').
  { rewrite <- (map_fst_combine H row L), <- (map_fst_combine H' row' L'). now apply Permutation_map. }
  destruct (in_dec (list_eq_dec Ascii.ascii_dec) k H) as [I|I].
  - rewrite <- (map_fst_combine H row L) in I. apply in_map_iff in I as ([k' v] & E & I). cbn in E. subst k'.
    rewrite (value_in H row k v); auto. symmetry. apply value_in; auto.
    + eapply Permutation_NoDup; eauto.
    + eapply Permutation_in; eauto.
  - rewrite !value_out; auto. intros I'. apply I. eapply Permutation_in; [symmetry; exact PH|auto].
Qed.
Lemma row_tree_ext al ty H H' row row' : (forall k, value_of H row k = value_of H' row' k) ->
  row_tree al ty H row = row_tree al ty H' row'.
Proof.
  intros E. unfold row_tree. f_equal. rewrite (filter_ext _ (fun k => negb (streqb (value_of H' row' k) []))).
  - apply map_ext. intros k. now rewrite E.
  - intros k. now rewrite E.
Qed.

Definition row_moved (H H' row row' : list str) : Prop :=
  (length row <= length H)%nat /\ (length row' <= length H')%nat /\ forall k, value_of H row k = value_of H' row' k.

Lemma section_moved T its H H' ty R R' : Forall2 (row_moved H H') R R' ->
  section_trees T {| s_ctx := its; s_cols := H; s_type := ty; s_rows := R |} =
  section_trees T {| s_ctx := its; s_cols := H'; s_type := ty; s_rows := R' |}.
Proof.
  intros F.
  assert (E : rows_trees T {| s_ctx := its; s_cols := H; s_type := ty; s_rows := R |} =
              rows_trees T {| s_ctx := its; s_cols := H'; s_type := ty; s_rows := R' |}).
  { unfold rows_trees. cbn [s_type s_cols s_rows]. induction F as [|r r' R R' (L & L' & P) F IH]; auto. cbn [map].
    f_equal; auto. now apply row_tree_ext. }
  unfold section_trees. cbn [s_ctx]. rewrite E. reflexivity.
Qed.

Lemma swap_steps (s s' : section) L : forall A B tl d, (tl = TNone -> B = [] -> match L with LData _ :: _ => False | _ => True end) ->
  doc_steps {| d_secs := A ++ s :: B; d_tail := tl |} L = Some d ->
  exists B' tl', d = {| d_secs := A ++ s :: B'; d_tail := tl' |} /\
    doc_steps {| d_secs := A ++ s' :: B; d_tail := tl |} L = Some {| d_secs := A ++ s' :: B'; d_tail := tl' |}.
Proof.
  induction L as [|ln L IH]; intros A B tl d C E; cbn [doc_steps] in E.
  - apply some_inj in E. subst. exists B, tl. auto.
  - cbn [doc_steps]. 
    destruct ln as [n t|n t|c ty|f]; destruct tl as [|its|its c' ty']; cbn [doc_step d_tail d_secs] in *; try discriminate;
      try (apply IH; [intros; discriminate | exact E]).
    + destruct (rev its); [discriminate|]. apply IH; [intros; discriminate | exact E].
    + destruct (snoc_cases B) as [->|(B0 & b & ->)]; [now destruct (C eq_refl eq_refl)|].
      assert (Rv : forall x : section, rev (A ++ x :: B0 ++ [b]) = b :: rev (A ++ x :: B0)).
      { intros x. rewrite app_comm_cons, app_assoc, rev_app_distr. reflexivity. }
      rewrite Rv in *. destruct (_ <=? _)%nat; [|discriminate]. rewrite rev_involutive in *.
      rewrite <- app_assoc in *. rewrite <- app_comm_cons in *. apply IH; auto. intros _ K. destruct B0; discriminate.
    + destruct (_ <=? _)%nat; [|discriminate]. rewrite <- app_assoc in *. rewrite <- app_comm_cons in *.
      apply IH; auto. intros _ K. destruct B; discriminate.
Qed.

Lemma moved_doc T v d Lp H H' ty R R' Lq : doc_ok d -> Forall2 (row_moved H H') R R' ->
  (match Lq with LData _ :: _ => False | _ => True end) ->
  doc_lines d = Lp ++ LHead H ty :: map LData R ++ Lq ->
  exists d', doc_ok d' /\ doc_lines d' = Lp ++ LHead H' ty :: map LData R' ++ Lq /\ doc_tree T v d' = doc_tree T v d.
Proof.
  intros DK F Hq E. pose proof (doc_steps_complete d DK) as D. rewrite E, doc_steps_app in D.
  destruct (doc_steps doc0 Lp) as [d0|] eqn:D0; [|discriminate].
  assert (HD : exists its, forall H, doc_step d0 (LHead H ty) = Some {| d_secs := d_secs d0; d_tail := THead its H ty |}).
  { cbn [doc_steps] in D. destruct d0 as [s0 [|its|its c t0]]; cbn [doc_step d_tail d_secs] in D |- *.
    - exists []. reflexivity.
    - exists its. reflexivity.
    - discriminate. }
  destruct HD as [its HD]. cbn [doc_steps] in D. rewrite HD in D.
  assert (G : exists d', doc_steps doc0 (Lp ++ LHead H' ty :: map LData R' ++ Lq) = Some d' /\ doc_tree T v d' = doc_tree T v d).
  { rewrite doc_steps_app, D0. cbn [doc_steps]. rewrite HD.
    destruct F as [|r r' R R' (L & L' & P) F].
    - cbn [map app] in *. destruct Lq as [|ln Lq].
      + cbn in *. apply some_inj in D. subst. eexists. split; [reflexivity|]. unfold doc_tree. cbn. destruct its; reflexivity.
      + exfalso. destruct ln; cbn in D; try discriminate. contradiction.
    - cbn [map app doc_steps doc_step d_tail d_secs] in *.
      replace (length r <=? length H)%nat with true in D by (symmetry; apply Nat.leb_le; lia).
      replace (length r' <=? length H')%nat with true by (symmetry; apply Nat.leb_le; lia).
      rewrite doc_steps_app in *. rewrite rows_steps in D.
      2: { clear -F. induction F as [|? ? ? ? (? & _)]; constructor; auto; lia. }
      rewrite rows_steps.
      2: { clear -F. induction F as [|? ? ? ? (? & ? & _)]; constructor; auto; lia. }
      cbn [app] in *.
      destruct (swap_steps _ {| s_ctx := its; s_cols := H'; s_type := ty; s_rows := r' :: R' |} Lq (d_secs d0) [] TNone d (fun _ _ => Hq) D)
        as (B' & tl' & -> & D').
      eexists. split; [exact D'|]. unfold doc_tree. cbn [d_secs d_tail]. rewrite !flat_map_app'. cbn [flat_map].
      rewrite <- (section_moved T its H H' ty (r :: R) (r' :: R')); auto. constructor; auto. split; auto. }
  destruct G as (d' & D' & Et). destruct (doc_steps_sound _ _ _ doc0_ok D') as [DK' L']. exists d'. auto.
Qed.

Lemma reads_data T raw : data_line raw -> forall ln, reads_as T raw ln <-> ln = LData (cells raw).
Proof.
  intros [NC NH] ln. split.
  - intros K. inversion K; subst; auto.
    + exfalso. apply NC. left. eapply starts_ctx; eauto; reflexivity.
    + exfalso. apply NC. right. eapply starts_ctx; eauto; reflexivity.
    + contradiction.
  - intros ->. apply r_data; auto; intros K; apply NC; [now left|now right].
Qed.
Lemma moved_perm H H' r r' : moved H H' r r' -> Permutation (cells r) (cells r').
Proof.
  intros (_ & _ & L & L' & P). apply (Permutation_map snd) in P.
  assert (S : forall (a b : list str), length b = length a -> map snd (combine a b) = b).
  { clear. induction a; intros [|y b] L; cbn in *; try discriminate; auto. f_equal. apply IHa. lia. }
  rewrite !S in P by auto. exact P.
Qed.
Lemma Forall_perm {A} (P : A -> Prop) l l' : Permutation l l' -> Forall P l -> Forall P l'.
Proof. intros Q F. rewrite Forall_forall in *. intros x I. apply F. eapply Permutation_in; [symmetry; exact Q|auto]. Qed.
Lemma moved_data H H' r r' : moved H H' r r' -> data_line r -> data_line r'.
Proof.
  intros M [_ NH]. pose proof (moved_perm _ _ _ _ M) as P. destruct M as (_ & N' & _). split; auto.
  intros K. apply NH. eapply Forall_perm; [symmetry; exact P|auto].
Qed.
Lemma perm_incl {A} (a b c : list A) : Permutation a b -> incl a c -> incl b c.
Proof. intros P I x K. apply I. eapply Permutation_in; [symmetry; exact P|auto]. Qed.
Lemma fits_perm T H H' p : Permutation H H' -> fits T H p -> fits T H' p.
Proof.
  intros P (al & rq & A & Q & I1 & I2). exists al, rq. repeat split; auto.
  - eapply perm_incl; eauto.
  - intros x K. eapply Permutation_in; eauto.
Qed.
Lemma head_moved T h h' ty : ~ is_context h' -> Permutation (cells h) (cells h') -> ~ is_context h ->
  reads_as T h (LHead (cells h) ty) -> reads_as T h' (LHead (cells h') ty).
Proof.
  intros N' P N K. inversion K as [| |ty' Bl S1 S2 HC HT Et|]; subst. apply r_head.
  - intros B. apply Bl. apply (cells_blank h' h); auto.
    rewrite (cells_space _ B) in *. apply Permutation_sym, Permutation_length_1_inv in P. congruence.
  - intros X. apply N'. now left.
  - intros X. apply N'. now right.
  - eapply Forall_perm; eauto.
  - destruct HT as (pre & post & A & F & X). exists pre, post. repeat split; auto.
    + eapply fits_perm; eauto.
    + eapply Forall_impl; [|exact X]. intros p NF F'. apply NF. eapply fits_perm; [symmetry; exact P|auto].
Qed.
Lemma data_nonblank r : data_line r -> nonblank r = true.
Proof.
  intros [_ NH]. apply nonblank_true. intros B. apply NH. rewrite (cells_space _ B). constructor; [exact I|constructor].
Qed.
Lemma filter_all {A} (f : A -> bool) l : Forall (fun x => f x = true) l -> filter f l = l.
Proof. induction 1; cbn; auto. now rewrite H, IHForall. Qed.
Lemma not_data T raw ln : ~ data_line raw -> reads_as T raw ln -> match ln with LData _ => False | _ => True end.
Proof.
  intros N K. inversion K; subst; auto. apply N. split; auto. intros [X|X]; auto.
Qed.

Lemma cm_sym l l' : columns_moved l l' -> columns_moved l' l.
Proof.
  intros (pre & h & rows & h' & rows' & post & -> & -> & N & N' & B & HC & ND & P & FD & FM & Hp).
  exists pre, h', rows', h, rows, post. repeat split; auto.
  - intros B'. apply B. apply (cells_blank h' h); auto.
    rewrite (cells_space _ B') in *. apply Permutation_sym, Permutation_length_1_inv in P. congruence.
  - eapply Forall_perm; eauto.
  - eapply Permutation_NoDup; eauto.
  - now symmetry.
  - clear -FD FM. induction FM; inversion FD; subst; constructor; auto. eapply moved_data; eauto.
  - clear -FM. induction FM as [|r r' R R' (A & A' & L & L' & P) F IH]; constructor; auto. repeat split; auto. now symmetry.
Qed.

Lemma Forall2_app_l {A B} (P : A -> B -> Prop) a : forall b c, Forall2 P (a ++ b) c -> exists c1 c2, c = c1 ++ c2 /\ Forall2 P a c1 /\ Forall2 P b c2.
Proof. intros b c H. apply Forall2_app_inv_l in H as (c1 & c2 & H1 & H2 & ->). eauto. Qed.

Lemma hq T (F : list str) Lq : match F with x :: _ => ~ data_line x | [] => True end ->
  Forall2 (reads_as T) F Lq -> match Lq with LData _ :: _ => False | _ => True end.
Proof. intros Hp FL. destruct FL as [|x ln F Lq K FL]; auto. apply (not_data T x ln Hp K). Qed.

Lemma replace_means T pre h rows h' rows' post t :
  ~ is_context h -> ~ is_context h' -> ~ all_space h -> Forall header_cell (cells h) ->
  Permutation (cells h) (cells h') -> Forall data_line rows -> Forall data_line rows' ->
  Forall2 (row_moved (cells h) (cells h')) (map cells rows) (map cells rows') ->
  match filter (fun l => negb (forallb pyspace l)) post with x :: _ => ~ data_line x | [] => True end ->
  psv_means T (pre ++ h :: rows ++ post) t -> psv_means T (pre ++ h' :: rows' ++ post) t.
Proof.
  intros N N' B HC P FD FD' FR Hp M.
  apply means_iff. apply means_iff in M as (vl & rest & version & d & E & VL & FL & DK & Et & W).
  change (fun l => negb (forallb pyspace l)) with nonblank in Hp.
  assert (Nh : nonblank h = true) by now apply nonblank_true.
  assert (B' : ~ all_space h').
  { intros B'. apply B. apply (cells_blank h' h); auto.
    rewrite (cells_space _ B') in *. apply Permutation_sym, Permutation_length_1_inv in P. congruence. }
  assert (Nh' : nonblank h' = true) by now apply nonblank_true.
  assert (Fr : filter nonblank rows = rows) by (apply filter_all; eapply Forall_impl; [|exact FD]; apply data_nonblank).
  assert (Fr' : filter nonblank rows' = rows') by (apply filter_all; eapply Forall_impl; [|exact FD']; apply data_nonblank).
  rewrite filter_app in E |- *. cbn [filter] in E |- *. rewrite Nh in E. rewrite Nh'. rewrite filter_app in E |- *. rewrite Fr in E. rewrite Fr'.
  destruct (filter nonblank pre) as [|v0 pre'].
  { exfalso. cbn in E. inversion E; subst. apply N. left. destruct (version_line_top T _ _ VL) as [fs K].
    unfold parsePSVLine in K. destruct (strip vl) as [|c s] eqn:Es; [discriminate|].
    destruct (ceqb c "#") eqn:C; [apply ceqb_eq in C; subst c; now exists s|].
    destruct (ceqb c "!"); [discriminate|]. cbn zeta in K. destruct (forallb is_alpha_ _) in K; [|discriminate].
    destruct (dget _ _) in K; [|discriminate]. destruct (header_type _ _ _ _) as [[[|? ?]|]|] in K; discriminate. }
  cbn [app] in E. inversion E; subst v0 rest.
  apply Forall2_app_l in FL as (Lp & L2 & EL & FLp & FL2). inversion FL2 as [|? lh ? L3 Rh FL3]; subst.
  apply Forall2_app_l in FL3 as (Ld & Lq & -> & FLd & FLq).
  assert (exists ty, lh = LHead (cells h) ty) as [ty ->].
  { inversion Rh; subst; eauto.
    - exfalso. apply N. left. eapply starts_ctx; eauto; reflexivity.
    - exfalso. apply N. right. eapply starts_ctx; eauto; reflexivity.
    - contradiction. }
  assert (Ld = map LData (map cells rows)) as ->.
  { clear -FLd FD. revert Ld FLd. induction FD; intros Ld F; inversion F; subst; auto. cbn. f_equal; auto. eapply reads_data; eauto. }
  assert (Hq : match Lq with LData _ :: _ => False | _ => True end).
  { exact (hq T (filter nonblank post) Lq Hp FLq). }
  destruct (moved_doc T version d Lp (cells h) (cells h') ty _ _ Lq DK FR Hq EL) as (d' & DK' & EL' & Et').
  exists vl, (pre' ++ h' :: rows' ++ filter nonblank post), version, d'. split; auto. split; auto. split; [|split; [exact DK'|split; [congruence|auto]]].
  rewrite EL'. apply Forall2_app; auto. constructor; [apply (head_moved T h h' ty); auto|].
  apply Forall2_app; auto. clear -FD'. induction FD'; cbn; constructor; auto. now apply reads_data.
Qed.
Lemma moved_means T l l' t : columns_moved l l' -> psv_means T l t -> psv_means T l' t.
Proof.
  intros (pre & h & rows & h' & rows' & post & -> & -> & N & N' & B & HC & ND & P & FD & FM & Hp).
  apply replace_means; auto.
  - clear -FD FM. induction FM; inversion FD; subst; constructor; auto. eapply moved_data; eauto.
  - clear -FM ND. induction FM as [|r r' R R' (A & A' & L & L' & P) F IH]; constructor; auto. split; [lia|split; [lia|]].
    intros k. now apply value_perm.
Qed.

(** * short rows *)
Lemma value_pad : forall H row n k, NoDup H -> (length row + n <= length H)%nat ->
  value_of H (row ++ repeat [] n) k = value_of H row k.
Proof.
  induction H as [|h H IH]; intros row n k N L; cbn in L.
  - destruct row, n; cbn in *; auto; lia.
  - inversion N; subst. destruct row as [|x row].
    + cbn [app]. clear -N L. cbn in L.
      assert (G : forall H n, value_of H (repeat [] n) k = []).
      { clear. induction H as [|h H IH]; intros [|n]; cbn [repeat value_of]; auto. destruct (_ && _); auto. }
      rewrite G. reflexivity.
    + cbn [app value_of]. cbn in L. rewrite IH by (auto; lia).
      destruct (streqb k h) eqn:E; cbn [andb]; auto. apply streqb_eq in E. subst h.
      assert (F : forall m, smem k (firstn m H) = false).
      { intros m. destruct (smem k (firstn m H)) eqn:S; auto. exfalso. apply smem_In in S. apply H2.
        rewrite <- (firstn_skipn m H). apply in_or_app. now left. }
      now rewrite !F.
Qed.
Lemma padded_sym l l' : rows_padded l l' -> rows_padded l' l.
Proof.
  intros (pre & h & rows & rows' & post & -> & -> & N & B & HC & ND & FD & FD' & FP & Hp).
  exists pre, h, rows', rows, post. repeat split; auto.
  clear -FP. induction FP as [|r r' R R' (L & L' & n & D) F IH]; constructor; auto. split; auto. split; auto. exists n. tauto.
Qed.
Lemma padded_means T l l' t : rows_padded l l' -> psv_means T l t -> psv_means T l' t.
Proof.
  intros (pre & h & rows & rows' & post & -> & -> & N & B & HC & ND & FD & FD' & FP & Hp).
  apply replace_means; auto.
  clear -FP ND. induction FP as [|r r' R R' (L & L' & n & D) F IH]; constructor; auto. split; auto. split; auto.
  intros k. destruct D as [E|E]; rewrite E in *; rewrite app_length, repeat_length in *; [symmetry|]; apply value_pad; auto.
Qed.
Lemma padded_ok T c c' : tables_ok T -> rows_padded (lines_of c) (lines_of c') -> psv_tree T c = psv_tree T c'.
Proof.
  intros HT B. apply option_ext; intros t H; apply psv_correct in H; auto; apply psv_correct; auto;
    eapply padded_means; eauto using padded_sym.
Qed.
Lemma moved_ok T c c' : tables_ok T -> columns_moved (lines_of c) (lines_of c') -> psv_tree T c = psv_tree T c'.
Proof.
  intros HT B. apply option_ext; intros t H; apply psv_correct in H; auto; apply psv_correct; auto;
    eapply moved_means; eauto using cm_sym.
Qed.
