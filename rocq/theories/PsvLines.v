(** Proofs about single PSV lines. *)
From Verif Require Import PyStrProofs PsvToXml PsvSpec TablesProofs.

(** * split(None, 1) *)
Lemma span_word_spec s : forall w r, span_word s = (w, r) ->
  s = w ++ r /\ Forall (fun c => pyspace c = false) w /\ match r with [] => True | c :: _ => pyspace c = true end.
Proof.
  induction s as [|c s IH]; intros w r E; simpl in E.
  - inversion E; subst. auto.
  - destruct (pyspace c) eqn:P.
    + inversion E; subst. auto.
    + destruct (span_word s) as [w' r'] eqn:E'. inversion E; subst.
      destruct (IH _ _ eq_refl) as (-> & F & H). auto.
Qed.
Lemma span_word_app w : forall r, Forall (fun c => pyspace c = false) w ->
  match r with [] => True | c :: _ => pyspace c = true end -> span_word (w ++ r) = (w, r).
Proof.
  induction w as [|c w IH]; intros r F H; simpl.
  - destruct r; simpl; auto. now rewrite H.
  - inversion F; subst. rewrite H2, IH; auto.
Qed.

Lemma split1_intro w2 n w3 t : all_space w2 -> is_word n -> all_space w3 ->
  match t with [] => True | c :: _ => pyspace c = false end -> (t <> [] -> w3 <> []) ->
  split1 (w2 ++ n ++ w3 ++ t) = n :: match t with [] => [] | _ => [t] end.
Proof.
  unfold all_space. intros W2 [Nn Fn] W3 Ht N. unfold split1. rewrite lstrip_app by auto.
  destruct n as [|c n]; [congruence|]. inversion Fn; subst. cbn [app]. rewrite lstrip_nospace by auto.
  change (c :: n ++ w3 ++ t) with ((c :: n) ++ w3 ++ t).
  rewrite span_word_app; auto.
  - rewrite lstrip_app by auto. destruct t as [|d t]; [reflexivity|]. now rewrite lstrip_nospace.
  - destruct w3 as [|d w3]; simpl.
    + destruct t; auto. exfalso. apply N; congruence.
    + simpl in W3. now apply andb_prop in W3.
Qed.

Lemma split1_elim s : (all_space s /\ split1 s = []) \/
  exists w2 n w3 t, s = w2 ++ n ++ w3 ++ t /\ all_space w2 /\ is_word n /\ all_space w3 /\
    match t with [] => True | c :: _ => pyspace c = false end /\ (t <> [] -> w3 <> []) /\
    split1 s = n :: match t with [] => [] | _ => [t] end.
Proof.
  destruct (lstrip_suffix s) as (a & E & A). pose proof (lstrip_head s) as Hh.
  destruct (lstrip s) as [|c s'] eqn:L.
  - left. split; [|unfold split1; now rewrite L]. now apply lstrip_nil_iff.
  - right. destruct (span_word (c :: s')) as [n r] eqn:Sp.
    destruct (span_word_spec _ _ _ Sp) as (E2 & F & Hr).
    destruct (lstrip_suffix r) as (w3 & E3 & W3).
    assert (Nn : n <> []).
    { intros ->. simpl in E2. subst r. congruence. }
    assert (ES : s = a ++ n ++ w3 ++ lstrip r) by (rewrite E, E2, E3 at 1; reflexivity).
    exists a, n, w3, (lstrip r).
    assert (Ht : match lstrip r with [] => True | c :: _ => pyspace c = false end) by apply lstrip_head.
    assert (N3 : lstrip r <> [] -> w3 <> []).
    { intros Nt ->. simpl in E3. destruct r as [|d r]; [now apply Nt|].
      rewrite <- E3 in Ht. congruence. }
    split; [exact ES|]. repeat split; auto.
    rewrite ES at 1. apply split1_intro; auto. split; auto.
Qed.

(** * context lines *)
Lemma trimmed_last s c : trimmed (s ++ [c]) = true -> pyspace c = false.
Proof.
  destruct s as [|d s]; cbn.
  - destruct (pyspace c); auto.
  - rewrite andb_true_iff. unfold lastc. change (d :: s ++ [c]) with ((d :: s) ++ [c]). rewrite rev_app_distr.
    cbn. intros [_ H]. now apply negb_true_iff.
Qed.
Lemma trimmed_intro s : match s with [] => True | c :: _ => pyspace c = false end ->
  (forall a c, s = a ++ [c] -> pyspace c = false) -> trimmed s = true.
Proof.
  intros H K. destruct s as [|c s]; auto. cbn. rewrite H. cbn. unfold lastc.
  destruct (rev (c :: s)) as [|d r] eqn:E; auto. apply negb_true_iff.
  apply (K (rev r) d). now rewrite <- (rev_involutive (c :: s)), E.
Qed.
Lemma trimmed_head c s : trimmed (c :: s) = true -> pyspace c = false.
Proof. cbn. destruct (pyspace c); auto. Qed.
Lemma is_trimmed_iff s : is_trimmed s <-> trimmed s = true.
Proof.
  unfold is_trimmed. split.
  - intros <-. apply strip_is_trimmed.
  - apply strip_trimmed.
Qed.

Lemma word_last n a c : is_word n -> n = a ++ [c] -> pyspace c = false.
Proof. intros [_ F] ->. rewrite Forall_app in F. destruct F as [_ F]. now inversion F. Qed.

Lemma snoc_cases {A} (s : list A) : s = [] \/ exists a c, s = a ++ [c].
Proof. induction s using rev_ind; eauto. Qed.

Lemma ctx_line_iff m raw n t : pyspace m = false ->
  ctx_line m raw n t <->
  exists r, strip raw = m :: r /\ split1 r = n :: match t with [] => [] | _ => [t] end.
Proof.
  intros Hm. split.
  - intros (w1 & w2 & w3 & w4 & -> & W1 & W2 & W3 & W4 & Hn & Ht & N3).
    apply is_trimmed_iff in Ht.
    assert (Hh : match t with [] => True | c :: _ => pyspace c = false end).
    { destruct t; auto. now apply trimmed_head in Ht. }
    destruct t as [|d t].
    + exists (w2 ++ n). split.
      * replace (w1 ++ m :: w2 ++ n ++ w3 ++ [] ++ w4) with (w1 ++ (m :: w2 ++ n) ++ (w3 ++ w4))
          by (simpl; now rewrite <- !app_assoc).
        apply strip_pad; auto.
        -- unfold all_space in *. now rewrite forallb_app, W3, W4.
        -- apply trimmed_intro; auto. intros a c E.
           destruct (snoc_cases n) as [->|(n' & e & ->)]; [destruct Hn; congruence|].
           change (m :: w2 ++ n' ++ [e]) with ((m :: w2) ++ n' ++ [e]) in E.
           rewrite app_assoc in E. apply app_inj_tail in E as [_ <-].
           eapply word_last; eauto.
      * pose proof (split1_intro w2 n [] [] W2 Hn) as K. simpl in K. rewrite app_nil_r in K. apply K; auto; reflexivity.
    + exists (w2 ++ n ++ w3 ++ d :: t). split.
      * replace (w1 ++ m :: w2 ++ n ++ w3 ++ (d :: t) ++ w4) with (w1 ++ (m :: w2 ++ n ++ w3 ++ d :: t) ++ w4)
          by (simpl; now rewrite <- !app_assoc).
        apply strip_pad; auto. apply trimmed_intro; auto. intros a c E.
        destruct (snoc_cases (d :: t)) as [K|(t' & e & K)]; [congruence|]. rewrite K in E, Ht.
        replace (m :: w2 ++ n ++ w3 ++ t' ++ [e]) with ((m :: w2 ++ n ++ w3 ++ t') ++ [e]) in E
          by (simpl; now rewrite <- !app_assoc).
        apply app_inj_tail in E as [_ <-]. now apply trimmed_last in Ht.
      * now apply split1_intro.
  - intros (r & E & S). destruct (strip_decomp raw) as (w1 & w4 & D & W1 & W4).
    pose proof (strip_is_trimmed raw) as Tr. rewrite E in D, Tr.
    destruct (split1_elim r) as [[_ K]|(w2 & n' & w3 & t' & -> & W2 & Hn & W3 & Hh & N3 & K)]; [congruence|].
    rewrite S in K.
    assert (n' = n /\ t' = t) as [-> ->].
    { destruct t, t'; inversion K; auto. }
    assert (Tt : trimmed t = true).
    { apply trimmed_intro; auto. intros a c ->.
      replace (m :: w2 ++ n ++ w3 ++ a ++ [c]) with ((m :: w2 ++ n ++ w3 ++ a) ++ [c]) in Tr
        by (simpl; now rewrite <- !app_assoc).
      now apply trimmed_last in Tr. }
    exists w1, w2, w3, w4. repeat split; auto.
    + rewrite D. simpl. now rewrite <- !app_assoc.
    + apply Hn.
    + apply Hn.
    + now apply is_trimmed_iff.
Qed.

(** * cells *)
Lemma splitc_ne sep s : splitc sep s <> [].
Proof. destruct s as [|c s]; simpl; [congruence|]. destruct (ceqb c sep); [congruence|]. destruct (splitc sep s); congruence. Qed.
Lemma splitc_pre sep a : forall s, ~ In sep a ->
  exists h t, splitc sep s = h :: t /\ splitc sep (a ++ s) = (a ++ h) :: t.
Proof.
  induction a as [|c a IH]; intros s N; simpl.
  - destruct (splitc sep s) as [|h t] eqn:E; [now apply splitc_ne in E|]. eauto.
  - destruct (IH s) as (h & t & E1 & E2); [intros I; apply N; now right|].
    rewrite E2. replace (ceqb c sep) with false.
    + exists h, t. auto.
    + symmetry. apply ceqb_neq. intros ->. apply N. now left.
Qed.
Lemma splitc_post sep b : ~ In sep b -> forall s,
  exists i l, splitc sep s = i ++ [l] /\ splitc sep (s ++ b) = i ++ [l ++ b].
Proof.
  intros N. induction s as [|c s (i & l & E1 & E2)]; simpl.
  - exists [], []. split; auto. destruct (splitc_pre sep b [] N) as (h & t & H1 & H2).
    rewrite app_nil_r in H2. rewrite H2. simpl in H1. inversion H1; subst. now rewrite app_nil_r.
  - rewrite E1, E2. destruct (ceqb c sep).
    + exists ([] :: i), l. auto.
    + destruct i as [|h i]; simpl; eauto.
      * exists [], (c :: l). auto.
      * exists ((c :: h) :: i), l. auto.
Qed.
Lemma space_no_pipe a : all_space a -> ~ In "|"%char a.
Proof. unfold all_space. rewrite forallb_forall. intros H I. apply H in I. discriminate I. Qed.
Lemma strip_pre a s : all_space a -> strip (a ++ s) = strip s.
Proof. intros A. unfold strip. now rewrite lstrip_app. Qed.
Lemma strip_post s b : all_space b -> strip (s ++ b) = strip s.
Proof.
  intros B. destruct (strip_decomp s) as (x & y & E & X & Y). rewrite E at 1.
  rewrite <- !app_assoc. apply strip_pad; auto.
  - rewrite forallb_app. unfold all_space in B. now rewrite Y, B.
  - apply strip_is_trimmed.
Qed.
Lemma cells_strip raw : map strip (splitc "|" (strip raw)) = cells raw.
Proof.
  unfold cells. destruct (strip_decomp raw) as (a & b & E & A & B).
  rewrite E at 2.
  destruct (splitc_post "|" b (space_no_pipe _ B) (a ++ strip raw)) as (i & l & E1 & E2).
  rewrite <- app_assoc in E2. rewrite E2, map_app. simpl. rewrite strip_post by auto.
  change (map strip i ++ [strip l]) with (map strip i ++ map strip [l]). rewrite <- map_app, <- E1.
  destruct (splitc_pre "|" a (strip raw) (space_no_pipe _ A)) as (h & t & H1 & H2).
  rewrite H1, H2. simpl. now rewrite strip_pre.
Qed.

Lemma firstchars_iff fs : forallb is_alpha_ (flat_map (firstn 1) fs) = true <-> Forall header_cell fs.
Proof.
  induction fs as [|f fs IH]; simpl; [split; auto|]. rewrite forallb_app, andb_true_iff, IH.
  split.
  - intros [A B]. constructor; auto. destruct f; simpl in *; auto. rewrite andb_true_r in A. exact A.
  - intros F. inversion F; subst. split; auto. destruct f; simpl in *; auto. now rewrite H1.
Qed.

Lemma forallb_smem l al : forallb (fun f => smem f al) l = true <-> incl l al.
Proof. rewrite forallb_forall. split; intros H x I; specialize (H x I); now apply smem_In. Qed.

Lemma fits_dec T cols p al rq : dget p (allowed T) = Some al -> dget p (required T) = Some rq ->
  fits T cols p <-> forallb (fun f => smem f al) cols && forallb (fun r => smem r cols) rq = true.
Proof.
  intros A Q. rewrite andb_true_iff, !forallb_smem. unfold fits. split.
  - intros (al' & rq' & A' & Q' & I). rewrite A in A'. rewrite Q in Q'. inversion A'; inversion Q'; now subst.
  - intros I. exists al, rq. auto.
Qed.

Lemma header_type_spec T cols : forall ps tag,
  Forall (fun p => p <> [] /\ (exists al, dget p (allowed T) = Some al) /\ (exists rq, dget p (required T) = Some rq)) ps ->
  exists r, header_type T cols ps tag = Ok r /\
    ((r = tag /\ Forall (fun p => ~ fits T cols p) ps) \/
     exists pre p post, r = Some p /\ ps = pre ++ p :: post /\ fits T cols p /\ Forall (fun p => ~ fits T cols p) post).
Proof.
  induction ps as [|p ps IH]; intros tag F; cbn [header_type].
  - exists tag. split; auto.
  - inversion F; subst. destruct H1 as (_ & [al A] & [rq Q]). rewrite A, Q.
    pose proof (fits_dec T cols p al rq A Q) as D.
    match goal with |- exists r, ?X = Ok r /\ _ =>
      replace X with (header_type T cols ps (if forallb (fun f => smem f al) cols && forallb (fun r => smem r cols) rq then Some p else tag))
        by (destruct (forallb (fun f => smem f al) cols); reflexivity) end.
    destruct (_ && _) eqn:E.
    + destruct (IH (Some p) H2) as (r & -> & [[-> N]|(pre & q & post & -> & -> & Fq & N)]); eexists; split; eauto.
      * right. exists [], p, ps. repeat split; auto. now apply D.
      * right. exists (p :: pre), q, post. auto.
    + destruct (IH tag H2) as (r & -> & [[-> N]|(pre & q & post & -> & -> & Fq & N)]); eexists; split; eauto.
      * left. split; auto. constructor; auto. rewrite D. congruence.
      * right. exists (p :: pre), q, post. auto.
Qed.

(** the last fitting type is unique *)
Lemma last_fit_unique {A} (P : A -> Prop) l p q pre post pre' post' :
  l = pre ++ p :: post -> P p -> Forall (fun x => ~ P x) post ->
  l = pre' ++ q :: post' -> P q -> Forall (fun x => ~ P x) post' -> p = q.
Proof.
  intros -> Pp Np E Pq Nq. revert pre' E. induction pre as [|x pre IH]; intros [|y pre'] E; simpl in E.
  - now inversion E.
  - inversion E; subst. rewrite Forall_forall in Np. exfalso. apply (Np q); auto. apply in_or_app. right. now left.
  - inversion E; subst. rewrite Forall_forall in Nq. exfalso. apply (Nq p); auto. apply in_or_app. right. now left.
  - inversion E; subst. eauto.
Qed.

(** * parsePSVLine computes reads_as *)
Definition line_of (k : linekind) (fs : list str) : option line :=
  match k, fs with
  | TOP_HEADER_LINE, [n] => Some (LTop n [])
  | TOP_HEADER_LINE, n :: t :: _ => Some (LTop n t)
  | SECOND_HEADER_LINE, [n] => Some (LSub n [])
  | SECOND_HEADER_LINE, n :: t :: _ => Some (LSub n t)
  | KEYWORD_RECORD_LINE, _ =>
      match rev fs with t :: r => Some (LHead (rev r) t) | [] => None end
  | DATA_RECORD_LINE, _ => Some (LData fs)
  | _, [] => None
  end.

Lemma strip_nil_iff raw : strip raw = [] <-> all_space raw.
Proof.
  unfold all_space. split; intros H.
  - destruct (strip_decomp raw) as (a & b & E & A & B). rewrite E, H. simpl. now rewrite forallb_app, A, B.
  - unfold strip. apply lstrip_nil_iff in H. rewrite H. reflexivity.
Qed.

Lemma cells_space raw : all_space raw -> cells raw = [[]].
Proof.
  intros H. unfold cells. destruct (splitc_pre "|" raw [] (space_no_pipe _ H)) as (h & t & E1 & E2).
  rewrite app_nil_r in E2. rewrite E2. simpl in E1. inversion E1; subst. rewrite app_nil_r. simpl.
  f_equal. now apply strip_nil_iff.
Qed.

Lemma starts_ctx m raw n t : pyspace m = false -> ctx_line m raw n t -> starts_with m raw.
Proof. intros H C. apply ctx_line_iff in C as (r & E & _); auto. now exists r. Qed.

Lemma parse_reads T raw : tables_ok T ->
  match parsePSVLine T raw with
  | Ok None => all_space raw
  | Ok (Some (k, fs)) => ~ all_space raw /\ forall ln, reads_as T raw ln <-> line_of k fs = Some ln
  | Err e => ~ all_space raw /\ e = RuntimeError /\ forall ln, ~ reads_as T raw ln
  end.
Proof.
  intros (ch & Hch & Fch). unfold parsePSVLine.
  destruct (strip raw) as [|c rest] eqn:E; [now apply strip_nil_iff|].
  assert (NS : ~ all_space raw) by (rewrite <- strip_nil_iff; congruence).
  assert (SW : forall m, starts_with m raw <-> m = c).
  { intros m. unfold starts_with. rewrite E. split; [intros [r K]; congruence|intros ->; eauto]. }
  assert (CTX : forall m n t, pyspace m = false ->
     (ctx_line m raw n t <-> m = c /\ split1 rest = n :: match t with [] => [] | _ => [t] end)).
  { intros m n t Hm. rewrite ctx_line_iff by auto. rewrite E. split.
    - intros (r & K & S). inversion K; subst. auto.
    - intros [-> S]. eauto. }
  assert (Hash : pyspace "#" = false) by reflexivity.
  assert (Bang : pyspace "!" = false) by reflexivity.
  destruct (ceqb c "#") eqn:C1; [apply ceqb_eq in C1; subst c|].
  { split; auto. intros ln. split.
    - intros K. inversion K; subst.
      + apply CTX in H as [_ S]; auto. rewrite S. destruct t; reflexivity.
      + apply CTX in H as [X _]; auto. discriminate.
      + exfalso. apply H0. now apply SW.
      + exfalso. apply H. now apply SW.
    - intros K. destruct (split1_elim rest) as [[_ S]|(w2 & n & w3 & t & _ & _ & _ & _ & Ht & _ & S)]; rewrite S in K; [discriminate|].
      destruct t; simpl in K; inversion K; subst; apply r_top, CTX; auto. }
  destruct (ceqb c "!") eqn:C2; [apply ceqb_eq in C2; subst c|].
  { split; auto. intros ln. split.
    - intros K. inversion K; subst.
      + apply CTX in H as [X _]; auto. discriminate.
      + apply CTX in H as [_ S]; auto. rewrite S. destruct t; reflexivity.
      + exfalso. apply H1. now apply SW.
      + exfalso. apply H0. now apply SW.
    - intros K. destruct (split1_elim rest) as [[_ S]|(w2 & n & w3 & t & _ & _ & _ & _ & Ht & _ & S)]; rewrite S in K; [discriminate|].
      destruct t; simpl in K; inversion K; subst; apply r_sub, CTX; auto. }
  assert (N1 : ~ starts_with "#" raw) by (rewrite SW; intros <-; discriminate).
  assert (N2 : ~ starts_with "!" raw) by (rewrite SW; intros <-; discriminate).
  cbn zeta. rewrite <- E, cells_strip.
  destruct (forallb is_alpha_ _) eqn:F.
  - apply firstchars_iff in F. rewrite Hch.
    destruct (header_type_spec T (cells raw) ch None Fch) as (r & Er & D). rewrite Er. cbn [rbind].
    destruct D as [[-> N]|(pre & p & post & -> & Ech & Fp & N)].
    + repeat split; auto. intros ln K. inversion K; subst; auto.
      * apply N1. eapply starts_ctx; eauto.
      * apply N2. eapply starts_ctx; eauto.
      * destruct H3 as (pre & post & D1 & D2 & _). rewrite Hch in D1. inversion D1; subst.
        rewrite Forall_forall in N. apply (N ty); auto. apply in_or_app. right. now left.
    + assert (p <> []).
      { rewrite Forall_forall in Fch. apply (Fch p). rewrite Ech. apply in_or_app. right. now left. }
      destruct p as [|p0 p1]; [congruence|]. split; auto.
      assert (L : line_of KEYWORD_RECORD_LINE (cells raw ++ [p0 :: p1]) = Some (LHead (cells raw) (p0 :: p1))).
      { simpl. rewrite rev_app_distr. simpl. now rewrite rev_involutive. }
      intros ln. match goal with |- _ <-> ?X = _ => replace X with (Some (LHead (cells raw) (p0 :: p1))) by (symmetry; exact L) end. split.
      * intros K. inversion K; subst; auto.
        -- exfalso. apply N1. eapply starts_ctx; eauto.
        -- exfalso. apply N2. eapply starts_ctx; eauto.
        -- destruct H4 as (pre' & post' & D1 & D2 & D3). rewrite Hch in D1. inversion D1.
           assert (p0 :: p1 = ty) as <- by (eapply (last_fit_unique (fits T (cells raw)) _ _ _ _ _ _ _ eq_refl Fp N); eauto). reflexivity.
        -- contradiction.
      * intros K. inversion K; subst. apply r_head; auto. exists pre, post. rewrite Hch. auto.
  - assert (NF : ~ Forall header_cell (cells raw)) by (rewrite <- firstchars_iff; congruence).
    split; auto. intros ln. simpl. split.
    + intros K. inversion K; subst; auto.
      * exfalso. apply N1. eapply starts_ctx; eauto.
      * exfalso. apply N2. eapply starts_ctx; eauto.
      * contradiction.
    + intros K. inversion K; subst. now apply r_data.
Qed.

(** * the version line *)
Lemma split_ws_squeeze s : squeeze s = without_space s.
Proof.
  unfold squeeze, split_ws.
  assert (G : forall s cur, concat (split_ws_aux s cur) = rev cur ++ without_space s).
  { clear. induction s as [|c s IH]; intros cur; simpl.
    - destruct cur; simpl; rewrite ?app_nil_r; auto.
    - destruct (pyspace c); simpl.
      + destruct cur; simpl; rewrite IH; simpl; auto.
      + rewrite IH. simpl. now rewrite <- app_assoc. }
  apply (G s []).
Qed.
Lemma splitc_two sep s a b : splitc sep s = [a; b] <-> s = a ++ [sep] ++ b /\ ~ In sep a /\ ~ In sep b.
Proof.
  assert (one : forall s a, splitc sep s = [a] <-> s = a /\ ~ In sep a).
  { clear. induction s as [|c s IH]; intros a; simpl.
    - split; [intros H; inversion H; auto|]. intros [<- _]. auto.
    - destruct (ceqb c sep) eqn:E.
      + apply ceqb_eq in E. subst. split; [|intros [<- N]; exfalso; apply N; now left].
        destruct (splitc sep s) eqn:E2; [now apply splitc_ne in E2|]. discriminate.
      + apply ceqb_neq in E. destruct (splitc sep s) as [|h [|g t]] eqn:E2; [now apply splitc_ne in E2| |].
        * destruct (IH h) as [I _]. destruct (I eq_refl) as [-> N].
          split; intros H; [inversion H; subst; split; auto; simpl; intuition|]. destruct H as [<- _]. auto.
        * split; [discriminate|]. intros [<- N]. exfalso. destruct (IH s) as [_ I].
          assert (K : h :: g :: t = [s]) by (apply I; split; auto; intros ?; apply N; now right). discriminate. }
  revert a. induction s as [|c s IH]; intros a; simpl.
  - split; [discriminate|]. intros [H _]. destruct a; discriminate.
  - destruct (ceqb c sep) eqn:E.
    + apply ceqb_eq in E. subst. split.
      * intros H. inversion H; subst. apply one in H2 as [-> N]. auto.
      * intros (H & N1 & N2). destruct a as [|d a]; simpl in H; inversion H; subst.
        -- f_equal. now apply one.
        -- exfalso. apply N1. now left.
    + apply ceqb_neq in E. destruct (splitc sep s) as [|h t] eqn:E2; [now apply splitc_ne in E2|]. split.
      * intros H. inversion H; subst. destruct (IH h) as [I _]. destruct (I eq_refl) as (-> & N1 & N2).
        simpl. repeat split; auto. simpl. intuition.
      * intros (H & N1 & N2). destruct a as [|d a]; simpl in H; inversion H; subst; [congruence|].
        assert (K : h :: t = [a; b]).
        { apply IH. repeat split; auto. intros I; apply N1; now right. }
        inversion K; subst. reflexivity.
Qed.
Lemma version_line_iff raw v : version_line raw v <->
  exists a b, splitc "=" raw = [a; b] /\ squeeze a = $"#version" /\ v = squeeze b.
Proof.
  unfold version_line. split; intros (a & b & H).
  - destruct H as (E & N1 & N2 & V & ->). exists a, b. rewrite !split_ws_squeeze. repeat split; auto.
    apply splitc_two. auto.
  - destruct H as (E & V & ->). rewrite split_ws_squeeze in *. apply splitc_two in E as (-> & N1 & N2).
    exists a, b. auto.
Qed.
Lemma version_line_top T raw v : version_line raw v ->
  exists fs, parsePSVLine T raw = Ok (Some (TOP_HEADER_LINE, fs)).
Proof.
  intros (a & b & -> & _ & _ & V & _). unfold parsePSVLine.
  assert (G : forall a, without_space a = $"#version" -> exists a1 a2, a = a1 ++ "#"%char :: a2 /\ all_space a1).
  { clear. induction a as [|c a IH]; intros V; simpl in V; [discriminate|].
    destruct (pyspace c) eqn:P; simpl in V.
    - destruct (IH V) as (a1 & a2 & -> & A). exists (c :: a1), a2. split; auto. unfold all_space. simpl. now rewrite P.
    - inversion V; subst. exists [], a. split; auto. reflexivity. }
  destruct (G a V) as (a1 & a2 & -> & A).
  rewrite <- app_assoc. rewrite strip_pre by auto. cbn [app].
  set (r := a2 ++ $"=" ++ b).
  assert (K : exists r', strip ("#"%char :: r) = "#"%char :: r').
  { unfold strip. rewrite lstrip_nospace by reflexivity. destruct (rstrip_prefix ("#"%char :: r)) as (w & E & W).
    destruct (rstrip ("#"%char :: r)) as [|d r'] eqn:E2.
    - simpl in E. rewrite <- E in W. discriminate.
    - inversion E; subst. eauto. }
  destruct K as [r' ->]. simpl. eauto.
Qed.
