(** Lemmas about Print80Spec: records, headers, blocks, documents. *)
From Verif Require Import PyStrProofs XmlToMpc80 AdesMasterTables TablesProofs RoundProofs2 PsvSpec2 LayoutSpec Print80Spec.
Local Open Scope nat_scope.

(** * Records are printed from the texts of their fields *)
Section Ext.
  Variables d d' : list (str * str).
  Hypothesis E : forall k, dget k d = dget k d'.
  Lemma optical_ext o : printOpticalLine o d = printOpticalLine o d'.
  Proof. unfold printOpticalLine, code80, hasKeyOrVal, kget, kmem. rewrite !E. reflexivity. Qed.
  Lemma radar_ext : printRadarLine d = printRadarLine d'.
  Proof. unfold printRadarLine, hasKeyOrVal, kget, kmem. rewrite !E. reflexivity. Qed.
End Ext.
Definition record_in (x : xml) : str * list (str * str) := (xtag x, subDict_of x).
Lemma record_iff o r ls : print_record o (record_in r) = Ok ls <-> record80 o r ls.
Proof.
  unfold print_record, record_in, record80, is_tag. split.
  - intro H. exists (subDict_of r). split; [intro k; apply rec_get|]. destruct (_ || _); [exact H|]. destruct (streqb _ _); [exact H|congruence].
  - intros (d & T & H). assert (forall k, dget k d = dget k (subDict_of r)) as X by (intro k; rewrite rec_get; apply T).
    destruct (_ || _); [rewrite <- (optical_ext d _ X); exact H|]. destruct (streqb _ _); [rewrite <- (radar_ext d _ X); exact H|congruence].
Qed.
Lemma records_cons o x g P : print_records o (x :: g) = Ok P <-> exists l P', print_record o x = Ok l /\ print_records o g = Ok P' /\ P = l ++ P'.
Proof.
  unfold print_records. cbn [rmap]. split.
  - intro H. destruct (print_record o x) as [l|]; [|discriminate H]. cbn [rbind] in H. destruct (rmap (print_record o) g) as [q|]; [|discriminate H]. cbn [rbind concat] in *. apply Ok_inj in H. exists l, (concat q). now rewrite <- H.
  - intros (l & P' & -> & H & ->). cbn [rbind]. destruct (rmap (print_record o) g) as [q|]; [|discriminate H]. cbn [rbind concat] in *. apply Ok_inj in H. now rewrite H.
Qed.
Lemma records_app o f g P : print_records o (f ++ g) = Ok P <-> exists Q R, print_records o f = Ok Q /\ print_records o g = Ok R /\ P = Q ++ R.
Proof.
  revert P. induction f as [|x f IH]; intro P; cbn [app].
  - split; [intro H; exists [], P; auto|]. intros (Q & R & A & B & ->). apply Ok_inj in A. rewrite <- A. exact B.
  - rewrite records_cons. split.
    + intros (l & P' & A & B & ->). apply IH in B as (Q & R & C & D & ->). exists (l ++ Q), R. rewrite app_assoc. split; [|auto]. apply records_cons. eauto.
    + intros (Q & R & A & B & ->). apply records_cons in A as (l & Q' & C & D & ->). exists l, (Q' ++ R). rewrite app_assoc. split; [exact C|]. split; [|reflexivity]. apply IH. eauto.
Qed.
Lemma records_iff o rs P : print_records o (map record_in rs) = Ok P <-> exists rl, Forall2 (record80 o) rs rl /\ P = concat rl.
Proof.
  revert P. induction rs as [|r rs IH]; intro P; cbn [map].
  - split; [intro H; apply Ok_inj in H; exists []; now split|]. intros (rl & F & ->). inversion F. reflexivity.
  - rewrite records_cons. split.
    + intros (l & P' & A & B & ->). apply record_iff in A. apply IH in B as (rl & F & ->). exists (l :: rl). split; [now constructor|reflexivity].
    + intros (rl & F & ->). inversion F as [|r' l rs' rl' A B]. subst. exists l, (concat rl'). split; [now apply record_iff|]. split; [|reflexivity]. apply IH. eauto.
Qed.

(** * Headers *)
Lemma said_eq tags e : kid_texts tags e = said tags e.
Proof.
  unfold kid_texts, said. induction (xkids e) as [|k ks IH]; [reflexivity|]. cbn [flat_map map filter]. unfold getElementTagText at 1, regularizeWhiteSpace.
  assert (smem (xtag k) tags = existsb (fun t => is_tag t k) tags) as -> by reflexivity.
  destruct (existsb _ tags); cbn [app map]; now rewrite IH.
Qed.
Lemma commas_eq l : joinc $", " l = commas l.
Proof. induction l as [|x [|y l] IH]; [reflexivity..|]. change (joinc $", " (x :: y :: l)) with (x ++ $", " ++ joinc $", " (y :: l)). now rewrite IH. Qed.
Lemma heading_eq e : context_entry80 e = heading80 e.
Proof. unfold context_entry80, heading80, is_tag. rewrite !said_eq, !commas_eq. reflexivity. Qed.
Lemma context_eq e : processObsContext80 e = flat_map heading80 (xkids e).
Proof. unfold processObsContext80. induction (xkids e) as [|k ks IH]; [reflexivity|]. cbn [flat_map]. now rewrite heading_eq, IH. Qed.

(** * Blocks *)
Notation T := ades_tables.
Lemma data_get : dget $"obsData" (allowed T) = Some observation_tags. Proof. vm_compute. reflexivity. Qed.
Lemma block_get : dget $"obsBlock" (allowed T) = Some [$"obsContext"; $"obsData"]. Proof. vm_compute. reflexivity. Qed.
Lemma ades_get : dget $"ades" (allowed T) = Some ((observation_tags ++ [$"opticalResidual"; $"radarResidual"]) ++ [$"obsBlock"]). Proof. vm_compute. reflexivity. Qed.
(** the kind of the records of a block read so far *)
Definition of_kind (first : bool) (ty : str) (rs : list xml) : Prop :=
  match rs with
  | [] => True
  | r :: _ => let t := if first then xtag r else ty in (first = true -> In t observation_tags) /\ forall x, In x rs -> xtag x = t
  end.
Lemma data_iff es : forall first ty g first' ty' g',
  block_data80 T es first ty g = Ok (first', ty', g') <->
  of_kind first ty es /\ first' = (match es with [] => first | _ => false end) /\
  ty' = (match es with [] => ty | e :: _ => if first then xtag e else ty end) /\
  g' = (match es with [] => g | _ => if first then map record_in es else g ++ map record_in es end).
Proof.
  induction es as [|e es IH]; intros first ty g first' ty' g'; cbn [block_data80].
  - split; [intro H; injection H as <- <- <-; repeat split|]. intros (_ & -> & -> & ->). reflexivity.
  - rewrite data_get. cbn [of_kind]. unfold processDataElement80. change (xtag e, subDict_of e) with (record_in e).
    assert (forall ty, of_kind false ty es <-> forall x, In x es -> xtag x = ty) as OK.
    { clear. intro ty. destruct es as [|r rs]; cbn [of_kind]; [split; [intros _ x []|auto]|]. split; [intros [_ H]; exact H|]. intro H. split; [discriminate|exact H]. }
    destruct first; cbn [rbind].
    + destruct (smem (xtag e) observation_tags) eqn:M; cbn [rbind].
      * apply smem_In in M. rewrite IH, OK. cbn [app map]. split.
        -- intros (A & -> & -> & ->). split; [split; [auto|]; intros x [<-|I]; auto|]. destruct es; repeat split.
        -- intros ((_ & A) & -> & -> & ->). split; [intros x I; apply A; now right|]. destruct es; repeat split.
      * split; [discriminate|]. intros ((A & _) & _). specialize (A eq_refl). apply smem_In in A. congruence.
    + destruct (streqb (xtag e) ty) eqn:Q; cbn [rbind].
      * apply streqb_eq in Q. rewrite IH, OK. cbn [map]. split.
        -- intros (A & -> & -> & ->). split; [split; [discriminate|]; intros x [<-|I]; auto|]. destruct es; [repeat split|]. split; [reflexivity|]. split; [reflexivity|]. now rewrite <- app_assoc.
        -- intros ((_ & A) & -> & -> & ->). split; [intros x I; apply A; now right|]. destruct es; [repeat split|]. split; [reflexivity|]. split; [reflexivity|]. now rewrite <- app_assoc.
      * split; [discriminate|]. intros ((_ & A) & _). specialize (A e (or_introl eq_refl)). apply streqb_eq in A. congruence.
Qed.
Lemma kind_false ty rs : of_kind false ty rs <-> forall x, In x rs -> xtag x = ty.
Proof. destruct rs as [|r rs]; cbn [of_kind]; [split; [intros _ x []|auto]|]. split; [intros [_ H]; exact H|]. intro H. split; [discriminate|exact H]. Qed.
Lemma kind_app first ty a b : of_kind first ty (a ++ b) <->
  of_kind first ty a /\ of_kind (match a with [] => first | _ => false end) (match a with [] => ty | e :: _ => if first then xtag e else ty end) b.
Proof.
  destruct a as [|e a]; [cbn [app of_kind]; tauto|]. rewrite kind_false. cbn [app of_kind]. split.
  - intros [A B]. split; [split; [exact A|]|]; intros x I; apply B; [destruct I as [I|I]; [now left|right; apply in_or_app; now left]|right; apply in_or_app; now right].
  - intros [[A B] C]. split; [exact A|]. intros x [<-|I]; [apply B; now left|]. apply in_app_or in I as [I|I]; [apply B; now right|now apply C].
Qed.
Definition data_in (es : list xml) : list xml := flat_map (fun k => if is_tag $"obsData" k then xkids k else []) es.
Definition heads_in (es : list xml) : list str := flat_map (fun k => if is_tag $"obsContext" k then flat_map heading80 (xkids k) else []) es.
Lemma kids_iff o es : forall first ty g out g' out',
  block_kids80 T o es first ty g out = Ok (g', out') <->
  (forall k, In k es -> In (xtag k) [$"obsContext"; $"obsData"]) /\ of_kind first ty (data_in es) /\
  g' = (match data_in es with [] => g | rs => if first then map record_in rs else g ++ map record_in rs end) /\
  out' = out ++ (if o_noHeader o then [] else heads_in es).
Proof.
  induction es as [|e es IH]; intros first ty g out g' out'; cbn [block_kids80].
  - change (data_in []) with (@nil xml). cbv iota. cbn [of_kind]. split.
    + intro H. injection H as <- <-. split; [intros k []|]. split; [auto|]. split; [reflexivity|]. destruct (o_noHeader o); now rewrite app_nil_r.
    + intros (_ & _ & -> & ->). destruct (o_noHeader o); cbn [heads_in flat_map]; now rewrite app_nil_r.
  - rewrite block_get. destruct (smem (xtag e) [$"obsContext"; $"obsData"]) eqn:M; cbn [negb].
    2: { split; [discriminate|]. intros (H & _). specialize (H e (or_introl eq_refl)). apply smem_In in H. rewrite H in M. discriminate M. }
    apply smem_In in M.
    assert (forall P, (forall k, In k es -> In (xtag k) [$"obsContext"; $"obsData"]) /\ P <-> (forall k, In k (e :: es) -> In (xtag k) [$"obsContext"; $"obsData"]) /\ P) as TG.
    { intro P. split; intros [A B]; (split; [|exact B]); intros k I; [destruct I as [<-|I]; auto|apply A; now right]. }
    assert (xtag e = $"obsContext" \/ xtag e = $"obsData") as [C|C] by (destruct M as [M|[M|[]]]; auto).
    + assert (streqb (xtag e) $"obsData" = false) as -> by (rewrite C; reflexivity). assert (streqb (xtag e) $"obsContext" = true) as -> by (rewrite C; reflexivity).
      assert (data_in (e :: es) = data_in es) as -> by (unfold data_in; cbn [flat_map]; unfold is_tag at 1; rewrite C; reflexivity).
      assert (heads_in (e :: es) = flat_map heading80 (xkids e) ++ heads_in es) as -> by (unfold heads_in; cbn [flat_map]; unfold is_tag at 1; rewrite C; reflexivity).
      cbn [andb]. destruct (o_noHeader o); cbn [negb]; rewrite IH, <- TG; [reflexivity|]. rewrite context_eq, <- app_assoc. reflexivity.
    + assert (streqb (xtag e) $"obsData" = true) as -> by (rewrite C; reflexivity). assert (streqb (xtag e) $"obsContext" = false) as -> by (rewrite C; reflexivity).
      assert (data_in (e :: es) = xkids e ++ data_in es) as -> by (unfold data_in; cbn [flat_map]; unfold is_tag at 1; rewrite C; reflexivity).
      assert (heads_in (e :: es) = heads_in es) as -> by (unfold heads_in; cbn [flat_map]; unfold is_tag at 1; rewrite C; reflexivity).
      cbn [andb]. rewrite kind_app, <- TG. split.
      * intro H. destruct (block_data80 T (xkids e) first ty g) as [[[f' t'] g1]|] eqn:B; [|discriminate H]. cbn [rbind] in H. apply data_iff in B as (K & -> & -> & ->).
        apply IH in H as (A1 & A2 & A3 & A4). split; [exact A1|]. split; [split; [exact K|exact A2]|]. split; [|exact A4].
        rewrite A3. destruct (xkids e) as [|x xs]; [reflexivity|]. cbn [app]. destruct (data_in es); [rewrite app_nil_r; reflexivity|]. destruct first; rewrite app_comm_cons, map_app; [reflexivity|now rewrite app_assoc].
      * intros (A1 & (K & A2) & A3 & A4). rewrite (proj2 (data_iff (xkids e) first ty g _ _ _) (conj K (conj eq_refl (conj eq_refl eq_refl)))). cbn [rbind].
        apply IH. split; [exact A1|]. split; [exact A2|]. split; [|exact A4]. rewrite A3.
        destruct (xkids e) as [|x xs]; [reflexivity|]. cbn [app]. destruct (data_in es); [rewrite app_nil_r; reflexivity|]. destruct first; rewrite app_comm_cons, map_app; [reflexivity|now rewrite app_assoc].
Qed.
Lemma block_iff o e g g' ls : processObsBlock80 T o e g = Ok (g', ls) <->
  proper_block e /\ g' = (match block_data_of e with [] => g | rs => map record_in rs end) /\ ls = (if o_noHeader o then [] else block_header80 e).
Proof.
  unfold processObsBlock80. rewrite kids_iff. unfold proper_block. change (data_in (xkids e)) with (block_data_of e). change (heads_in (xkids e)) with (block_header80 e). cbn [app].
  assert (of_kind true [] (block_data_of e) <-> exists t, In t observation_tags /\ forall r, In r (block_data_of e) -> xtag r = t) as ->; [|tauto].
  destruct (block_data_of e) as [|r rs]; cbn [of_kind].
  - split; [|auto]. intros _. exists $"optical". split; [now left|]. intros r [].
  - split; [intros [A B]; eauto|]. intros (t & A & B). pose proof (B r (or_introl eq_refl)) as <-. auto.
Qed.

(** * Documents *)
Lemma kids80_iff o es : forall before last g out ls,
  g = map record_in (run_before before) -> last = (match before with [] => None | e :: _ => Some (xtag e) end) ->
  ((exists g' out' P', ades_kids80 T o es last g out = Ok (g', out') /\ print_records o g' = Ok P' /\ ls = out' ++ P') <->
   (exists P ls', print_records o g = Ok P /\ parts80 o before es ls' /\ ls = out ++ P ++ ls')).
Proof.
  induction es as [|e es IH]; intros before last g out ls G L; cbn [ades_kids80 parts80].
  - split.
    + intros (g' & out' & P' & A & B & ->). apply Ok_inj in A. injection A as <- <-. exists P', []. rewrite app_nil_r. auto.
    + intros (P & ls' & A & -> & ->). exists g, out, P. rewrite app_nil_r. auto.
  - rewrite ades_get. destruct (smem (xtag e) _) eqn:M; cbn [negb].
    2: { split; [intros (g' & out' & P' & A & _); discriminate A|]. intros (P & ls' & _ & (l & r & A & _) & _). unfold part80, is_tag in A.
      assert (In (xtag e) ((observation_tags ++ [$"opticalResidual"; $"radarResidual"]) ++ [$"obsBlock"])) as I.
      { apply in_or_app. destruct (streqb (xtag e) $"obsBlock") eqn:Q; [right; apply streqb_eq in Q; rewrite Q; now left|left; apply A]. }
      apply smem_In in I. rewrite I in M. discriminate M. }
    apply smem_In in M. unfold part80, is_tag. destruct (streqb (xtag e) $"obsBlock") eqn:Q.
    + split.
      * intros (g' & out' & P' & A & B & ->). destruct (print_records o g) as [lg|] eqn:PG; [|discriminate A]. cbn [rbind] in A.
        destruct (processObsBlock80 T o e g) as [[g1 hs]|] eqn:PB; [|discriminate A]. cbn [rbind] in A. apply block_iff in PB as (PB & G1 & ->).
        assert (g1 = map record_in (run_before (e :: before))) as G2 by (rewrite G1; cbn [run_before]; unfold is_tag; rewrite Q; destruct (block_data_of e); [exact G|reflexivity]).
        destruct (proj1 (IH (e :: before) (Some (xtag e)) g1 _ (out' ++ P') G2 eq_refl) (ex_intro _ g' (ex_intro _ out' (ex_intro _ P' (conj A (conj B eq_refl)))))) as (P1 & ls1 & C & D & E).
        exists lg. assert (exists rl, Forall2 (record80 o) (run_before (e :: before)) rl /\ P1 = concat rl) as (rl & F & ->) by (apply records_iff; now rewrite <- G2).
        exists (((if o_noHeader o then [] else block_header80 e) ++ concat rl) ++ ls1). split; [reflexivity|]. split; [|rewrite E, !app_assoc; reflexivity].
        do 2 eexists. split; [split; [exact PB|]|split; [exact D|reflexivity]]. exists rl. split; [|reflexivity].
        revert F. cbn [run_before]. unfold is_tag. rewrite Q. auto.
      * intros (P & ls' & A & (l & ls1 & (PB & rl & F & ->) & D & ->) & ->). rewrite A. cbn [rbind].
        rewrite (proj2 (block_iff o e g _ _) (conj PB (conj eq_refl eq_refl))). cbn [rbind].
        assert (match block_data_of e with [] => g | rs => map record_in rs end = map record_in (run_before (e :: before))) as G2
          by (cbn [run_before]; unfold is_tag; rewrite Q; destruct (block_data_of e); [exact G|reflexivity]).
        apply (proj2 (IH (e :: before) (Some (xtag e)) _ _ _ G2 eq_refl)). exists (concat rl), ls1. split; [|split; [exact D|rewrite !app_assoc; reflexivity]].
        rewrite G2. apply records_iff. exists rl. split; [|reflexivity]. cbn [run_before]. unfold is_tag. rewrite Q. exact F.
    + assert (In (xtag e) (observation_tags ++ [$"opticalResidual"; $"radarResidual"])) as I.
      { apply in_app_or in M as [M|M]; [exact M|]. destruct M as [M|[]]. rewrite <- M in Q. discriminate Q. }
      set (same := match last with Some t => streqb (xtag e) t | None => false end).
      assert (processDataElement80 (negb same) e g = map record_in (run_before (e :: before)) /\ (same = true -> run_before (e :: before) = run_before before ++ [e]) /\ (same = false -> run_before (e :: before) = [e])) as (G2 & S1 & S2).
      { unfold processDataElement80. change (xtag e, subDict_of e) with (record_in e).
        assert (run_before (e :: before) = rev (same_kind (xtag e) before) ++ [e]) as -> by (cbn [run_before]; unfold is_tag; rewrite Q; cbn [same_kind]; unfold is_tag; rewrite streqb_refl; reflexivity).
        subst same. rewrite L. destruct before as [|b before]; cbn [negb same_kind rev app map].
        - split; [reflexivity|]. split; [discriminate|reflexivity].
        - unfold is_tag. destruct (streqb (xtag e) (xtag b)) eqn:S0; cbn [negb].
          + apply streqb_eq in S0. rewrite S0, streqb_refl. assert (run_before (b :: before) = rev (b :: same_kind (xtag b) before)) as RB.
            { cbn [run_before]. unfold is_tag. rewrite <- S0 at 1. rewrite Q. cbn [same_kind]. unfold is_tag. rewrite streqb_refl. reflexivity. }
            rewrite G, RB, map_app. cbn [map]. split; [reflexivity|]. split; [reflexivity|discriminate].
          + assert (streqb (xtag b) (xtag e) = false) as -> by (destruct (streqb (xtag b) (xtag e)) eqn:X; [|reflexivity]; apply streqb_eq in X; rewrite X, streqb_refl in S0; discriminate S0).
            cbn [rev app map]. split; [reflexivity|]. split; [discriminate|reflexivity]. }
      clearbody same. rewrite G2. split.
      * intros (g' & out' & P' & A & B & ->). destruct (if same then Ok [] else print_records o g) as [lg|] eqn:PG; [|discriminate A]. cbn [rbind] in A.
        destruct (proj1 (IH (e :: before) (Some (xtag e)) _ _ (out' ++ P') eq_refl eq_refl) (ex_intro _ g' (ex_intro _ out' (ex_intro _ P' (conj A (conj B eq_refl)))))) as (P1 & ls1 & C & D & E). rewrite E. destruct same.
        -- apply Ok_inj in PG. subst lg. rewrite (S1 eq_refl), map_app, <- G in C. apply records_app in C as (P & l & C1 & C2 & ->). exists P, (l ++ ls1). split; [exact C1|].
           split; [|rewrite !app_assoc, app_nil_r; reflexivity]. exists l, ls1. split; [split; [exact I|]|auto]. cbn [map] in C2. apply records_cons in C2 as (l1 & l2 & C2 & C3 & ->). apply Ok_inj in C3. subst l2. rewrite app_nil_r. now apply record_iff.
        -- rewrite (S2 eq_refl) in C. cbn [map] in C. apply records_cons in C as (l1 & l2 & C2 & C3 & ->). apply Ok_inj in C3. subst l2. rewrite app_nil_r. exists lg, (l1 ++ ls1). split; [exact PG|].
           split; [|rewrite !app_assoc; reflexivity]. exists l1, ls1. split; [split; [exact I|now apply record_iff]|auto].
      * intros (P & ls' & A & (l & ls1 & (_ & R) & D & ->) & ->). apply record_iff in R. destruct same; cbn [rbind].
        -- apply (proj2 (IH (e :: before) (Some (xtag e)) _ _ _ eq_refl eq_refl)). exists (P ++ l), ls1. split; [|split; [exact D|rewrite !app_assoc, app_nil_r; reflexivity]].
           rewrite (S1 eq_refl), map_app, <- G. apply records_app. exists P, l. split; [exact A|]. split; [|reflexivity]. apply records_cons. exists l, []. rewrite app_nil_r. auto.
        -- rewrite A. cbn [rbind]. apply (proj2 (IH (e :: before) (Some (xtag e)) _ _ _ eq_refl eq_refl)). exists l, ls1. split; [|split; [exact D|rewrite !app_assoc; reflexivity]].
           rewrite (S2 eq_refl). apply records_cons. exists l, []. rewrite app_nil_r. auto.
Qed.
Theorem document_iff o t ls : xmltompc80col_lines T o t = Ok ls <-> xtag t = $"ades" /\ parts80 o [] (xkids t) ls.
Proof.
  unfold xmltompc80col_lines. destruct (streqb (xtag t) $"ades") eqn:Q; cbn [negb].
  - apply streqb_eq in Q. pose proof (kids80_iff o (xkids t) [] None [] [] ls eq_refl eq_refl) as K. split.
    + intro H. split; [exact Q|]. destruct (ades_kids80 T o (xkids t) None [] []) as [[g l]|]; [|discriminate H]. cbn [rbind] in H.
      destruct (print_records o g) as [l'|] eqn:P; [|discriminate H]. cbn [rbind] in H. apply Ok_inj in H.
      destruct (proj1 K) as (P0 & ls' & A & B & ->); [exists g, l, l'; auto|]. apply Ok_inj in A. subst P0. exact B.
    + intros [_ H]. destruct (proj2 K) as (g & l & P & A & B & ->); [exists [], ls; auto|]. rewrite A. cbn [rbind]. rewrite B. reflexivity.
  - split; [discriminate|]. intros [H _]. apply streqb_eq in H. congruence.
Qed.

(** * Precisions *)
Lemma or_else_get k v d k' : dget k' (or_else k v d) = match dget k' d with Some x => Some x | None => if streqb k' k then Some v else None end.
Proof.
  unfold or_else. destruct (dget k d) as [x|] eqn:E.
  - destruct (dget k' d) eqn:E'; [reflexivity|]. destruct (streqb k' k) eqn:Q; [|reflexivity]. apply streqb_eq in Q. subst k'. congruence.
  - clear E. induction d as [|[a b] d IH]; cbn [app dget]; [reflexivity|]. destruct (streqb k' a); [reflexivity|exact IH].
Qed.
Lemma precisions o o' d :
  printOpticalLine o d =
  printOpticalLine o' (or_else $"precTime" (o_precTime o) (or_else $"precRA" (o_precRA o) (or_else $"precDec" (o_precDec o) d))).
Proof.
  set (d' := or_else _ _ _).
  assert (forall k, dget k d' = match dget k d with Some x => Some x | None => if streqb k $"precDec" then Some (o_precDec o) else if streqb k $"precRA" then Some (o_precRA o) else if streqb k $"precTime" then Some (o_precTime o) else None end) as G.
  { intros k. subst d'. rewrite !or_else_get. destruct (dget k d); [reflexivity|]. destruct (streqb k $"precDec") eqn:Q; [reflexivity|]. destruct (streqb k $"precRA"); reflexivity. }
  clearbody d'.
  assert (forall k, smem k [$"precDec"; $"precRA"; $"precTime"] = false -> dget k d' = dget k d) as H.
  { intros k K. rewrite G. unfold smem in K. cbn [existsb] in K. apply Bool.orb_false_elim in K as [K1 K]. apply Bool.orb_false_elim in K as [K2 K]. apply Bool.orb_false_elim in K as [K3 _]. rewrite K1, K2, K3. now destruct (dget k d). }
  pose proof (G $"precTime") as GT. pose proof (G $"precRA") as GR. pose proof (G $"precDec") as GD. clear G.
  unfold printOpticalLine, code80, hasKeyOrVal, kget, kmem. rewrite GT, GR, GD.
  rewrite !H by (vm_compute; reflexivity).
  destruct (dget $"precTime" d), (dget $"precRA" d), (dget $"precDec" d); reflexivity.
Qed.
