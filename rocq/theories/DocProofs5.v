From Verif Require Import PyStrProofs.
From Verif Require Import Mpc80.
From Verif Require Export DocProofs4.
Local Open Scope nat_scope.

Definition block_xml (ctx : xml) (xs : list xml) : xml := Elem $"obsBlock" [] [] [ctx; Elem $"obsData" [] [] xs].
(** a header that comes now opens a block inside the frame [base] *)
Definition start (s : cstate) (base : frame) (rest : list frame) : Prop :=
  exists z fe fo co cx se, is_at s z fe fo false co cx se /\
    (if fo then z = base :: rest /\ base :: rest <> []
     else z_ops [OPop; OPop; OAddPopPush $"obsBlock" [] []] z = Some (blk_frame [] :: base :: rest)).

Section Blocks.
  Variable T : tables.
  Variables opt rad : list str.
  Hypothesis HO : dget $"optical" (allowed T) = Some opt.
  Hypothesis HR : dget $"radar" (allowed T) = Some rad.

  Lemma convert_flush d : record_of_file d -> header d = false ->
    exists body : cm, forall s, convertit T d s = andthen flush_context body s.
  Proof.
    intros RF NH.
    assert (exists code, iget $"code" d = Ok code /\ code_table code <> Some Header) as (code & C & N).
    { destruct RF as [(k & v & ->)|[H|((c & C & I) & _)]]; [discriminate NH| |].
      - exists $"R". split; [|discriminate]. unfold is_kind, text_of in H. unfold iget. apply streqb_eq in H.
        destruct (dget $"code" d) as [[v|]|]; try discriminate H. now rewrite H.
      - exists [c]. rewrite (iget_some _ _ _ C). split; [reflexivity|].
        destruct I as [<-|[<-|[<-|[<-|[<-|[<-|[<-|[<-|[<-|[<-|[<-|[<-|[<-|[<-|[<-|[<-|[<-|[<-|[]]]]]]]]]]]]]]]]]]]; vm_compute; discriminate. }
    unfold convertit. rewrite C. cbv zeta. destruct (code_table code) as [[]|]; try congruence; eexists; intros s; reflexivity.
  Qed.
  Lemma flush_step s zb co cx se hs : is_at s (ctx_frame :: blk_frame [] :: zb) true false true co cx se ->
    map entry_xml cx ++ comment_xml co = xkids (context hs) ->
    if xml_valid (context hs) then exists s', flush_context s = (s', None) /\ c_inObsBlock s' = false /\
         is_at s' (dat_frame :: blk_frame [context hs] :: zb) true false false co cx se
    else fails (flush_context s).
  Proof.
    intros A K. unfold flush_context. rewrite (at_io _ _ _ _ _ _ _ _ A), (at_cx _ _ _ _ _ _ _ _ A), (at_co _ _ _ _ _ _ _ _ A).
    assert (xml_valid (context hs) = forallb op_valid (context_ops cx co)) as V by (rewrite context_valid, K; reflexivity).
    assert (ctx_frame :: blk_frame [] :: zb <> []) as NZ by discriminate.
    rewrite V. destruct (forallb op_valid (context_ops cx co)) eqn:E.
    - destruct (stks_ok _ _ _ _ _ _ _ _ _ _ A (z_context cx co _ NZ) E) as (s1 & E1 & A1).
      rewrite (andthen_ok _ _ _ _ E1). cbn [z_addkids] in A1.
      destruct (stk_ok (OAddPopPush $"obsData" [] []) _ _ (dat_frame :: blk_frame [context hs] :: zb) _ _ _ _ _ _ A1) as (s2 & E2 & A2); [|reflexivity|].
      + cbn. rewrite K. reflexivity.
      + rewrite (andthen_ok _ _ _ _ E2). unfold upd. eexists. split; [reflexivity|]. split; [reflexivity|]. destruct A2; constructor; auto.
    - apply andthen_fails. exact (stks_bad _ _ _ _ _ _ _ _ _ _ A (z_context cx co _ NZ) E).
  Qed.
  Lemma headers_run hs s base rest rs : hs <> [] -> Forall record_of_file hs -> Forall (fun h => header h = true) hs -> start s base rest ->
    exists s' co cx se, feed (convertit T) (hs ++ rs) s = feed (convertit T) rs s' /\
      is_at s' (ctx_frame :: blk_frame [] :: base :: rest) true false true co cx se /\
      map entry_xml cx ++ comment_xml co = xkids (context hs).
  Proof.
    intros N FR FH (z & fe & fo & co & cx & se & A & Z).
    assert (Forall (fun h => exists k v, h = hitem k v) hs) as F.
    { apply Forall_forall. intros h I. rewrite Forall_forall in FR, FH. apply header_of; auto. }
    destruct hs as [|h hs]; [congruence|]. destruct (Forall_inv F) as (k & v & ->).
    destruct (first_header T s z (base :: rest) fo fe co cx se k v A Z) as (s1 & E1 & A1).
    destruct (headers_inside T (hitem k v :: hs) s1 _ _ _ _ _ rs A1 F N) as (s2 & cx2 & se2 & E2 & A2 & M2).
    exists s2, (comment_lines (hitem k v :: hs)), cx2, se2. split.
    - cbn [app feed] in *. rewrite E1. exact E2.
    - split; [exact A2|]. rewrite M2. cbn [map app]. unfold context. cbn [xkids]. rewrite comments_eq. do 2 f_equal.
      cbn. unfold unseen. cbn. f_equal. rewrite filter_filter. apply filter_ext'. intros x. now rewrite andb_true_r.
  Qed.
  Lemma group_step hs ds s base rest rs : regular (hs, ds) -> Forall record_of_file hs -> Forall record_of_file ds -> start s base rest ->
    match block opt rad (hs, ds) with
    | Some bs => exists s' xs, feed (convertit T) ((hs ++ ds) ++ rs) s = feed (convertit T) rs s' /\ rows opt rad ds = Some xs /\
                   bs = [block_xml (context hs) xs] /\ filled s' dat_frame (blk_frame [context hs] :: base :: rest) false xs
    | None => exists s' e, feed (convertit T) ((hs ++ ds) ++ rs) s = (s', Some e)
    end.
  Proof.
    intros (N1 & F1 & N2 & F2) R1 R2 ST. cbn [fst snd] in *. rewrite <- app_assoc.
    destruct (headers_run hs s base rest (ds ++ rs) N1 R1 F1 ST) as (s1 & co & cx & se & E1 & A1 & K). rewrite E1.
    unfold block. cbn [fst snd].
    pose proof (flush_step s1 _ co cx se hs A1 K) as FL.
    destruct ds as [|d ds]; [congruence|].
    destruct (convert_flush d (Forall_inv R2) (Forall_inv F2)) as (body & B).
    destruct (xml_valid (context hs)).
    - destruct FL as (s2 & E2 & I2 & A2).
      assert (feed (convertit T) ((d :: ds) ++ rs) s1 = feed (convertit T) ((d :: ds) ++ rs) s2) as E3.
      { cbn [app feed]. rewrite !B. rewrite (andthen_ok _ _ _ _ E2). rewrite (andthen_ok flush_context body s2 s2); [reflexivity|].
        unfold flush_context. now rewrite I2. }
      rewrite E3.
      assert (filled s2 dat_frame (blk_frame [context hs] :: base :: rest) false []) as F0 by (exists co, cx, se; left; auto).
      pose proof (data_steps T opt rad HO HR (d :: ds) s2 _ _ _ [] rs R2 F2 F0) as X.
      destruct (rows opt rad (d :: ds)) as [xs|]; [|exact X]. destruct X as (s3 & E4 & F3). exists s3, xs. repeat (split; [auto|]). exact F3.
    - assert (exists s' e, feed (convertit T) ((d :: ds) ++ rs) s1 = (s', Some e)) as X.
      { cbn [app]. apply feed_fails. rewrite B. apply andthen_fails. exact FL. }
      destruct (rows opt rad (d :: ds)); exact X.
  Qed.
  Lemma filled_start s ctx base rest xs : filled s dat_frame (blk_frame [ctx] :: base :: rest) false xs -> xs <> [] ->
    start s (push_kids [block_xml ctx xs] base) rest.
  Proof.
    intros (co & cx & se & [(-> & _)|(ys & f & -> & A)]) N; [congruence|].
    eexists _, _, _, _, _, _. split; [exact A|]. cbn. reflexivity.
  Qed.
  Lemma groups_run gs : forall s base rest rs, gs <> [] -> Forall regular gs -> Forall record_of_file (ungroup gs) ->
    Forall (fun g => rows opt rad (snd g) <> Some []) (removelast gs) -> start s base rest ->
    match blocks opt rad gs with
    | Some bs => exists s' ini hs xs, feed (convertit T) (ungroup gs ++ rs) s = feed (convertit T) rs s' /\
                   bs = ini ++ [block_xml (context hs) xs] /\ rows opt rad (snd (last gs ([], []))) = Some xs /\
                   filled s' dat_frame (blk_frame [context hs] :: push_kids ini base :: rest) false xs
    | None => exists s' e, feed (convertit T) (ungroup gs ++ rs) s = (s', Some e)
    end.
  Proof.
    induction gs as [|[hs ds] gs IH]; intros s base rest rs N FR FF FE ST; [congruence|].
    change (ungroup ((hs, ds) :: gs)) with ((hs ++ ds) ++ ungroup gs) in *. rewrite <- app_assoc.
    apply Forall_app in FF as [FF1 FF2]. apply Forall_app in FF1 as [FF0 FF1].
    pose proof (group_step hs ds s base rest (ungroup gs ++ rs) (Forall_inv FR) FF0 FF1 ST) as X.
    change (blocks opt rad ((hs, ds) :: gs)) with
      (match block opt rad (hs, ds), blocks opt rad gs with Some x, Some y => Some (x ++ y) | _, _ => None end).
    destruct (block opt rad (hs, ds)) as [b|]; [|exact X].
    destruct X as (s1 & xs & E1 & R1 & -> & F1). rewrite E1.
    destruct gs as [|g gs].
    - cbn. exists s1, [], hs, xs. rewrite push_nil. auto.
    - assert (start s1 (push_kids [block_xml (context hs) xs] base) rest) as ST1.
      { apply filled_start; auto. intros ->. apply Forall_inv in FE. cbn [snd] in FE. congruence. }
      pose proof (IH s1 _ rest rs ltac:(discriminate) (Forall_inv_tail FR) FF2 (Forall_inv_tail FE) ST1) as Y.
      destruct (blocks opt rad (g :: gs)) as [bs|]; [|exact Y].
      destruct Y as (s2 & ini & hs2 & xs2 & E2 & -> & R2 & F2).
      exists s2, (block_xml (context hs) xs :: ini), hs2, xs2. split; [exact E2|]. split; [reflexivity|]. split; [exact R2|].
      rewrite push_app in F2. exact F2.
  Qed.

  (** * The end *)
  Lemma close_push ks a f z : close_with ks (push_kids a f :: z) = close_with (a ++ ks) (f :: z).
  Proof. cbn [close_with]. now rewrite push_app. Qed.
  Lemma close_filled s base rest fo xs : filled s base rest fo xs ->
    exists t st, close_with xs (base :: rest) = Some t /\ es_takeTreeAndClear (c_stack s) = Ok (t, st).
  Proof.
    intros (co & cx & se & [(-> & A)|(ys & f & -> & A)]); destruct A as [AR AO _ _ _ _ _ _];
      destruct (take_tree _ _ AR AO) as (t & C & E); exists t; eexists; (split; [|exact E]).
    - exact C.
    - cbn [close_with] in C. rewrite push_nil in C. cbn [close_with]. rewrite push_app in C. exact C.
  Qed.
  Definition root : frame := ($"ades", [($"version", $"2022")], [], []).
  Lemma init_filled : exists c, c_init = Ok c /\ filled c root [] true [] /\ start c root [].
  Proof.
    destruct (es_init $"ades" [] [($"version", $"2022")]) as [st|e] eqn:E; [|discriminate E].
    destruct (R_init _ _ _ _ E) as [RI OI]. unfold c_init. rewrite E. cbn [rbind]. eexists. split; [reflexivity|]. split.
    - exists [], [], []. left. split; [reflexivity|]. constructor; auto. cbn. rewrite OI. discriminate.
    - eexists _, _, true, _, _, _. split; [constructor; cbn; eauto; rewrite OI; discriminate|]. split; [reflexivity|discriminate].
  Qed.
  Theorem plain_document rs : Forall record_of_file rs -> Forall (fun d => header d = false) rs ->
    conclude T (rs, None) = written (rows opt rad rs).
  Proof.
    intros FR FH. unfold conclude. destruct init_filled as (c & -> & F & _).
    pose proof (data_steps T opt rad HO HR rs c _ _ _ [] [] FR FH F) as X. rewrite app_nil_r in X.
    destruct (rows opt rad rs) as [xs|]; cbn [written].
    - destruct X as (s' & E & F'). rewrite E. cbn [feed]. destruct (close_filled _ _ _ _ _ F') as (t & st & C & ->).
      f_equal. cbn in C. injection C as <-. reflexivity.
    - destruct X as (s' & e & ->). reflexivity.
  Qed.
  Theorem block_document gs : gs <> [] -> Forall regular gs -> Forall record_of_file (ungroup gs) ->
    Forall (fun g => rows opt rad (snd g) <> Some []) (removelast gs) ->
    conclude T (ungroup gs, None) = written (blocks opt rad gs).
  Proof.
    intros N FR FF FE. unfold conclude. destruct init_filled as (c & -> & _ & ST).
    pose proof (groups_run gs c root [] [] N FR FF FE ST) as X. rewrite app_nil_r in X.
    destruct (blocks opt rad gs) as [bs|]; cbn [written].
    - destruct X as (s' & ini & hs & xs & E & -> & _ & F). rewrite E. cbn [feed]. destruct (close_filled _ _ _ _ _ F) as (t & st & C & ->).
      f_equal. cbn in C. injection C as <-. reflexivity.
    - destruct X as (s' & e & ->). reflexivity.
  Qed.
  (** headers at the end of the file *)
  Theorem trailing_headers gs hs : gs <> [] -> Forall regular gs -> Forall record_of_file (ungroup gs) ->
    Forall (fun g => rows opt rad (snd g) <> Some []) gs ->
    hs <> [] -> Forall record_of_file hs -> Forall (fun h => header h = true) hs ->
    conclude T (ungroup gs ++ hs, None) =
    written (match blocks opt rad gs with
             | Some bs => Some (bs ++ [Elem $"obsBlock" [] [] [Elem $"obsContext" [] [] []]])
             | None => None end).
  Proof.
    intros N FR FF FE NH RH HH. unfold conclude. destruct init_filled as (c & -> & _ & ST).
    assert (Forall (fun g => rows opt rad (snd g) <> Some []) (removelast gs)) as FE'.
    { apply Forall_forall. intros g I. rewrite Forall_forall in FE. apply FE. rewrite (app_removelast_last ([], []) N). apply in_or_app. auto. }
    pose proof (groups_run gs c root [] hs N FR FF FE' ST) as X.
    destruct (blocks opt rad gs) as [bs|]; cbn [written].
    - destruct X as (s' & ini & hs' & xs & E & -> & RX & F). rewrite E.
      assert (xs <> []) as NX.
      { intros ->. rewrite Forall_forall in FE. apply (FE (last gs ([], []))); auto.
        rewrite (app_removelast_last ([], []) N) at 2. apply in_or_app. right. now left. }
      destruct (headers_run hs s' _ _ [] NH RH HH (filled_start _ _ _ _ _ F NX)) as (s2 & co & cx & se & E2 & A2 & _).
      rewrite app_nil_r in E2. rewrite E2. cbn [feed]. destruct (take_tree _ _ (at_R _ _ _ _ _ _ _ _ A2) (at_open _ _ _ _ _ _ _ _ A2)) as (t & C & ->).
      f_equal. cbn in C. injection C as <-. unfold ades. reflexivity.
    - destruct X as (s' & e & ->). reflexivity.
  Qed.
  (** headers after records without headers: the blocks end up inside the last record *)
  Definition add_inside (x : xml) (ks : list xml) : xml := Elem (xtag x) (xattrs x) (xtext x) (xkids x ++ ks).
  Theorem nested_blocks ds gs xs x : Forall record_of_file ds -> Forall (fun d => header d = false) ds -> rows opt rad ds = Some (xs ++ [x]) ->
    gs <> [] -> Forall regular gs -> Forall record_of_file (ungroup gs) ->
    Forall (fun g => rows opt rad (snd g) <> Some []) (removelast gs) ->
    conclude T (ds ++ ungroup gs, None) =
    written (match blocks opt rad gs with Some bs => Some (xs ++ [add_inside x bs]) | None => None end).
  Proof.
    intros FD HD RD N FR FF FE. unfold conclude. destruct init_filled as (c & -> & F & _).
    pose proof (data_steps T opt rad HO HR ds c _ _ _ [] (ungroup gs) FD HD F) as X. rewrite RD in X.
    destruct X as (s1 & E1 & F1). rewrite E1. cbn [app] in F1.
    destruct F1 as (co & cx & se & [(E & _)|(ys & f & E & A)]); [destruct xs; discriminate E|].
    apply app_inj_tail in E as [<- EX].
    assert (start s1 f [push_kids xs root]) as ST.
    { eexists _, _, true, _, _, _. split; [exact A|]. split; [reflexivity|discriminate]. }
    pose proof (groups_run gs s1 f [push_kids xs root] [] N FR FF FE ST) as X. rewrite app_nil_r in X.
    destruct (blocks opt rad gs) as [bs|]; cbn [written].
    - destruct X as (s' & ini & hs & ws & E & -> & _ & F2). rewrite E. cbn [feed]. destruct (close_filled _ _ _ _ _ F2) as (t & st & C & ->).
      f_equal. cbn [close_with] in C. rewrite !push_app in C. injection C as <-. cbn. unfold ades. rewrite EX.
      destruct f as [[[ft fa] fx] fk]. cbn. rewrite <- ?app_assoc. reflexivity.
    - destruct X as (s' & e & ->). reflexivity.
  Qed.
  (** * A block without records breaks the following ones *)
  Lemma pop_root o s f fe fo io co cx se : o = OPop \/ (exists t, o = OAddPopPush t [] []) -> is_at s [f] fe fo io co cx se ->
    stk o s = (s, Some RuntimeError).
  Proof.
    intros O [AR AO _ _ _ _ _ _]. assert (es_pop (c_stack s) = Err RuntimeError) as E.
    { apply (pop_iff _ AO). apply R_length in AR. exact AR. }
    unfold stk. destruct O as [->|(t & ->)]; cbn [run_op].
    - now rewrite E.
    - unfold es_addPopPush. rewrite E. reflexivity.
  Qed.
  Lemma andthen_err a b s s' e : a s = (s', Some e) -> andthen a b s = (s', Some e).
  Proof. intros E. unfold andthen. now rewrite E. Qed.
  Lemma header_error k v s s' e : c_inObsBlock s = false -> c_firstObsBlock s = false ->
    stks [OPop; OPop; OAddPopPush $"obsBlock" [] []] s = (s', Some e) -> convertit T (hitem k v) s = (s', Some e).
  Proof.
    intros I F E. rewrite convert_hitem. unfold convert_header. apply andthen_err. rewrite I, F. apply andthen_err. exact E.
  Qed.
  Lemma header_at_root k v s f fe co cx se : is_at s [f] fe false false co cx se -> convertit T (hitem k v) s = (s, Some RuntimeError).
  Proof.
    intros A. apply header_error; [now destruct A..|]. cbn [stks]. apply andthen_err. exact (pop_root OPop s f _ _ _ _ _ _ (or_introl eq_refl) A).
  Qed.
  Lemma headers_at_root hs rs s f fe co cx se : Forall record_of_file hs -> Forall (fun h => header h = true) hs ->
    is_at s [f] fe false false co cx se -> feed (convertit T) (hs ++ rs) s = feed (convertit T) rs s.
  Proof.
    intros FR FH A. induction hs as [|h hs IH]; [reflexivity|]. cbn [app feed].
    destruct (header_of h (Forall_inv FR) (Forall_inv FH)) as (k & v & ->). fold (hitem k v). rewrite (header_at_root _ _ _ _ _ _ _ _ A).
    apply IH; [exact (Forall_inv_tail FR)|exact (Forall_inv_tail FH)].
  Qed.
  Lemma anything_at_root d s f co cx se : record_of_file d -> is_at s [f] false false false co cx se ->
    convertit T d s = (s, None) \/ convertit T d s = (s, Some RuntimeError).
  Proof.
    intros RF A. destruct (header d) eqn:H.
    { destruct (header_of d RF H) as (k & v & ->). right. eapply header_at_root; eauto. }
    assert (forall ty, open_record ty s = (s, Some RuntimeError)) as OPN.
    { intros ty. unfold open_record. rewrite (at_fe _ _ _ _ _ _ _ _ A). eapply pop_root; eauto. }
    assert (forall r : cm, (andthen flush_context r) s = r s) as FL.
    { intros r. unfold andthen, flush_context. now rewrite (at_io _ _ _ _ _ _ _ _ A). }
    assert (convert_optical T d s = (s, Some RuntimeError)) as CO by (unfold convert_optical, andthen; now rewrite OPN).
    assert (convert_radar T d s = (s, Some RuntimeError)) as CR by (unfold convert_radar, andthen; now rewrite OPN).
    assert (exists code, iget $"code" d = Ok code /\ code_table code <> Some Header /\
      (code_table code = Some Rover -> exists p, iget $"pos3" d = Ok p)) as (code & C & NHd & RV).
    { destruct RF as [(k & v & ->)|[R|((c & C & I) & _ & _ & _ & _ & _ & _ & _ & P7 & _)]]; [discriminate H| |].
      - exists $"R". split; [|split; discriminate]. unfold is_kind, text_of in R. unfold iget. apply streqb_eq in R.
        destruct (dget $"code" d) as [[v|]|]; try discriminate R. now rewrite R.
      - exists [c]. rewrite (iget_some _ _ _ C). split; [reflexivity|]. split.
        + destruct I as [<-|[<-|[<-|[<-|[<-|[<-|[<-|[<-|[<-|[<-|[<-|[<-|[<-|[<-|[<-|[<-|[<-|[<-|[]]]]]]]]]]]]]]]]]]]; vm_compute; discriminate.
        + intros V. assert (is_kind "V" d = true) as KV.
          { unfold is_kind. rewrite (text_some _ _ _ C).
            destruct I as [<-|[<-|[<-|[<-|[<-|[<-|[<-|[<-|[<-|[<-|[<-|[<-|[<-|[<-|[<-|[<-|[<-|[<-|[]]]]]]]]]]]]]]]]]]];
              vm_compute in V; try discriminate V; reflexivity. }
          destruct (P7 KV) as (p & Pp). exists p. now apply iget_some. }
    unfold convertit. rewrite C. cbv zeta.
    destruct (code_table code) as [[]|] eqn:CT; try congruence; rewrite FL; auto.
    destruct (RV eq_refl) as (p & ->). destruct (blank p); auto.
  Qed.
  Lemma feed_at_root rs s f co cx se : Forall record_of_file rs -> is_at s [f] false false false co cx se ->
    feed (convertit T) rs s = (s, None).
  Proof.
    intros FR A. induction rs as [|d rs IH]; [reflexivity|]. cbn [feed].
    destruct (anything_at_root d s f co cx se (Forall_inv FR) A) as [-> | ->]; apply IH; exact (Forall_inv_tail FR).
  Qed.
  Theorem lost_after_empty_block gs hs1 ds1 h2 more : gs <> [] -> Forall regular gs -> Forall record_of_file (ungroup gs) ->
    Forall (fun g => rows opt rad (snd g) <> Some []) (removelast gs) -> rows opt rad (snd (last gs ([], []))) = Some [] ->
    hs1 <> [] -> Forall record_of_file hs1 -> Forall (fun h => header h = true) hs1 ->
    Forall record_of_file ds1 -> Forall (fun h => header h = false) ds1 -> rows opt rad ds1 <> Some [] ->
    header h2 = true -> Forall record_of_file (h2 :: more) ->
    conclude T (ungroup gs ++ hs1 ++ ds1 ++ h2 :: more, None) =
    written (match blocks opt rad gs, rows opt rad ds1 with Some bs, Some xs => Some (bs ++ xs) | _, _ => None end).
  Proof.
    intros N FR FF FE LE N1 R1 H1 R2 H2 NE HH RM. unfold conclude. destruct init_filled as (c & -> & _ & ST).
    pose proof (groups_run gs c root [] (hs1 ++ ds1 ++ h2 :: more) N FR FF FE ST) as X.
    destruct (blocks opt rad gs) as [bs|]; cbn [written]; [|now destruct X as (s' & e & ->)].
    destruct X as (s1 & ini & hs & xs & E & -> & RX & F). rewrite E. rewrite LE in RX. injection RX as <-.
    destruct F as (co & cx & se & [(_ & A)|(ys & f & E' & _)]); [|destruct ys; discriminate E'].
    (* the first header of hs1 pops back to the root *)
    assert (exists s2, feed (convertit T) (hs1 ++ ds1 ++ h2 :: more) s1 = feed (convertit T) (ds1 ++ h2 :: more) s2 /\
      is_at s2 [push_kids (ini ++ [block_xml (context hs) []]) root] true false false co cx se) as (s2 & E2 & A2).
    { destruct hs1 as [|h hs1]; [congruence|]. destruct (header_of h (Forall_inv R1) (Forall_inv H1)) as (k & v & ->). fold (hitem k v).
      destruct (stks_ok [OPop; OPop] _ _ [push_kids (ini ++ [block_xml (context hs) []]) root] _ _ _ _ _ _ A) as (s2 & E2 & A2); [|reflexivity|].
      { cbn. reflexivity. }
      exists s2. split; [|exact A2].
      assert (convertit T (hitem k v) s1 = (s2, Some RuntimeError)) as C1.
      { apply header_error; [now destruct A..|].
        cbn [stks] in E2 |- *. unfold andthen, pass in *.
        destruct (stk OPop s1) as [sa [ea|]]; [discriminate E2|]. destruct (stk OPop sa) as [sb [eb|]]; [discriminate E2|].
        injection E2 as ->. rewrite (pop_root (OAddPopPush $"obsBlock" [] []) s2 _ _ _ _ _ _ _ (or_intror (ex_intro _ _ eq_refl)) A2). reflexivity. }
      cbn [app feed]. rewrite C1. eapply headers_at_root; eauto; [exact (Forall_inv_tail R1)|exact (Forall_inv_tail H1)]. }
    rewrite E2.
    assert (filled s2 (push_kids (ini ++ [block_xml (context hs) []]) root) [] false []) as F2 by (exists co, cx, se; left; auto).
    pose proof (data_steps T opt rad HO HR ds1 s2 _ _ _ [] (h2 :: more) R2 H2 F2) as Y.
    destruct (rows opt rad ds1) as [xs|]; cbn [written]; [|now destruct Y as (s' & e & ->)].
    destruct Y as (s3 & E3 & F3). rewrite E3. cbn [app] in F3.
    destruct F3 as (co3 & cx3 & se3 & [(-> & _)|(ys & f & -> & A3)]); [congruence|].
    destruct (header_of h2 (Forall_inv RM) HH) as (k & v & ->). fold (hitem k v) in *.
    destruct (stk_ok OPop _ _ [push_kids (ys ++ [fclose f]) (push_kids (ini ++ [block_xml (context hs) []]) root)] _ _ _ _ _ _ A3) as (s4 & E4 & A4); [|reflexivity|].
    { cbn. now rewrite <- ?app_assoc. }
    assert (convertit T (hitem k v) s3 = (s4, Some RuntimeError)) as C3.
    { apply header_error; [now destruct A3..|].
      cbn [stks]. unfold andthen. rewrite E4. now rewrite (pop_root OPop s4 _ _ _ _ _ _ _ (or_introl eq_refl) A4). }
    cbn [feed]. rewrite C3. rewrite (feed_at_root more s4 _ _ _ _ (Forall_inv_tail RM) A4).
    destruct (take_tree _ _ (at_R _ _ _ _ _ _ _ _ A4) (at_open _ _ _ _ _ _ _ _ A4)) as (t & C & ->).
    f_equal. cbn [close_with] in C. rewrite !push_app in C. injection C as <-. cbn. unfold ades. f_equal. rewrite <- ?app_assoc. now rewrite ?app_nil_r.
  Qed.
End Blocks.
