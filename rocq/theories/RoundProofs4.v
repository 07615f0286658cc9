(** XML - PSV - XML: whole documents. *)
From Verif Require Import PyStrProofs XmlSpec XmlProofs PsvToXml PsvSpec PsvSpec2 PsvLines TablesProofs JustSpec JustProofs
  XmlProofs2 PsvProofs1 PsvProofs3 PsvProofs4 PsvProofs5 PsvProofs6 XmlToPsv RoundSpec RoundProofs1 RoundProofs2 RoundProofs3.

(** * context *)
Definition item_of (i : xml) : item :=
  {| i_name := xtag i; i_text := strip (xtext i); i_subs := map (fun s => (xtag s, strip (xtext s))) (xkids i) |}.
Lemma item_normal i : item_tree (item_of i) = normal_item i.
Proof. unfold item_tree, normal_item, item_of. cbn. now rewrite map_map. Qed.
Definition plain_raw (l : str) : Prop := nonblank l = true /\ one_line l.

Lemma context_one_line m e : one_line m -> valid_name (xtag e) = true -> one_line (strip (xtext e)) -> one_line (context_line m e).
Proof.
  intros M V O. unfold context_line, getElementTagText, regularizeWhiteSpace.
  split; intros I; apply rstrip_In in I; repeat (apply in_app_or in I as [I|I]); try (now apply M in I); try (now apply O in I);
    try (now apply (name_chars _ _ V) in I); repeat (destruct I as [I|I]; try discriminate I); auto.
Qed.
Lemma context_ok T ctx : Forall writable_item ctx ->
  let raws := flat_map (fun i => context_line $"#" i :: map (context_line $"!") (xkids i)) ctx in
  Forall2 (reads_as T) raws (ctx_lines (map item_of ctx)) /\ Forall plain_raw raws.
Proof.
  intros F. cbv zeta. induction F as [|i ctx (V & O & S) F [IH1 IH2]]; [split; constructor|].
  cbn [flat_map map ctx_lines]. unfold ctx_lines in *. cbn [flat_map].
  assert (P1 : one_line $"#") by (split; intros [H|[]]; discriminate H).
  assert (P2 : one_line $"!") by (split; intros [H|[]]; discriminate H).
  split.
  - apply Forall2_app; auto. unfold item_lines, item_of. cbn [i_name i_text i_subs]. constructor.
    + apply r_top. apply context_reads; auto.
    + clear -S. induction S as [|s ss [V O] S IH]; [constructor|]. cbn [map]. constructor; auto. apply r_sub. apply context_reads; auto.
  - apply Forall_app. split; auto. constructor.
    + split; [|apply context_one_line; auto]. eapply (ctx_nonblank "#"%char); [reflexivity|]. apply context_reads; auto.
    + clear -S P2. induction S as [|s ss [V O] S IH]; [constructor|]. cbn [map]. constructor; auto.
      split; [|apply context_one_line; auto]. eapply (ctx_nonblank "!"%char); [reflexivity|]. apply context_reads; auto.
Qed.

(** * records *)
Lemma keys_snoc rs ks r : keys_of rs ks -> keys_of (rs ++ [r]) (rev (map fst (subDict_of r)) ++ ks).
Proof.
  intros K k. rewrite in_app_iff, <- in_rev, sub_keys, (K k). split.
  - intros [V|(r' & I & V)]; [exists r; split; auto; apply in_or_app; right; now left|exists r'; split; auto; apply in_or_app; now left].
  - intros (r' & I & V). apply in_app_or in I as [I|[<-|[]]]; eauto.
Qed.
Lemma fields_ok T ty al r : dget ty (allowed T) = Some al -> writable_record T ty r ->
  forall k v, In (k, v) (subDict_of r) -> In k al /\ (free_column T ty k = false -> (points v <= 1)%nat).
Proof.
  intros Ea (_ & W & _) k v I. apply sub_In in I as [-> V]. destruct (W k V) as [I' (_ & _ & _ & P)].
  unfold order_of in I'. rewrite Ea in I'. auto.
Qed.
Definition open_section (T : tables) (ty : str) (rs : list xml) (g : xglob) : Prop :=
  printable T ty /\ rs <> [] /\ Forall (writable_record T ty) rs /\ x_data g = map subDict_of rs /\
  exists fs al ks, dget ty (psvFormat T) = Some fs /\ dget ty (allowed T) = Some al /\ good T ty al fs g ks /\ keys_of rs ks.

Lemma data_first T ty r g : printable T ty -> writable_record T ty r ->
  exists g', processDataElement T true r g = Ok g' /\ open_section T ty [r] g'.
Proof.
  intros P W. pose proof P as (_ & _ & _ & _ & _ & fs & al & rq & Ef & Ea & Er & Ff & Fa). pose proof W as (<- & _).
  unfold processDataElement. destruct (header_started T (xtag r) fs al g Ef Ea Ff) as (g1 & E1 & G & D). rewrite E1. cbn [rbind].
  destruct (see_fields_ok T _ al fs Ef (subDict_of r) g1 [] G (fields_ok T _ al r Ea W)) as (g2 & E2 & Gd2 & D2). rewrite E2. cbn [rbind].
  eexists. split; [reflexivity|]. split; auto. split; [discriminate|]. split; [constructor; auto|]. split; [cbn; now rewrite D2, D|].
  exists fs, al. eexists. split; auto. split; auto. split.
  - destruct Gd2. constructor; cbn [x_info x_dict x_psv]; eauto.
  - apply (keys_snoc [] [] r). intros k. split; [intros []|intros (? & [] & _)].
Qed.
Lemma data_next T ty r rs g : open_section T ty rs g -> writable_record T ty r ->
  exists g', processDataElement T false r g = Ok g' /\ open_section T ty (rs ++ [r]) g'.
Proof.
  intros (P & N & F & D & fs & al & ks & Ef & Ea & G & K) W. unfold processDataElement. cbn [rbind].
  destruct (see_fields_ok T _ al fs Ef (subDict_of r) g ks G (fields_ok T _ al r Ea W)) as (g2 & E2 & Gd2 & D2). rewrite E2. cbn [rbind].
  eexists. split; [reflexivity|]. split; auto. split; [destruct rs; discriminate|]. split; [apply Forall_app; auto|].
  split; [cbn; now rewrite D2, D, map_app|].
  exists fs, al. eexists. split; auto. split; auto. split; [|now apply keys_snoc].
  destruct Gd2. constructor; cbn [x_info x_dict x_psv]; eauto.
Qed.
Lemma block_data_next T ty : forall data rs g, open_section T ty rs g -> Forall (writable_record T ty) data ->
  exists g', block_data T data false ty g = Ok (false, ty, g') /\ open_section T ty (rs ++ data) g'.
Proof.
  induction data as [|r data IH]; intros rs g O F; [exists g; rewrite app_nil_r; auto|]. inversion F as [|? ? W F']; subst.
  cbn [block_data]. pose proof W as (-> & _). rewrite streqb_refl. cbn [rbind].
  destruct (data_next T ty r rs g O W) as (g1 & E1 & O1). rewrite E1. cbn [rbind].
  destruct (IH _ _ O1 F') as (g2 & E2 & O2). exists g2. rewrite E2. split; auto. now rewrite <- app_assoc in O2.
Qed.
Lemma block_data_first T ty data g : printable T ty -> data <> [] -> Forall (writable_record T ty) data ->
  exists g', block_data T data true [] g = Ok (false, ty, g') /\ open_section T ty data g'.
Proof.
  intros P N F. destruct data as [|r data]; [congruence|]. inversion F as [|? ? W F']; subst.
  cbn [block_data]. pose proof P as (_ & _ & (ts & Et & It) & _). rewrite Et. pose proof W as (-> & _).
  replace (smem ty ts) with true by (symmetry; now apply smem_In). cbn [rbind].
  destruct (data_first T ty r g P W) as (g1 & E1 & O1). rewrite E1. cbn [rbind].
  destruct (block_data_next T ty data [r] g1 O1 F') as (g2 & E2 & O2). exists g2. rewrite E2. auto.
Qed.

(** * the children of the root *)
Inductive pend := PNone | PSome (its : list item) (ty : str) (rs : list xml).
Definition pend_its (p : pend) : list item := match p with PNone => [] | PSome its _ _ => its end.
Definition pend_trees (T : tables) (p : pend) : list xml :=
  match p with
  | PNone => []
  | PSome [] _ rs => map (normal_record T) rs
  | PSome its _ rs => [block its [Elem $"obsData" [] [] (map (normal_record T) rs)]]
  end.
Definition St (T : tables) (last : option str) (g : xglob) (p : pend) : Prop :=
  match p with
  | PNone => last = None /\ x_data g = []
  | PSome its ty rs => last = Some (match its with [] => ty | _ => $"obsBlock" end) /\ open_section T ty rs g
  end.

(** printing what is pending *)
Lemma print_pend T last g p : St T last g p ->
  exists ls M secs, printDataDicts g = Ok ls /\ Forall2 (reads_as T) ls M /\ Forall plain_raw ls /\
    ctx_lines (pend_its p) ++ M = flat_map section_lines secs /\ Forall section_ok secs /\
    flat_map (section_trees T) secs = pend_trees T p.
Proof.
  destruct p as [|its ty rs]; intros S.
  - destruct S as [_ D]. exists [], [], []. unfold printDataDicts. rewrite D. repeat split; constructor.
  - destruct S as [_ (P & N & F & D & fs & al & ks & Ef & Ea & G & K)].
    pose proof P as (_ & _ & _ & _ & _ & fs' & al' & rq & Ef' & Ea' & Er & _ & Fa). 
    assert (al' = al) by congruence. subst al'.
    destruct (print_section T ty g ks rs fs al rq P Ef Ea Er Fa G K D N F) as (raws & cols & rows & E & R & NB & OL & Nr & L & RT).
    exists raws, (LHead cols ty :: map LData rows), [{| s_ctx := its; s_cols := cols; s_type := ty; s_rows := rows |}].
    split; auto. split; auto. split.
    { clear -NB OL. rewrite Forall_forall in *. intros l I. split; auto. }
    split; [cbn [flat_map]; now rewrite app_nil_r|]. split; [constructor; [split; auto|constructor]|].
    cbn [flat_map]. rewrite app_nil_r. unfold section_trees, rows_trees, order_of. cbn [s_ctx s_type s_cols s_rows]. rewrite Ea, RT.
    cbn [pend_trees]. destruct its; reflexivity.
Qed.

Lemma ades_ok_tag T ty : printable T ty -> exists ok, dget $"ades" (allowed T) = Some ok /\ smem ty ok = true /\ smem $"obsBlock" ok = true.
Proof. intros (_ & (ts & E & I & J) & _). exists ts. split; auto. split; now apply smem_In. Qed.

Lemma kids_ok T : forall es last g out p, Forall (writable_child T) es -> St T last g p ->
  exists g' out' ls, ades_kids T es last g out = Ok (g', out') /\ printDataDicts g' = Ok ls /\
  exists new M secs, out' ++ ls = out ++ new /\ Forall2 (reads_as T) new M /\ Forall plain_raw new /\
    ctx_lines (pend_its p) ++ M = flat_map section_lines secs /\ Forall section_ok secs /\
    flat_map (section_trees T) secs = pend_trees T p ++ map (normal_child T) es.
Proof.
  induction es as [|e es IH]; intros last g out p F S.
  - destruct (print_pend T last g p S) as (ls & M & secs & E & R & PR & CL & SO & ST).
    exists g, out, ls. split; [reflexivity|]. split; auto. exists ls, M, secs. rewrite app_nil_r. auto 10.
  - inversion F as [|? ? W F']; subst. cbn [ades_kids].
    destruct W as [(ty & P & W)|(a & x & ca & cx & ctx & da & dx & data & ty & -> & Nc & Wc & Nd & P & Wd)].
    + (* a record *)
      destruct (ades_ok_tag T ty P) as (ok & Eok & Sty & _). rewrite Eok. pose proof W as (Et & _). rewrite Et, Sty. cbn [negb].
      pose proof P as (NB & _). rewrite (streqb_neq _ _ NB).
      assert (NC : normal_child T e = normal_record T e).
      { unfold normal_child, is_tag. rewrite Et, (streqb_neq _ _ NB). reflexivity. }
      assert (CASE : (exists rs, p = PSome [] ty rs /\ last = Some ty /\ open_section T ty rs g) \/
                     match last with Some t => streqb ty t | None => false end = false).
      { destruct p as [|its ty' rs]; destruct S as [-> S]; [now right|]. destruct its as [|i its].
        - destruct (list_eq_dec ascii_dec ty' ty) as [->|N]; [left; eauto|]. right. apply streqb_neq. congruence.
        - right. now apply streqb_neq. }
      destruct CASE as [(rs & -> & -> & O)|Q].
      * rewrite streqb_refl. cbn [negb rbind]. destruct (data_next T ty e rs g O W) as (g1 & E1 & O1). rewrite E1. cbn [rbind].
        destruct (IH (Some ty) g1 (out ++ []) (PSome [] ty (rs ++ [e])) F') as (g' & out' & ls & E & EP & new & M & secs & H).
        { split; auto. }
        exists g', out', ls. split; auto. split; auto. exists new, M, secs. rewrite app_nil_r in H.
        destruct H as (H1 & H2 & H3 & H4 & H5 & H6). repeat (split; [assumption|]). rewrite H6. cbn [pend_trees map]. rewrite map_app, NC, <- app_assoc. reflexivity.
      * rewrite Q. cbn [negb]. destruct (print_pend T last g p S) as (ls0 & M0 & secs0 & E0 & R0 & PR0 & CL0 & SO0 & ST0). rewrite E0. cbn [rbind].
        destruct (data_first T ty e g P W) as (g1 & E1 & O1). rewrite E1. cbn [rbind].
        destruct (IH (Some ty) g1 (out ++ ls0) (PSome [] ty [e]) F') as (g' & out' & ls & E & EP & new & M & secs & H1 & H2 & H3 & H4 & H5 & H6).
        { split; auto. }
        exists g', out', ls. split; auto. split; auto. exists (ls0 ++ new), (M0 ++ M), (secs0 ++ secs).
        split; [rewrite H1; now rewrite <- app_assoc|]. split; [now apply Forall2_app|]. split; [now apply Forall_app|].
        split. { rewrite app_assoc, CL0, flat_map_app. f_equal. exact H4. }
        split; [now apply Forall_app|]. rewrite flat_map_app, ST0, H6. cbn [pend_trees map app]. now rewrite NC.
    + (* a block *)
      destruct (ades_ok_tag T ty P) as (ok & Eok & _ & Sob). rewrite Eok. cbn [xtag]. rewrite Sob. cbn [negb]. rewrite streqb_refl.
      destruct (print_pend T last g p S) as (ls0 & M0 & secs0 & E0 & R0 & PR0 & CL0 & SO0 & ST0). rewrite E0. cbn [rbind].
      unfold processObsBlock. cbn [xkids].
      pose proof P as (_ & _ & _ & (bs & Eb & Ib1 & Ib2) & _).
      cbn [block_kids xtag xkids]. rewrite Eb. apply smem_In in Ib1, Ib2. rewrite Ib1, Ib2. cbn [negb].
      rewrite streqb_refl. rewrite (streqb_neq $"obsData" $"obsContext") by discriminate. rewrite streqb_refl.
      destruct (block_data_first T ty data g P Nd Wd) as (g1 & E1 & O1). rewrite E1. cbn [rbind app].
      unfold processObsContext. cbn [xkids].
      destruct (context_ok T ctx Wc) as [Rc Pc]. cbv zeta in Rc, Pc.
      set (craws := flat_map (fun i => context_line $"#" i :: map (context_line $"!") (xkids i)) ctx) in *.
      destruct (IH (Some $"obsBlock") g1 (out ++ ls0 ++ craws) (PSome (map item_of ctx) ty data) F') as (g' & out' & ls & E & EP & new & M & secs & H1 & H2 & H3 & H4 & H5 & H6).
      { split; auto. destruct ctx; [congruence|reflexivity]. }
      exists g', out', ls. split; auto. split; auto. exists (ls0 ++ craws ++ new), (M0 ++ ctx_lines (map item_of ctx) ++ M), (secs0 ++ secs).
      split; [rewrite H1; now rewrite <- !app_assoc|]. split; [repeat apply Forall2_app; auto|]. split; [repeat (apply Forall_app; split); auto|].
      split. { rewrite app_assoc, CL0, flat_map_app. f_equal. exact H4. }
      split; [now apply Forall_app|]. rewrite flat_map_app, ST0, H6. f_equal. cbn [map].
      unfold normal_child at 2. unfold is_tag. cbn [xtag xkids]. rewrite streqb_refl. cbn [pend_trees].
      destruct ctx as [|i ctx]; [congruence|]. cbn [map app]. unfold block. cbn [map]. rewrite map_map, item_normal.
      rewrite (map_ext _ _ item_normal). reflexivity.
Qed.

(** * documents *)
Lemma without_space_no c s : In c (without_space s) -> In c s.
Proof. unfold without_space. intros I. now apply filter_In in I. Qed.
Lemma version_printed v : ~ In "="%char v -> version_line ($"# version=" ++ v) (without_space v).
Proof.
  intros N. exists $"# version", v. split; [reflexivity|]. split.
  - intros I. vm_compute in I. repeat (destruct I as [I|I]; [discriminate I|]). destruct I.
  - split; auto.
Qed.

Lemma normal_named T t : writable T t -> well_named (normal T t).
Proof.
  intros (Et & (v & Ev & Ov & Nv) & WN & F). apply well_named_iff. apply well_named_iff in WN.
  destruct t as [tag at_ tx kids]. cbn [xtag xattrs xkids] in *. subst tag. unfold normal, version_of. cbn [xattrs xkids]. rewrite Ev.
  cbn [xml_valid] in WN. repeat (apply andb_prop in WN as [WN ?]).
  assert (VT : forall s s', (forall c, In c s' -> In c s) -> valid_text s = true -> valid_text s' = true).
  { clear. unfold valid_text. intros s s' H V. rewrite forallb_forall in *. auto. }
  assert (VS : forall s, valid_text s = true -> valid_text (strip s) = true).
  { intros s. apply VT. intros c I. destruct (strip_decomp s) as (a & b & E & _). rewrite E. apply in_or_app. right. apply in_or_app. now left. }
  assert (Vv : valid_text v = true).
  { match goal with H : forallb _ at_ = true |- _ => rewrite forallb_forall in H; rename H into HA end.
    assert (I : In ($"version", v) at_).
    { clear -Ev. induction at_ as [|[k w] l IH]; cbn [dget] in Ev; [discriminate|]. destruct (streqb $"version" k) eqn:E.
      - apply streqb_eq in E. apply some_inj in Ev. subst. now left.
      - right. auto. }
    apply HA in I. cbn in I. now apply andb_prop in I. }
  assert (REC : forall ty r, printable T ty -> writable_record T ty r -> xml_valid r = true -> xml_valid (normal_record T r) = true).
  { intros ty r P W V. pose proof W as (Er & _). pose proof P as (_ & _ & _ & _ & _ & fs & al & rq & _ & Ea & _ & _ & Fa).
    unfold normal_record, order_of. rewrite Er, Ea. destruct r as [rt ra rx rk]. cbn [xml_valid] in *. cbn [xtag] in Er. subst rt.
    repeat (apply andb_prop in V as [V ?]). rewrite V. cbn [andb forallb valid_text].
    apply forallb_forall. intros y Iy. apply in_map_iff in Iy as (k & <- & Ik). apply filter_In in Ik as [Ik _].
    rewrite Forall_forall in Fa. destruct (Fa k Ik) as [Vk _]. unfold leaf. cbn [xml_valid]. rewrite Vk. cbn [andb forallb].
    rewrite !andb_true_r. unfold rec_value. cbn [xkids]. destruct (find _ (rev rk)) as [c|] eqn:Fi; [|reflexivity].
    apply find_some in Fi as [Ic _]. apply in_rev in Ic. apply VS.
    match goal with H : forallb xml_valid rk = true |- _ => rewrite forallb_forall in H; apply H in Ic end.
    destruct c as [ct cat cxt ck]. cbn [xml_valid] in Ic. repeat (apply andb_prop in Ic as [Ic ?]). assumption. }
  cbn [xml_valid]. cbn [forallb fst snd valid_name]. 
  replace (valid_name $"ades") with true by reflexivity. replace (valid_name $"version") with true by reflexivity. cbn [andb].
  rewrite (VT v _ (fun c => without_space_no c v) Vv). cbn [andb valid_text forallb].
  match goal with H : forallb xml_valid kids = true |- _ => rename H into HK end.
  apply forallb_forall. intros y Iy. apply in_map_iff in Iy as (c & <- & Ic).
  rewrite Forall_forall in F. rewrite forallb_forall in HK. specialize (HK c Ic).
  destruct (F c Ic) as [(ty & P & W)|(a & x & ca & cx & ctx & da & dx & data & ty & -> & Nc & Wc & Nd & P & Wd)].
  - unfold normal_child, is_tag. pose proof W as (Er & _). pose proof P as (NB & _). rewrite Er, (streqb_neq _ _ NB). eapply REC; eauto.
  - unfold normal_child, is_tag. cbn [xtag xkids]. rewrite streqb_refl. cbn [xml_valid].
    cbn [xml_valid forallb] in HK. 
    replace (valid_name $"obsBlock") with true by reflexivity. replace (valid_name $"obsContext") with true by reflexivity.
    replace (valid_name $"obsData") with true by reflexivity. cbn [andb forallb valid_text].
    assert (HC : forallb xml_valid ctx = true /\ forallb xml_valid data = true).
    { clear -HK. repeat (apply andb_prop in HK as [HK ?]). rename H into K1.
      apply andb_prop in K1 as [K1 K2]. apply andb_prop in K2 as [K2 _].
      split; [now apply andb_prop in K1|now apply andb_prop in K2]. }
    destruct HC as [HC HD]. rewrite andb_true_r. apply andb_true_intro. split.
    + apply forallb_forall. intros y Iy. apply in_map_iff in Iy as (i & <- & Ii). rewrite forallb_forall in HC. specialize (HC i Ii).
      destruct i as [it ia ix ik]. unfold normal_item. cbn [xml_valid xtag xtext xkids] in *. repeat (apply andb_prop in HC as [HC ?]).
      rewrite HC, VS by auto. cbn [andb forallb]. apply forallb_forall. intros y Iy. apply in_map_iff in Iy as (s & <- & Is).
      match goal with H : forallb xml_valid ik = true |- _ => rewrite forallb_forall in H; apply H in Is end.
      destruct s as [st sa sx sk]. unfold leaf. cbn [xml_valid xtag xtext] in *. repeat (apply andb_prop in Is as [Is ?]). rewrite Is, VS by auto. reflexivity.
    + apply forallb_forall. intros y Iy. apply in_map_iff in Iy as (r & <- & Ir). rewrite forallb_forall in HD. rewrite Forall_forall in Wd. eapply REC; eauto.
Qed.

Lemma file_lines_app' l s : ~ In nl l -> file_lines (l ++ nl :: s) = (l ++ [nl]) :: file_lines s.
Proof.
  induction l as [|c l IH]; intros N; cbn [app file_lines].
  - reflexivity.
  - replace (ceqb c nl) with false by (symmetry; apply ceqb_neq; intros ->; apply N; now left).
    rewrite IH by (intros I; apply N; now right). reflexivity.
Qed.
Lemma lines_of_lines ls : Forall one_line ls -> lines_of (concat (map (fun l => l ++ [nl]) ls)) = ls.
Proof.
  intros F. unfold lines_of. rewrite univ_no_cr.
  - induction F as [|l ls [N _] F IH]; [reflexivity|]. cbn [map concat]. rewrite <- app_assoc. cbn [app].
    rewrite file_lines_app' by auto. cbn [map]. rewrite IH. f_equal. apply removelast_last.
  - unfold no_cr. intros I. apply in_concat in I as (x & I & J). apply in_map_iff in I as (l & <- & I).
    rewrite Forall_forall in F. destruct (F l I) as [_ N]. apply in_app_or in J as [J|[J|[]]]; auto. discriminate J.
Qed.

Theorem round_trip T t : tables_ok T -> writable T t ->
  exists content, xmltopsv T t = Ok content /\ psv_tree T content = Some (normal T t).
Proof.
  intros HT W. pose proof (normal_named T t W) as NN. destruct W as (Et & (v & Ev & Ov & Nv) & WN & F).
  unfold xmltopsv, xmltopsv_lines. rewrite Et, streqb_refl. cbn [negb]. rewrite Ev.
  destruct (kids_ok T (xkids t) None xg_init [$"# version=" ++ v] PNone F) as (g' & out' & ls & E & EP & new & M & secs & H1 & H2 & H3 & H4 & H5 & H6).
  { split; reflexivity. }
  rewrite E. cbn [rbind]. rewrite EP. cbn [rbind]. rewrite H1. eexists. split; [reflexivity|].
  apply psv_correct; auto. rewrite lines_of_lines.
  - exists [], ($"# version=" ++ v), new, (without_space v), {| d_secs := secs; d_tail := TNone |}.
    split; [reflexivity|]. split; [constructor|]. split; [now apply version_printed|]. split.
    { rewrite filter_all. 2: { eapply Forall_impl; [|exact H3]. now intros l []. }
      unfold doc_lines. cbn [d_secs d_tail tail_lines]. rewrite app_nil_r, <- H4. exact H2. }
    split; [split; [exact H5|discriminate]|]. 
    assert (DT : normal T t = doc_tree T (without_space v) {| d_secs := secs; d_tail := TNone |}).
    { unfold normal, doc_tree, version_of. rewrite Ev. cbn [d_secs d_tail tail_trees]. rewrite app_nil_r, H6. reflexivity. }
    rewrite <- DT. auto.
  - cbn [app]. constructor; [|eapply Forall_impl; [|exact H3]; now intros l []].
    destruct Ov as [O1 O2]. split; intros I; apply in_app_or in I as [I|I]; auto; vm_compute in I; repeat (destruct I as [I|I]; [discriminate I|]); destruct I.
Qed.
