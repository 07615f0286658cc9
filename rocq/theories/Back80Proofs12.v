(** Lemmas about Back80Spec, part 12: headers and blocks. *)
From Verif Require Import PyStrProofs JustSpec JustProofs AdesMasterTables FmtRe.
From Verif Require Import XmlToMpc80 Mpc80 Mpc80Spec Line80Spec PackSpec DocSpec DocProofs2 DocProofs6 Mpc80Proofs1 Mpc80Proofs4 Mpc80Proofs11 Mpc80Proofs12 Mpc80Proofs13 PropsDoc.
From Verif Require Import Back80Spec Back80Proofs1 Back80Proofs2 Back80Proofs3 Back80Proofs4 Back80Proofs5 Back80Proofs6 Back80Proofs7 Back80Proofs8 Back80Proofs9 Back80Proofs10 Back80Proofs11.
From Verif Require Import FileLines Mpc80 Mpc80Spec Back80Spec.
Local Open Scope nat_scope.

(** * The lines of an obsContext *)
Definition hrec (kv : str * str) : item := texts [($"headerKeyword", fst kv); ($"headerValue", snd kv); ($"code", $"0")].
Definition coms_of (coms : list str) : list (str * str) := map (fun c => ($"COM", c)) coms.
Lemma tidy_strip v : tidy v -> regularizeWhiteSpace v = v. Proof. intros H. exact H. Qed.
Lemma names_back ns : ns <> [] -> Forall (fun n => tidy n /\ ~ In ","%char n) ns -> map strip (splitc "," (joinc $", " ns)) = ns.
Proof.
  assert (forall n rest, ~ In ","%char n -> splitc "," (n ++ ","%char :: rest) = n :: splitc "," rest) as K.
  { induction n as [|c n IH]; intros rest N; cbn [app splitc]; [reflexivity|].
    replace (ceqb c ",") with false by (symmetry; apply ceqb_neq; intros ->; apply N; now left). rewrite IH; [reflexivity|]. intros I. apply N. now right. }
  assert (forall n, ~ In ","%char n -> splitc "," n = [n]) as K1.
  { induction n as [|c n IH]; intros N; cbn [splitc]; [reflexivity|].
    replace (ceqb c ",") with false by (symmetry; apply ceqb_neq; intros ->; apply N; now left). rewrite IH; [reflexivity|]. intros I. apply N. now right. }
  assert (forall ns n, ~ In ","%char n -> Forall (fun n => tidy n /\ ~ In ","%char n) ns -> map strip (splitc "," (joinc $", " (n :: ns))) = strip n :: ns) as G.
  { clear ns. induction ns as [|m ns IH]; intros n N F.
    - change (joinc $", " [n]) with n. rewrite K1 by exact N. reflexivity.
    - pose proof (Forall_inv F) as [T M]. apply Forall_inv_tail in F.
      change (joinc $", " (n :: m :: ns)) with (n ++ ","%char :: ($" " ++ joinc $", " (m :: ns))).
      rewrite K by exact N. cbn [map]. f_equal.
      assert ($" " ++ joinc $", " (m :: ns) = joinc $", " (($" " ++ m) :: ns)) as -> by (destruct ns; reflexivity).
      rewrite (IH ($" " ++ m)); [|intros [Q|Q]; [discriminate Q|contradiction]|exact F]. f_equal. apply (strip_left 1). exact T. }
  destruct ns as [|n ns]; [congruence|]. intros _ F. pose proof (Forall_inv F) as [T M]. apply Forall_inv_tail in F. rewrite G by assumption. now rewrite T.
Qed.
Lemma kid_names v : kid_texts [$"name"] (Elem $"x" [] [] (names v)) = map strip (splitc "," v).
Proof. unfold kid_texts, names. cbn [xkids]. induction (splitc "," v) as [|n ns IH]; [reflexivity|]. cbn [map flat_map]. rewrite IH. reflexivity. Qed.
Lemma kid_names' t v : kid_texts [$"name"] (Elem t [] [] (names v)) = map strip (splitc "," v).
Proof. exact (kid_names v). Qed.
Lemma no_comma v : ~ In ","%char v -> until_comma v = v /\ after_comma v = None.
Proof.
  induction v as [|c v IH]; intros N; [auto|]. cbn. replace (ceqb c ",") with false by (symmetry; apply ceqb_neq; intros ->; apply N; now left).
  destruct IH as [-> ->]; auto. intros I. apply N. now right.
Qed.
Lemma one_comma v w : ~ In ","%char v -> until_comma (v ++ ","%char :: w) = v /\ after_comma (v ++ ","%char :: w) = Some w.
Proof.
  induction v as [|c v IH]; intros N; [auto|]. cbn. replace (ceqb c ",") with false by (symmetry; apply ceqb_neq; intros ->; apply N; now left).
  destruct IH as [-> ->]; auto. intros I. apply N. now right.
Qed.
Lemma heading_back kv : value_kept (fst kv) (snd kv) -> flat_map context_entry80 (heading (hrec kv)) = [header_text kv].
Proof.
  destruct kv as [k v]. cbn [fst snd]. unfold header_text. cbn [fst snd]. intros H.
  assert (keyword (hrec (k, v)) = k /\ value (hrec (k, v)) = v) as [E1 E2] by (split; reflexivity).
  unfold heading. cbv zeta. rewrite E1, E2. clear E1 E2. destruct H as [v T|v T|v T N|v w T N T'|v (ns & NE & F & ->)|v (ns & NE & F & ->)].
  - unfold called. change (streqb $"COD" $"COD") with true. cbv iota. cbn [flat_map app].
    change (context_entry80 _) with [$"COD " ++ strip v]. now rewrite T.
  - change (called $"TEL" "COD") with false. change (called $"TEL" "CON") with false. change (called $"TEL" "OBS") with false. change (called $"TEL" "MEA") with false. change (called $"TEL" "TEL") with true. cbv iota.
    cbn [flat_map app]. change (context_entry80 _) with [$"TEL " ++ strip v]. now rewrite T.
  - change (called $"CON" "COD") with false. change (called $"CON" "CON") with true. cbv iota. destruct (no_comma v N) as [-> ->]. cbn [flat_map app].
    change (context_entry80 _) with [$"CON " ++ strip v]. now rewrite T.
  - change (called $"CON" "COD") with false. change (called $"CON" "CON") with true. cbv iota.
    change (v ++ $", " ++ w) with (v ++ ","%char :: ($" " ++ w)). destruct (one_comma v ($" " ++ w) N) as [-> ->]. cbn [flat_map app].
    change (context_entry80 _) with [$"CON " ++ strip v ++ $", " ++ strip ($" " ++ w)].
    assert (strip ($" " ++ w) = w) as -> by (apply (strip_left 1); exact T'). now rewrite T.
  - change (called $"OBS" "COD") with false. change (called $"OBS" "CON") with false. change (called $"OBS" "OBS") with true. cbv iota. cbn [flat_map app].
    change (context_entry80 _) with [$"OBS " ++ joinc $", " (kid_texts [$"name"] (Elem $"observers" [] [] (names (joinc $", " ns))))]. rewrite kid_names', (names_back ns NE F). reflexivity.
  - change (called $"MEA" "COD") with false. change (called $"MEA" "CON") with false. change (called $"MEA" "OBS") with false. change (called $"MEA" "MEA") with true. cbv iota. cbn [flat_map app].
    change (context_entry80 _) with [$"MEA " ++ joinc $", " (kid_texts [$"name"] (Elem $"measurers" [] [] (names (joinc $", " ns))))]. rewrite kid_names', (names_back ns NE F). reflexivity.
Qed.
Lemma value_keyword k v : value_kept k v -> In k keywords /\ streqb k $"COM" = false.
Proof. destruct 1; (split; [vm_compute; tauto|reflexivity]). Qed.
Lemma first_of_each_in h : forall hs, In h (first_of_each hs) -> In h hs.
Proof.
  induction hs as [|g hs IH]; cbn [first_of_each]; intros I; [exact I|]. destruct I as [->|I]; [now left|]. right. apply IH. apply filter_In in I as [I _]. exact I.
Qed.
Lemma filter_all {A} (f : A -> bool) l : (forall x, In x l -> f x = true) -> filter f l = l.
Proof. induction l as [|x l IH]; intros H; cbn [filter]; [reflexivity|]. rewrite (H x) by now left. rewrite IH; [reflexivity|]. intros y I. apply H. now right. Qed.
Lemma headings_back hs coms : NoDup (map fst hs) -> Forall (fun kv => value_kept (fst kv) (snd kv)) hs ->
  flat_map context_entry80 (flat_map heading (first_of_each (map hrec (hs ++ coms_of coms)))) = map header_text hs.
Proof.
  intros N F. induction hs as [|kv hs IH].
  - cbn [app map]. assert (forall h, In h (first_of_each (map hrec (coms_of coms))) -> heading h = []) as K.
    { intros h I. apply first_of_each_in, in_map_iff in I as (kv & <- & I). unfold coms_of in I. apply in_map_iff in I as (c & <- & _). reflexivity. }
    induction (first_of_each _) as [|h l IH]; [reflexivity|]. cbn [flat_map]. rewrite (K h) by now left. cbn [app]. apply IH. intros g I. apply K. now right.
  - apply NoDup_cons_iff in N as [N1 N2]. pose proof (Forall_inv F) as V. apply Forall_inv_tail in F. cbn [app map first_of_each]. 
    rewrite filter_all.
    + cbn [flat_map]. rewrite flat_map_app, (heading_back kv V), IH by assumption. reflexivity.
    + intros h I. apply first_of_each_in, in_map_iff in I as (gv & <- & I). change (keyword (hrec gv)) with (fst gv). change (keyword (hrec kv)) with (fst kv).
      apply negb_true_iff. apply Bool.not_true_is_false. intros Q. apply streqb_eq in Q. apply in_app_or in I as [I|I].
      * apply N1. rewrite <- Q. apply in_map_iff. exists gv. auto.
      * unfold coms_of in I. apply in_map_iff in I as (c & <- & _). cbn [fst] in Q. destruct (value_keyword _ _ V) as [_ V2]. rewrite <- Q in V2. discriminate V2.
Qed.
Lemma comments_back hs coms : Forall (fun kv => value_kept (fst kv) (snd kv)) hs -> Forall tidy coms ->
  flat_map context_entry80 (comments (map hrec (hs ++ coms_of coms))) = map header_text (coms_of coms).
Proof.
  intros F T. unfold comments.
  assert (filter (fun h => streqb (keyword h) $"COM") (map hrec (hs ++ coms_of coms)) = map hrec (coms_of coms)) as ->.
  { rewrite map_app, filter_app. rewrite (filter_all _ (map hrec (coms_of coms))).
    - induction hs as [|kv hs IH]; [reflexivity|]. cbn [map filter]. pose proof (Forall_inv F) as V. destruct (value_keyword _ _ V) as [_ V2].
      change (keyword (hrec kv)) with (fst kv). rewrite V2. apply IH. exact (Forall_inv_tail F).
    - intros h I. apply in_map_iff in I as (kv & <- & I). unfold coms_of in I. apply in_map_iff in I as (c & <- & _). reflexivity. }
  destruct coms as [|c coms]; [reflexivity|].
  change (map hrec (coms_of (c :: coms))) with (hrec ($"COM", c) :: map hrec (coms_of coms)) at 1. cbv iota.
  cbn [flat_map]. rewrite app_nil_r. change (context_entry80 _) with (map (fun x => $"COM " ++ x) (kid_texts [$"line"] (Elem $"comment" [] [] (map (fun h => leaf $"line" (value h)) (map hrec (coms_of (c :: coms))))))).
  assert (forall cs, Forall tidy cs -> kid_texts [$"line"] (Elem $"comment" [] [] (map (fun h => leaf $"line" (value h)) (map hrec (coms_of cs)))) = cs) as K.
  { clear. intros cs T. unfold kid_texts. cbn [xkids]. induction T as [|c cs T1 T2 IH]; [reflexivity|]. cbn [coms_of map flat_map]. fold (coms_of cs). rewrite IH.
    change (let '(t, x) := getElementTagText (leaf $"line" (value (hrec ($"COM", c)))) in if smem t [$"line"] then [x] else []) with [strip c]. rewrite T1. reflexivity. }
  rewrite K by exact T. unfold coms_of. rewrite map_map. apply map_ext. reflexivity.
Qed.
Lemma context_back hs coms : headers_kept hs coms -> processObsContext80 (context (map hrec (hs ++ coms_of coms))) = header_lines hs coms.
Proof.
  intros (N & F & T & _). unfold processObsContext80, context. cbn [xkids]. rewrite flat_map_app, headings_back, comments_back by assumption.
  unfold header_lines. rewrite map_app. reflexivity.
Qed.

(** * Reading the header lines *)
Lemma header_read kv : In (fst kv) keywords -> ~ In nl (header_text kv) -> length (header_text kv) <= 80 -> yields [header_text kv] (hrec kv) /\ unsplit [header_text kv].
Proof.
  intros I N L. assert (decode80 (header_text kv) = Ok (hrec kv)) as D. { apply decode_iff; [exact N|]. apply dec_header; auto. }
  assert (header_line (header_text kv)) as HL by (exists (fst kv), (snd kv); auto).
  assert (streqb (header_text kv) (spaces (length (header_text kv))) = false) as B.
  { unfold header_text. destruct kv as [k v]. cbn [fst snd] in *. clear - I. unfold keywords in I. vm_compute in I.
    repeat (destruct I as [<-|I]; [reflexivity|]). destruct I. }
  split.
  - intros rest. rewrite read_app. unfold read at 1. cbn [flat_map]. unfold read_line. rewrite B, D. cbn [app records].
    assert (first_line (hrec kv) = false /\ second_line (hrec kv) = false) as [E1 E2] by (split; reflexivity). rewrite E1, E2.
    destruct (records (read rest)). reflexivity.
  - intros rest. cbn [app split_radar]. rewrite is_header_line_eq, (proj2 (is_header_iff _) HL). reflexivity.
Qed.
Definition head_pairs (b : block80) : list (str * str) := b_heads b ++ coms_of (b_comments b).
Definition head_chunks (b : block80) : list (list str) := map (fun kv => [header_text kv]) (head_pairs b).
Lemma head_keywords b : headers_kept (b_heads b) (b_comments b) -> Forall (fun kv => In (fst kv) keywords) (head_pairs b).
Proof.
  intros (_ & F & _). unfold head_pairs. apply Forall_app. split.
  - eapply Forall_impl; [|exact F]. intros kv V. apply (value_keyword _ _ V).
  - unfold coms_of. apply Forall_forall. intros kv I. apply in_map_iff in I as (c & <- & _). vm_compute. tauto.
Qed.
Lemma head_lines b : header_lines (b_heads b) (b_comments b) = concat (head_chunks b).
Proof.
  unfold header_lines, head_chunks, head_pairs, coms_of. induction (_ ++ _) as [|kv l IH]; [reflexivity|]. cbn [map concat app]. now rewrite IH.
Qed.
Lemma heads_read kvs : Forall (fun kv => In (fst kv) keywords) kvs -> Forall plain_line (concat (map (fun kv => [header_text kv]) kvs)) ->
  Forall (fun l => length l <= 80) (concat (map (fun kv => [header_text kv]) kvs)) ->
  Forall2 yields (map (fun kv => [header_text kv]) kvs) (map hrec kvs) /\ Forall unsplit (map (fun kv => [header_text kv]) kvs).
Proof.
  induction kvs as [|kv kvs IH]; intros F P L; cbn [map concat app] in *; [split; constructor|].
  pose proof (Forall_inv F) as F1. pose proof (Forall_inv P) as [P1 _]. pose proof (Forall_inv L) as L1.
  destruct (IH (Forall_inv_tail F) (Forall_inv_tail P) (Forall_inv_tail L)) as [A B].
  destruct (header_read kv F1 P1 L1) as [Y U]. split; constructor; assumption.
Qed.

(** * Blocks *)
Definition of_block (nosplit : bool) (b : block80) (g : group) : Prop := fst g = map hrec (head_pairs b) /\ Forall2 (made nosplit) (b_chunks b) (snd g).
Lemma block_chunks b : block_lines false b = concat (head_chunks b ++ b_chunks b).
Proof. unfold block_lines. rewrite head_lines, concat_app. reflexivity. Qed.
Lemma blocks_read nosplit bs : Forall block_kept bs -> Forall plain_line (flat_map (block_lines false) bs) -> whole nosplit (flat_map (block_lines false) bs) ->
  exists gs, Forall2 (of_block nosplit) bs gs /\ records_of nosplit (flat_map (block_lines false) bs) = (ungroup gs, None).
Proof.
  intros K P W.
  assert (exists gs, Forall2 (of_block nosplit) bs gs /\ Forall2 yields (flat_map (fun b => head_chunks b ++ b_chunks b) bs) (ungroup gs) /\
    (nosplit = false -> Forall unsplit (flat_map (fun b => head_chunks b ++ b_chunks b) bs)) /\ Forall (fun l => length l <= 80) (flat_map (block_lines false) bs)) as (gs & A & B & C & D).
  { induction K as [|b bs (H & NE & NC & KC & OK) K IH]; cbn [flat_map] in *.
    - exists []. split; [constructor|]. split; [constructor|]. split; [intros _|]; constructor.
    - apply Forall_app in P as [P1 P2]. apply whole_app in W as [W1 W2]. destruct (IH P2 W2) as (gs & A & B & C & D).
      rewrite block_chunks in P1, W1. rewrite concat_app in P1, W1. apply Forall_app in P1 as [P1 P3]. apply whole_app in W1 as [_ W1].
      destruct (all_made nosplit (b_chunks b) KC P3 W1) as (ds & M).
      pose proof (head_keywords b H) as HK. destruct H as (H1 & H2 & H3 & H4). rewrite head_lines in H4.
      destruct (heads_read (head_pairs b) HK P1 H4) as [Y U].
      exists ((map hrec (head_pairs b), ds) :: gs). split; [constructor; [split; [reflexivity|exact M]|exact A]|].
      split; [|split].
      + unfold ungroup. cbn [flat_map fst snd]. apply Forall2_app; [apply Forall2_app; [exact Y|]|exact B]. eapply Forall2_imp; [|exact M]. intros x y Q. apply (m_yields _ _ _ Q).
      + intros N. apply Forall_app. split; [apply Forall_app; split; [exact U|exact (made_unsplit _ _ _ M N)]|auto].
      + apply Forall_app. split; [|exact D]. rewrite block_chunks, concat_app. apply Forall_app. split; [exact H4|exact (made_len _ _ _ M)]. }
  exists gs. split; [exact A|].
  assert (flat_map (block_lines false) bs = concat (flat_map (fun b => head_chunks b ++ b_chunks b) bs)) as E.
  { clear. induction bs as [|b bs IH]; [reflexivity|]. cbn [flat_map]. rewrite block_chunks, IH, (concat_app (head_chunks b ++ b_chunks b)). reflexivity. }
  rewrite E in *. now apply records_chunks.
Qed.
(** * Printing *)
Lemma data_kids es ty : Forall (fun e => xtag e = ty) es -> forall g, block_data80 ades_tables es false ty g = Ok (false, ty, g ++ map record_in es).
Proof.
  induction 1 as [|e es E F IH]; intros g; cbn [block_data80 map]; [now rewrite app_nil_r|]. rewrite E, streqb_refl. cbn [rbind]. rewrite IH.
  unfold processDataElement80, record_in. rewrite <- app_assoc. reflexivity.
Qed.
Lemma data_kids_first es ty g : es <> [] -> data_tag ty -> Forall (fun e => xtag e = ty) es -> block_data80 ades_tables es true [] g = Ok (false, ty, map record_in es).
Proof.
  destruct es as [|e es]; [congruence|]. intros _ D F. pose proof (Forall_inv F) as E. apply Forall_inv_tail in F. cbn [block_data80].
  rewrite (proj1 (proj2 ades_ok_get)), E. assert (smem ty data_ok = true) as -> by (destruct D as [-> | ->]; apply ades_ok_tags). cbn [rbind].
  rewrite data_kids by exact F. unfold processDataElement80. reflexivity.
Qed.
Definition block_of (hs : list item) (rs : list xml) : xml := Elem $"obsBlock" [] [] [context hs; Elem $"obsData" [] [] rs].
Definition prints_block (o : opts80) (b : block80) (x : xml) : Prop :=
  exists hs rs ty, x = block_of hs rs /\ rs <> [] /\ data_tag ty /\ Forall (fun e => xtag e = ty) rs /\
    Forall2 (printed o) (b_chunks b) rs /\ processObsContext80 (context hs) = header_lines (b_heads b) (b_comments b).
Lemma one_block o b x : prints_block o b x -> forall g,
  exists g', processObsBlock80 ades_tables o x g = Ok (g', if o_noHeader o then [] else header_lines (b_heads b) (b_comments b)) /\ print_records o g' = Ok (concat (b_chunks b)).
Proof.
  intros (hs & rs & ty & -> & NE & D & F & P & C) g. exists (map record_in rs). split; [|exact (print_all o _ _ P)].
  unfold processObsBlock80, block_of. cbn [xkids block_kids80]. rewrite (proj2 (proj2 ades_ok_get)).
  change (xtag (context hs)) with ($"obsContext"). change (xtag (Elem $"obsData" [] [] rs)) with ($"obsData").
  destruct ades_ok_tags as (_ & _ & _ & _ & _ & T1 & T2). rewrite T1, T2. cbn [negb]. change (streqb $"obsContext" $"obsContext") with true.
  change (streqb $"obsContext" $"obsData") with false. change (streqb $"obsData" $"obsContext") with false. change (streqb $"obsData" $"obsData") with true. cbn [andb].
  rewrite (data_kids_first rs ty g NE D F). destruct (o_noHeader o); cbn [negb rbind app]; [reflexivity|]. rewrite C. reflexivity.
Qed.
Lemma block_kids o bs xs : Forall2 (prints_block o) bs xs -> forall last g out P, print_records o g = Ok P -> exists g' out' P',
    ades_kids80 ades_tables o xs last g out = Ok (g', out') /\ print_records o g' = Ok P' /\ out' ++ P' = out ++ P ++ flat_map (block_lines (o_noHeader o)) bs.
Proof.
  induction 1 as [|b x bs xs B _ IH]; intros last g out P PQ.
  - exists g, out, P. cbn [ades_kids80 flat_map]. rewrite app_nil_r. auto.
  - destruct (one_block o b x B g) as (g1 & E1 & E2). cbn [ades_kids80]. rewrite (proj1 ades_ok_get).
    assert (xtag x = $"obsBlock") as T by (destruct B as (hs & rs & ty & -> & _); reflexivity). rewrite T.
    destruct ades_ok_tags as (_ & _ & T1 & _). rewrite T1. change (streqb $"obsBlock" $"obsBlock") with true. cbn [negb]. cbv iota. rewrite PQ. cbn [rbind]. rewrite E1. cbn [rbind].
    destruct (IH (Some $"obsBlock") g1 (out ++ P ++ (if o_noHeader o then [] else header_lines (b_heads b) (b_comments b))) _ E2) as (g' & out' & P' & A1 & A2 & A3).
    exists g', out', P'. split; [exact A1|]. split; [exact A2|]. rewrite A3. cbn [flat_map]. unfold block_lines at 2. rewrite <- !app_assoc. reflexivity.
Qed.
Lemma one_tag o chs xs : one_kind chs -> Forall2 (printed o) chs xs -> Forall (fun ch => ch <> []) chs -> chs <> [] -> exists ty, data_tag ty /\ Forall (fun e => xtag e = ty) xs.
Proof.
  intros [K|K] F N _.
  - exists $"radar". split; [now right|]. induction F as [|ch x chs xs [T _] F IH]; constructor.
    + pose proof (Forall_inv K) as K1. pose proof (Forall_inv N) as N1. rewrite T. destruct ch as [|l ch]; [congruence|]. unfold tag_of. cbn [hd] in K1. rewrite K1. reflexivity.
    + apply IH; [exact (Forall_inv_tail K)|exact (Forall_inv_tail N)].
  - exists $"optical". split; [now left|]. induction F as [|ch x chs xs [T _] F IH]; constructor.
    + pose proof (Forall_inv K) as K1. pose proof (Forall_inv N) as N1. rewrite T. destruct ch as [|l ch]; [congruence|]. unfold tag_of. cbn [hd] in K1.
      destruct (streqb (cols 15 15 l) $"R") eqn:Q; [|reflexivity]. apply streqb_eq in Q. contradiction.
    + apply IH; [exact (Forall_inv_tail K)|exact (Forall_inv_tail N)].
Qed.
Lemma block_printed nosplit o b g : block_kept b -> of_block nosplit b g -> forall xs, block ofields rfields g = Some xs -> exists x, xs = [x] /\ prints_block o b x.
Proof.
  intros (H & NE & NC & KC & OK) [E M] xs B. unfold block in B. destruct (rows ofields rfields (snd g)) as [rs|] eqn:R; [|discriminate B].
  destruct (xml_valid _); [|discriminate B]. assert ([block_of (fst g) rs] = xs) as <- by (injection B as B; exact B). clear B. exists (block_of (fst g) rs). split; [reflexivity|].
  pose proof (rows_printed nosplit o _ _ M rs R) as P. destruct (one_tag o _ _ OK P (kept_lines _ KC) NC) as (ty & D & F).
  exists (fst g), rs, ty. split; [reflexivity|]. split; [intros ->; inversion P; subst; congruence|]. split; [exact D|]. split; [exact F|]. split; [exact P|].
  rewrite E. apply context_back. exact H.
Qed.
Lemma blocks_printed nosplit o bs gs : Forall block_kept bs -> Forall2 (of_block nosplit) bs gs -> forall xs, blocks ofields rfields gs = Some xs -> Forall2 (prints_block o) bs xs.
Proof.
  intros K F. induction F as [|b g bs gs E F IH]; intros xs B; unfold blocks in *; cbn [together] in B.
  - injection B as <-. constructor.
  - destruct (block ofields rfields g) as [ys|] eqn:Q; [|discriminate B]. destruct (together _ gs) as [zs|]; [|discriminate B]. assert (ys ++ zs = xs) as <- by (injection B as B; exact B).
    destruct (block_printed nosplit o b g (Forall_inv K) E ys Q) as (x & -> & PB). cbn [app]. constructor; [exact PB|]. apply IH; [exact (Forall_inv_tail K)|reflexivity].
Qed.
Lemma rows_some nosplit chs ds : Forall2 (made nosplit) chs ds -> chs <> [] -> rows ofields rfields ds <> Some [].
Proof.
  intros F N R. pose proof (rows_printed nosplit opts_default chs ds F [] R) as P. inversion P. congruence.
Qed.
Lemma blocks_back nosplit o bs t : bs <> [] -> Forall block_kept bs -> readable (flat_map (block_lines false) bs) -> whole nosplit (flat_map (block_lines false) bs) ->
  mpc80coltoxml ades_tables nosplit (file (flat_map (block_lines false) bs)) = Written t ->
  xmltompc80col ades_tables o t = Ok (file (flat_map (block_lines (o_noHeader o)) bs)).
Proof.
  intros NB K R W H.
  assert (Forall plain_line (flat_map (block_lines false) bs)) as PL by exact (proj1 R).
  destruct (blocks_read nosplit bs K PL W) as (gs & F & E).
  assert (Forall regular gs) as RG.
  { clear - F K. induction F as [|b g bs gs [E M] F IH]; constructor; [|apply IH; exact (Forall_inv_tail K)].
    destruct (Forall_inv K) as (H & NE & NC & _). unfold regular. rewrite E. split; [|split; [|split]].
    - intros Q. apply NE. rewrite head_lines. unfold head_chunks. destruct (head_pairs b); [reflexivity|discriminate Q].
    - apply Forall_forall. intros h I. apply in_map_iff in I as (kv & <- & _). reflexivity.
    - intros Q. rewrite Q in M. inversion M. congruence.
    - exact (made_data _ _ _ M). }
  assert (Forall (fun g => rows ofields rfields (snd g) <> Some []) gs) as RS.
  { clear - F K. induction F as [|b g bs gs [E M] F IH]; constructor; [|apply IH; exact (Forall_inv_tail K)].
    destruct (Forall_inv K) as (H & NE & NC & _). exact (rows_some _ _ _ M NC). }
  rewrite (C39_blocks ades_tables ofields rfields nosplit _ gs (proj1 opt_rad) (proj2 opt_rad) R E) in H; [|intros ->; inversion F; congruence|exact RG|].
  2: { clear - RS. induction RS as [|g gs A B IH]; [constructor|]. cbn [removelast]. destruct gs; [constructor|]. constructor; [exact A|exact IH]. }
  apply written_some in H as (xs & B & ->). pose proof (blocks_printed nosplit o bs gs K F xs B) as PR.
  unfold xmltompc80col, xmltompc80col_lines. change (xtag (ades xs)) with ($"ades"). change (streqb $"ades" $"ades") with true. cbn [negb]. change (xkids (ades xs)) with xs.
  destruct (block_kids o bs xs PR None [] [] [] eq_refl) as (g' & out' & P' & A1 & A2 & A3).
  rewrite A1. cbn [rbind]. rewrite A2. cbn [rbind]. rewrite A3. reflexivity.
Qed.
