(** The layout of PSV files: printing. *)
From Verif Require Import PyStrProofs XmlSpec XmlProofs TablesProofs JustSpec JustProofs PsvSpec2 XmlToPsv RoundSpec RoundProofs1 RoundProofs2 RoundProofs3 LayoutSpec LayoutProofs1.
Local Open Scope Z_scope.

Lemma vals_dict (d : list (str * str)) k : NoDup (map fst d) -> vals d k = match dget k d with Some v => [v] | None => [] end.
Proof.
  induction d as [|[q v] d IH]; intro N; [reflexivity|]. cbn [map fst] in N. inversion N as [|? ? NI N']; subst. unfold vals in *. cbn [flat_map fst snd dget].
  rewrite IH by exact N'. destruct (streqb q k) eqn:E.
  - apply streqb_eq in E. subst q. rewrite streqb_refl. destruct (dget k d) as [w|] eqn:D; [|reflexivity]. exfalso. apply NI. now apply (dget_key _ _ w).
  - destruct (streqb k q) eqn:E2; [|reflexivity]. apply streqb_eq in E2. subst. rewrite streqb_refl in E. discriminate E.
Qed.
Definition history (rs : list xml) : list (str * str) := concat (map subDict_of rs).
Lemma vals_history rs k : vals (history rs) k = column_values rs k.
Proof.
  unfold history, column_values. induction rs as [|r rs IH]; [reflexivity|]. cbn [map concat flat_map]. rewrite vals_app, IH. f_equal.
  rewrite vals_dict by apply subdict_nodup. rewrite rec_get. now destruct (rec_value r k).
Qed.
Definition state (g : xglob) (rs : list xml) : Prop := x_data g = map subDict_of rs /\ (rs <> [] -> inv g (history rs)).
Lemma element_first T e g g' : processDataElement T true e g = Ok g' -> state g' [e].
Proof.
  unfold processDataElement. destruct (new_header T (xtag e) g) as [g1|] eqn:H; [|intro Q; discriminate Q]. cbn [rbind]. destruct (new_header_fresh _ _ _ _ H) as [F D].
  destruct (see_fields (subDict_of e) g1) as [g2|] eqn:S; [|intro Q; discriminate Q]. cbn [rbind]. intro E. apply Ok_inj in E. subst g'.
  destruct (see_fields_inv _ _ _ _ (fresh_inv _ F) S) as [G D2]. split; [cbn [x_data map]; now rewrite D2, D|]. intros _. unfold history. cbn [map concat]. rewrite app_nil_r.
  destruct G. constructor; assumption.
Qed.
Lemma element_next T e g g' rs : rs <> [] -> state g rs -> processDataElement T false e g = Ok g' -> state g' (rs ++ [e]).
Proof.
  intros N [D G]. specialize (G N). unfold processDataElement. cbn [rbind].
  destruct (see_fields (subDict_of e) g) as [g2|] eqn:S; [|intro Q; discriminate Q]. cbn [rbind]. intro E. apply Ok_inj in E. subst g'.
  destruct (see_fields_inv _ _ _ _ G S) as [G2 D2]. split; [cbn [x_data map]; rewrite D2, D, map_app; reflexivity|]. intros _. unfold history in *. rewrite map_app, concat_app. cbn [map concat]. rewrite app_nil_r.
  destruct G2. constructor; assumption.
Qed.

Lemma bars_join l : bars l = join_bar l.
Proof.
  induction l as [|x l IH]; [reflexivity|]. destruct l as [|y l]; [cbn [bars join_bar map concat]; now rewrite app_nil_r|].
  change (bars (x :: y :: l)) with (x ++ $"|" ++ bars (y :: l)). rewrite IH. reflexivity.
Qed.
Definition place_of (h : hitem) : place :=
  if streqb (h_fmt h) $"L" then AtLeft else if streqb (h_fmt h) $"R" then AtRight else if streqb (h_fmt h) $"C" then Centred else AtPoint (Z.to_nat (h_dpos h)).
Definition col (h : hitem) : column := {| c_name := h_name h; c_width := Z.to_nat (h_width h); c_place := place_of h |}.
Lemma rmap_forall {A B} (f : A -> res B) l ys : rmap f l = Ok ys -> Forall2 (fun x y => f x = Ok y) l ys.
Proof.
  revert ys. induction l as [|x l IH]; intros ys E; cbn [rmap] in E; [apply Ok_inj in E; subst; constructor|].
  destruct (f x) as [y|] eqn:F; [|discriminate E]. cbn [rbind] in E. destruct (rmap f l) as [zs|]; [|discriminate E]. cbn [rbind] in E. apply Ok_inj in E. subst. constructor; auto.
Qed.
Lemma cell_ok r h x vs : wid (h_name h) <= h_width h -> fits h vs -> (forall v, rec_value r (h_name h) = v -> v <> [] -> In v vs) ->
  cell_text (subDict_of r) h = Ok x -> cell r (col h) x.
Proof.
  intros W [_ F] I E. unfold cell_text in E. rewrite rec_get in E. unfold cell. cbn [col c_name]. pose proof (wid_nn (h_name h)) as NN.
  destruct (rec_value r (h_name h)) as [|c v] eqn:V.
  - apply Ok_inj in E. subst x. reflexivity.
  - specialize (I _ eq_refl ltac:(intro Z; discriminate Z)). remember (c :: v) as u eqn:U. clear U V c v.
    destruct (applyPaddingAndJustification u (h_width h) (h_fmt h) (h_dpos h)) as [[[s w'] d']|e] eqn:A; [|discriminate E]. cbn [rbind] in E. apply Ok_inj in E. subst s.
    unfold filled. cbn [col c_place c_width]. destruct F as [[L F]|(Ef & D & F1 & F2)].
    + specialize (F u I). destruct (c16_LRC u (h_width h) (h_fmt h) (h_dpos h)) as (a & b & A2 & X1 & X2 & X3 & X4); [destruct L as [<-|[<-|[<-|[]]]]; auto|].
      rewrite A2 in A. apply Ok_inj in A. assert (x = spaces a ++ u ++ spaces b) as -> by exact (f_equal (fun z => fst (fst z)) (eq_sym A)).
      exists a, b. split; [reflexivity|]. assert (length (spaces a ++ u ++ spaces b) = Z.to_nat (h_width h)) as Len by (unfold wid in *; lia).
      unfold place_of. destruct L as [L|[L|[L|[]]]]; rewrite <- L in *.
      * change (streqb $"L" $"L") with true. cbv iota. split; [now apply X1|exact Len].
      * change (streqb $"R" $"L") with false. change (streqb $"R" $"R") with true. cbv iota. split; [now apply X2|exact Len].
      * change (streqb $"C" $"L") with false. change (streqb $"C" $"R") with false. change (streqb $"C" $"C") with true. cbv iota. split; [specialize (X3 eq_refl); lia|exact Len].
    + rewrite Ef, apply_D in A. destruct (just_D _ _ _ _ _ _ A) as (_ & _ & a & b & -> & Ew & Ed & Ea & Em). exists a, b. split; [reflexivity|].
      unfold place_of. rewrite Ef. change (streqb $"D" $"L") with false. change (streqb $"D" $"R") with false. change (streqb $"D" $"C") with false. cbv iota.
      specialize (F1 u I). unfold before, wid in *. split; lia.
Qed.
Lemma header_cell_ok h s : wid (h_name h) <= h_width h ->
  (do (s, _, _) <- applyPaddingAndJustification (h_name h) (h_width h) $"L" 0; Ok s) = Ok s -> s = c_name (col h) ++ spaces (c_width (col h) - length (c_name (col h))).
Proof.
  intros W E. destruct (c16_LRC (h_name h) (h_width h) $"L" 0) as (a & b & A2 & X1 & X2 & X3 & X4); [auto|]. rewrite A2 in E. cbn [rbind] in E. apply Ok_inj in E. subst s.
  cbn [col c_name c_width]. rewrite (X1 eq_refl) in *. change (spaces 0) with (@nil ascii) in *. cbn [app] in *. f_equal. f_equal.
  unfold wid in *. rewrite app_length in X4. unfold spaces in X4. rewrite repeat_length in X4. lia.
Qed.
Lemma print_section_ok g rs ls : rs <> [] -> state g rs -> printDataDicts g = Ok ls -> section rs ls.
Proof.
  intros N [D G] E. specialize (G N). unfold printDataDicts in E. rewrite D in E. destruct rs as [|r0 rs0]; [contradiction|]. cbn [map] in E.
  change (subDict_of r0 :: map subDict_of rs0) with (map subDict_of (r0 :: rs0)) in E. remember (r0 :: rs0) as rs eqn:R. clear R r0 rs0 N.
  unfold header_text in E. set (items := filter h_seen (x_info g)) in *.
  destruct (rmap _ items) as [hs|] eqn:H; [|discriminate E]. cbn [rbind] in E.
  destruct (rmap (row_text (x_info g)) (map subDict_of rs)) as [rows|] eqn:RW; [|discriminate E]. cbn [rbind] in E. apply Ok_inj in E. subst ls.
  assert (IT : forall h, In h items -> In h (x_info g) /\ h_seen h = true) by (intros h I; now apply filter_In in I).
  exists (map col items), rows.
  assert (map c_name (map col items) = map h_name items) as NM by (rewrite map_map; reflexivity). rewrite NM.
  split; [|split; [|split; [|split; [|split]]]].
  - apply (nodup_names (x_dict g)); [apply nodup_filter; exact (V1 _ _ G)|]. intros h I. destruct (IT h I) as [I1 I2]. exact (V3 _ _ G h I1 I2).
  - intro k. split.
    + intro I. apply in_map_iff in I as (h & <- & I). destruct (IT h I) as [I1 I2]. destruct (V8 _ _ G h I1 I2) as [NE _]. rewrite vals_history in NE.
      unfold column_values in NE. destruct (flat_map _ rs) as [|v vs] eqn:L; [now destruct NE|]. assert (In v (flat_map (fun r => match rec_value r (h_name h) with [] => [] | v => [v] end) rs)) as J by (rewrite L; now left).
      apply in_flat_map in J as (r & Ir & J). exists r. split; [exact Ir|]. intro Z. rewrite Z in J. destruct J.
    + intros (r & Ir & NE). destruct (V6 _ _ G k) as (h & I & Hn & Hs).
      { rewrite vals_history. intro Z. assert (In (rec_value r k) (column_values rs k)) as J; [|rewrite Z in J; destruct J].
        apply in_flat_map. exists r. split; [exact Ir|]. destruct (rec_value r k); [contradiction|now left]. }
      apply in_map_iff. exists h. split; [exact Hn|]. apply filter_In. now split.
  - apply Forall_forall. intros c I. apply in_map_iff in I as (h & <- & I). destruct (IT h I) as [I1 _]. pose proof (V5 _ _ G h I1). cbn [col c_name c_width]. unfold wid in *. lia.
  - f_equal. f_equal. rewrite bars_join. f_equal. apply rmap_forall in H. rewrite map_map. clear - H IT G. induction H as [|h s l ls E F IH]; [reflexivity|]. cbn [map]. f_equal.
    + destruct (IT h (or_introl eq_refl)) as [I1 _]. apply (header_cell_ok h s); [exact (V5 _ _ G h I1)|exact E].
    + apply IH. intros x I. apply IT. now right.
  - apply rmap_forall in RW. 
    assert (forall q, incl q rs -> forall rows, Forall2 (fun x y => row_text (x_info g) x = Ok y) (map subDict_of q) rows ->
      Forall2 (fun r l => exists cells, Forall2 (cell r) (map col items) cells /\ l = rstrip (bars cells)) q rows) as K; [|apply (K rs); [apply incl_refl|exact RW]].
    clear RW rows. induction q as [|r q IH]; intros Iq rows F; cbn [map] in F; inversion F as [|? y ? ys E F']; subst; constructor; [|apply IH; [intros x I; apply Iq; now right|exact F']].
    unfold row_text in E. fold items in E. destruct (rmap (cell_text (subDict_of r)) items) as [cs|] eqn:C; [|discriminate E]. cbn [rbind] in E. apply Ok_inj in E. subst y.
    exists cs. split; [|now rewrite bars_join]. apply rmap_forall in C. assert (In r rs) as Ir by (apply Iq; now left). clear - C IT G Ir.
    induction C as [|h s l ls E F IH]; [constructor|]. cbn [map]. constructor; [|apply IH; intros x I; apply IT; now right].
    destruct (IT h (or_introl eq_refl)) as [I1 I2]. apply (cell_ok r h s (vals (history rs) (h_name h))); [exact (V5 _ _ G h I1)|exact (V8 _ _ G h I1 I2)| |exact E].
    intros v V NE. rewrite vals_history. apply in_flat_map. exists r. split; [exact Ir|]. rewrite V. destruct v; [contradiction|now left].
  - intros c p I P FL. apply in_map_iff in I as (h & <- & I). destruct (IT h I) as [I1 I2]. cbn [col c_name c_width c_place] in *. destruct (V8 _ _ G h I1 I2) as [_ F]. rewrite vals_history in F.
    unfold place_of in P. apply Forall_forall. intros v Iv. destruct F as [[L _]|(Ef & D0 & F1 & F2)].
    + exfalso. destruct L as [L|[L|[L|[]]]]; rewrite <- L in P; discriminate P.
    + rewrite Ef in P. change (streqb $"D" $"L") with false in P. change (streqb $"D" $"R") with false in P. change (streqb $"D" $"C") with false in P. cbv iota in P. injection P as P.
      specialize (F1 v Iv). specialize (F2 FL v Iv). pose proof (before_le v). unfold before, wid in *. lia.
Qed.

(** * The document *)
Lemma print_pending g rs ls : state g rs -> printDataDicts g = Ok ls -> chunk_lines (Records rs) ls.
Proof.
  intros S E. cbn [chunk_lines]. destruct rs as [|r rs]; [|apply (print_section_ok g); [intro Z; discriminate Z|exact S|exact E]].
  destruct S as [D _]. unfold printDataDicts in E. rewrite D in E. cbn [map] in E. now apply Ok_inj in E.
Qed.
Lemma block_data_state T es : forall first ty g f' ty' g' rs all, block_data T es first ty g = Ok (f', ty', g') ->
  (if first then all = [] /\ state g rs else all <> [] /\ state g all) ->
  (if f' then all ++ es = [] /\ state g' rs else all ++ es <> [] /\ state g' (all ++ es)).
Proof.
  induction es as [|e es IH]; intros first ty g f' ty' g' rs all E S; cbn [block_data] in E.
  - apply Ok_inj in E. injection E as <- <- <-. rewrite app_nil_r. exact S.
  - match type of E with rbind ?q _ = _ => destruct q as [t2|]; [|discriminate E] end. cbn [rbind] in E.
    destruct (processDataElement T first e g) as [g1|] eqn:P; [|discriminate E]. cbn [rbind] in E.
    assert (state g1 (all ++ [e])) as S1.
    { destruct first; destruct S as [A B]; [subst all; exact (element_first T e g g1 P)|exact (element_next T e g g1 all A B P)]. }
    specialize (IH false t2 g1 f' ty' g' rs (all ++ [e]) E). rewrite <- app_assoc in IH. apply IH. split; [destruct all; intro Z; discriminate Z|exact S1].
Qed.
Lemma block_kids_state T ks : forall first ty g out g' out' rs all, block_kids T ks first ty g out = Ok (g', out') ->
  (if first then all = [] /\ state g rs else all <> [] /\ state g all) ->
  out' = out ++ flat_map (fun k => if is_tag $"obsContext" k then flat_map (fun i => labelled $"#" i :: map (labelled $"!") (xkids i)) (xkids k) else []) ks /\
  state g' (match all ++ flat_map (fun k => if is_tag $"obsData" k then xkids k else []) ks with [] => rs | q => q end).
Proof.
  induction ks as [|k ks IH]; intros first ty g out g' out' rs all E S; cbn [block_kids] in E.
  - apply Ok_inj in E. injection E as <- <-. cbn [flat_map]. rewrite !app_nil_r. split; [reflexivity|]. destruct first; destruct S as [A B]; [now subst|]. destruct all; [contradiction|exact B].
  - destruct (dget $"obsBlock" (allowed T)) as [ok|]; [|discriminate E]. destruct (negb (smem (xtag k) ok)); [discriminate E|].
    cbn [flat_map]. unfold is_tag at 1 3. destruct (streqb (xtag k) $"obsContext") eqn:C.
    + assert (streqb (xtag k) $"obsData" = false) as C2 by (apply streqb_eq in C; rewrite C; reflexivity). rewrite C2. cbn [app].
      destruct (IH first ty g (out ++ processObsContext k) g' out' rs all E S) as [O St]. split; [|exact St]. rewrite O, <- app_assoc. reflexivity.
    + destruct (streqb (xtag k) $"obsData") eqn:C2.
      * destruct (block_data T (xkids k) first ty g) as [[[f1 t1] g1]|] eqn:B; [|discriminate E]. cbn [rbind] in E.
        pose proof (block_data_state T (xkids k) first ty g f1 t1 g1 rs all B S) as S1.
        destruct (IH f1 t1 g1 out g' out' rs (all ++ xkids k) E S1) as [O St]. split; [exact O|]. rewrite <- app_assoc in St. exact St.
      * cbn [app]. exact (IH first ty g out g' out' rs all E S).
Qed.
Lemma ades_kids_state T es : forall last g out g' out' ls rs, ades_kids T es last g out = Ok (g', out') -> printDataDicts g' = Ok ls ->
  state g rs -> (forall t, last = Some t -> t <> $"obsBlock" -> rs <> []) ->
  exists lss, Forall2 chunk_lines (chunks es last rs) lss /\ out' ++ ls = out ++ concat lss.
Proof.
  induction es as [|e es IH]; intros last g out g' out' ls rs E PR S L; cbn [ades_kids] in E; cbn [chunks].
  - apply Ok_inj in E. injection E as <- <-. exists [ls]. split; [constructor; [now apply (print_pending g)|constructor]|]. cbn [concat]. now rewrite app_nil_r.
  - destruct (dget $"ades" (allowed T)) as [ok|]; [|discriminate E]. destruct (negb (smem (xtag e) ok)); [discriminate E|]. change (is_tag $"obsBlock" e) with (streqb (xtag e) $"obsBlock").
    destruct (streqb (xtag e) $"obsBlock") eqn:B.
    + destruct (printDataDicts g) as [l1|] eqn:P1; [|discriminate E]. cbn [rbind] in E. destruct (processObsBlock T e g) as [[g1 l2]|] eqn:PB; [|discriminate E]. cbn [rbind] in E.
      destruct (block_kids_state T (xkids e) true [] g [] g1 l2 rs [] PB (conj eq_refl S)) as [O St]. cbn [app] in O, St.
      destruct (IH _ _ _ _ _ _ _ E PR St) as (lss & F & Q). { intros t Z NE. injection Z as <-. apply streqb_eq in B. contradiction. }
      exists (l1 :: l2 :: lss). split; [|rewrite Q; cbn [concat]; now rewrite <- !app_assoc].
      constructor; [now apply (print_pending g)|]. constructor; [exact O|exact F].
    + assert (match last with Some t => is_tag t e | None => false end = match last with Some t => streqb (xtag e) t | None => false end) as -> by (destruct last; reflexivity).
      destruct (match last with Some t => streqb (xtag e) t | None => false end) eqn:SM; cbn [rbind negb] in E.
      * destruct last as [t|]; [|discriminate SM]. apply streqb_eq in SM.
        assert (rs <> []) as NE by (apply (L t eq_refl); intros ->; rewrite SM in B; discriminate B).
        destruct (processDataElement T false e g) as [g1|] eqn:P1; [|discriminate E]. cbn [rbind] in E.
        destruct (IH _ _ _ _ _ _ (rs ++ [e]) E PR (element_next T e g g1 rs NE S P1)) as (lss & F & Q). { intros ? _ _. destruct rs; intro Z; discriminate Z. }
        rewrite app_nil_r in Q. rewrite SM in F. exists lss. now split.
      * destruct (printDataDicts g) as [l1|] eqn:P0; [|discriminate E]. cbn [rbind] in E. destruct (processDataElement T true e g) as [g1|] eqn:P1; [|discriminate E]. cbn [rbind] in E.
        destruct (IH _ _ _ _ _ _ [e] E PR (element_first T e g g1 P1)) as (lss & F & Q). { intros ? _ _ Z. discriminate Z. }
        exists (l1 :: lss). split; [|rewrite Q; cbn [concat]; now rewrite <- !app_assoc]. constructor; [now apply (print_pending g)|exact F].
Qed.
Theorem psv_lines T t ls : xmltopsv_lines T t = Ok ls ->
  exists lss, Forall2 chunk_lines (chunks (xkids t) None []) lss /\ ls = ($"# version=" ++ version_of t) :: concat lss.
Proof.
  unfold xmltopsv_lines, version_of. destruct (negb (streqb (xtag t) $"ades")); [intro Q; discriminate Q|].
  destruct (dget $"version" (xattrs t)) as [v|]; [|intro Q; discriminate Q]. destruct (ades_kids T (xkids t) None xg_init [$"# version=" ++ v]) as [[g l1]|] eqn:A; [|intro Q; discriminate Q]. cbn [rbind].
  destruct (printDataDicts g) as [ls'|] eqn:P; [|intro Q; discriminate Q]. cbn [rbind]. intro E. apply Ok_inj in E. subst ls.
  destruct (ades_kids_state T _ _ _ _ _ _ _ [] A P) as (lss & F & Q). { split; [reflexivity|]. intro Z. contradiction. } { intros x Z. discriminate Z. }
  exists lss. split; [exact F|exact Q].
Qed.
Theorem psv_layout T t content : xmltopsv T t = Ok content ->
  exists lss, Forall2 chunk_lines (chunks (xkids t) None []) lss /\
    content = concat (map (fun l => l ++ [nl]) (($"# version=" ++ version_of t) :: concat lss)).
Proof.
  unfold xmltopsv. destruct (xmltopsv_lines T t) as [ls|] eqn:L; [|intro Q; discriminate Q]. cbn [rbind]. intro E. apply Ok_inj in E. subst content.
  destruct (psv_lines T t ls L) as (lss & F & ->). now exists lss.
Qed.
Local Open Scope nat_scope.
Lemma cell_width r c x vs : (forall p, c_place c = AtPoint p -> Forall (fun v => p - 1 + (length v - length (before_point v)) <= c_width c) vs) ->
  (rec_value r (c_name c) <> [] -> In (rec_value r (c_name c)) vs) -> cell r c x -> length x = c_width c.
Proof.
  unfold cell. intros W I C. destruct (rec_value r (c_name c)) as [|y v]; [subst x; apply repeat_length|]. specialize (I ltac:(intro Z; discriminate Z)).
  remember (y :: v) as u eqn:U. clear U y v. destruct C as (a & b & E & C). destruct (c_place c) as [| | |p]; try (now destruct C).
  destruct C as [C1 C2]. specialize (W p eq_refl). rewrite Forall_forall in W. specialize (W u I). pose proof (before_le u) as L. unfold before, wid in L. rewrite C2. lia.
Qed.
Lemma cell_around r c x : cell r c x -> around (rec_value r (c_name c)) x.
Proof. unfold cell. destruct (rec_value r (c_name c)) as [|y v]; [intros ->; exists (c_width c), 0; symmetry; apply app_nil_r|]. intros (a & b & E & _). now exists a, b. Qed.
Theorem straight_bars rs lines : section rs lines -> (forall k, first_longest (column_values rs k)) ->
  exists names, (forall k, In k names <-> exists r, In r rs /\ rec_value r k <> []) /\ aligned names rs lines.
Proof.
  intros (cols & rows & ND & NM & W & -> & R & ST) FL. exists (map c_name cols). split; [exact NM|]. exists (map c_width cols). eexists. exists rows. split; [reflexivity|]. split; [|split].
  - clear. induction cols as [|c cols IH]; [constructor|]. cbn [map]. constructor; [|exact IH]. exists 0. eexists. reflexivity.
  - rewrite map_map. apply map_ext_in. intros c I. rewrite Forall_forall in W. specialize (W c I). rewrite app_length. unfold spaces. rewrite repeat_length. lia.
  - assert (forall r l, In r rs -> (exists cells, Forall2 (cell r) cols cells /\ l = rstrip (bars cells)) ->
      exists cells, l = rstrip (bars cells) /\ Forall2 (fun k x => around (rec_value r k) x) (map c_name cols) cells /\ map (@length ascii) cells = map c_width cols) as K.
    { intros r l Ir (cells & C & E). exists cells. split; [exact E|]. split.
      - clear - C. induction C as [|c x cs xs H F IH]; cbn [map]; constructor; [now apply cell_around|exact IH].
      - assert (forall q, incl q cols -> forall cs, Forall2 (cell r) q cs -> map (@length ascii) cs = map c_width q) as K; [|apply (K cols (incl_refl _) cells C)].
        induction q as [|c q IH]; intros Iq cs F; inversion F as [|? x ? xs H F']; subst; [reflexivity|]. cbn [map]. f_equal; [|apply IH; [intros y Iy; apply Iq; now right|exact F']].
        apply (cell_width r c x (column_values rs (c_name c))); [|intro NE; apply in_flat_map; exists r; split; [exact Ir|destruct (rec_value r (c_name c)); [contradiction|now left]]|exact H].
        intros p P. apply (ST c p); [apply Iq; now left|exact P|apply FL]. }
    clear - R K. induction R as [|r l q w H F IH]; constructor; [apply K; [now left|exact H]|]. apply IH. intros r' l' I. apply K. now right.
Qed.
Lemma spaces_no_pipe n : ~ In "|"%char (spaces n).
Proof. intro I. apply repeat_spec in I. discriminate I. Qed.
Lemma around_no_pipe v x : around v x -> ~ In "|"%char v -> ~ In "|"%char x.
Proof. intros (a & b & ->) N I. apply in_app_or in I as [I|I]; [now apply spaces_no_pipe in I|]. apply in_app_or in I as [I|I]; [auto|now apply spaces_no_pipe in I]. Qed.
Lemma bars_split cs : cs <> [] -> Forall (fun c => ~ In "|"%char c) cs -> splitc "|" (bars cs) = cs.
Proof. intros N F. rewrite bars_join. now apply split_join. Qed.
Lemma space_no_pipe b : forallb pyspace b = true -> ~ In "|"%char b.
Proof. intros F I. rewrite forallb_forall in F. specialize (F _ I). discriminate F. Qed.
Lemma splitc_app s : forall b, ~ In "|"%char b -> exists q l, splitc "|" s = q ++ [l] /\ splitc "|" (s ++ b) = q ++ [l ++ b].
Proof.
  induction s as [|c s IH]; intros b N.
  - exists [], []. split; [reflexivity|]. cbn [app]. pose proof (split_join [b]) as J. cbn [join_bar map concat] in J. rewrite app_nil_r in J. apply J; [intro Z; discriminate Z|]. constructor; [exact N|constructor].
  - destruct (IH b N) as (q & l & E1 & E2). cbn [app splitc]. destruct (ceqb c "|"); [exists ([] :: q), l; rewrite E1, E2; split; reflexivity|].
    rewrite E1, E2. destruct q as [|x q]; cbn [app]; [exists [], (c :: l); split; reflexivity|exists ((c :: x) :: q), l; split; reflexivity].
Qed.
(** the cells of a printed line, but for the last *)
Lemma cells_of cs line : cs <> [] -> Forall (fun c => ~ In "|"%char c) cs -> line = rstrip (bars cs) -> exists l, cs = removelast (splitc "|" line) ++ [l].
Proof.
  intros N F E. destruct (rstrip_prefix (bars cs)) as (b & P & B). rewrite <- E in P. pose proof (bars_split cs N F) as S. rewrite P in S.
  destruct (splitc_app line b (space_no_pipe b B)) as (q & l & E1 & E2). rewrite E1, removelast_last. exists (l ++ b). exact (eq_trans (eq_sym S) E2).
Qed.
