(** The layout of PSV files: the state of a section. *)
From Verif Require Import PyStrProofs XmlSpec XmlProofs TablesProofs JustSpec JustProofs PsvSpec2 XmlToPsv RoundSpec RoundProofs1 RoundProofs2 RoundProofs3 LayoutSpec.
Local Open Scope Z_scope.

Definition vals (hist : list (str * str)) (k : str) : list str := flat_map (fun kv => if streqb (fst kv) k then [snd kv] else []) hist.
Lemma vals_app h1 h2 k : vals (h1 ++ h2) k = vals h1 k ++ vals h2 k.
Proof. apply flat_map_app. Qed.
Lemma vals_snoc h k v q : vals (h ++ [(k, v)]) q = if streqb k q then vals h q ++ [v] else vals h q.
Proof. rewrite vals_app. unfold vals at 2. cbn [flat_map fst snd]. destruct (streqb k q); [reflexivity|]. now rewrite app_nil_r. Qed.

Definition before (v : str) : Z := wid (before_point v).
Definition fits (h : hitem) (vs : list str) : Prop :=
  vs <> [] /\
  ((lrc (h_fmt h) /\ forall v, In v vs -> wid v <= h_width h) \/
   (h_fmt h = $"D" /\ 0 <= h_dpos h /\ (forall v, In v vs -> before v + 1 <= h_dpos h) /\
    (first_longest vs -> forall v, In v vs -> h_dpos h - 1 + wid v - before v <= h_width h))).
Definition one_of (h : hitem) (hist : list (str * str)) : Prop :=
  if h_seen h then fits h (vals hist (h_name h)) else True.
Record inv (g : xglob) (hist : list (str * str)) : Prop := {
  V1 : NoDup (map h_id (x_info g));
  V2 : forall h, In h (x_info g) -> (h_id h < x_next g)%nat;
  V3 : forall h, In h (x_info g) -> h_seen h = true -> dget (h_name h) (x_dict g) = Some (h_id h);
  V4 : forall k i, dget k (x_dict g) = Some i -> exists h, In h (x_info g) /\ h_id h = i /\ h_name h = k;
  V5 : forall h, In h (x_info g) -> wid (h_name h) <= h_width h;
  V6 : forall k, vals hist k <> [] -> exists h, In h (x_info g) /\ h_name h = k /\ h_seen h = true;
  V8 : forall h, In h (x_info g) -> h_seen h = true -> fits h (vals hist (h_name h)) }.

Lemma apply_inv v w f d s w' d' : applyPaddingAndJustification v w f d = Ok (s, w', d') ->
  (lrc f /\ w' = Z.max w (wid v) /\ d' = d) \/
  (f = $"D" /\ 0 <= d /\ (points v <= 1)%nat /\ d' = Z.max d (before v + 1) /\ w' = Z.max w (d' - 1 + wid v - before v)).
Proof.
  intro E. destruct (in_dec (list_eq_dec ascii_dec) f [$"L"; $"R"; $"C"]) as [I|NI].
  - left. split; [exact I|]. destruct (c16_LRC v w f d) as (a & b & E2 & _); [destruct I as [<-|[<-|[<-|[]]]]; auto|].
    rewrite E2 in E. apply Ok_inj in E. split; [exact (f_equal (fun x => snd (fst x)) (eq_sym E))|exact (f_equal snd (eq_sym E))].
  - right. destruct (list_eq_dec ascii_dec f $"D") as [->|ND].
    + rewrite apply_D in E. destruct (just_D _ _ _ _ _ _ E) as (D & P & a & b & _ & _ & -> & _ & ->). split; [reflexivity|]. split; [exact D|]. split; [exact P|]. split; reflexivity.
    + rewrite c16_bad in E; [discriminate E|intros ->; apply NI; now left|intros ->; apply NI; right; now left|intros ->; apply NI; right; right; now left|exact ND].
Qed.
Lemma wid_nn s : 0 <= wid s. Proof. unfold wid. lia. Qed.
Lemma before_le s : before s <= wid s.
Proof. unfold before, wid. induction s as [|c s IH]; [reflexivity|]. cbn [before_point]. destruct (ceqb c "."); cbn [length] in *; lia. Qed.
Lemma fits_first h v just n s w' d' i sn : 
  applyPaddingAndJustification v (h_width h) just n = Ok (s, w', d') ->
  fits {| h_id := i; h_name := h_name h; h_width := w'; h_fmt := just; h_dpos := d'; h_seen := sn |} [v].
Proof.
  intro E. split; [intro Q; discriminate Q|]. cbn [h_fmt h_width h_dpos].
  destruct (apply_inv _ _ _ _ _ _ _ E) as [(L & -> & ->)|(-> & D & P & -> & ->)].
  - left. split; [exact L|]. intros x [<-|[]]. lia.
  - right. split; [reflexivity|]. split; [lia|]. split.
    + intros x [<-|[]]. lia.
    + intros _ x [<-|[]]. lia.
Qed.
Lemma first_longest_snoc vs v : first_longest (vs ++ [v]) -> first_longest vs /\ (vs = [] \/ exists v0, In v0 vs /\ before v <= before v0).
Proof.
  destruct vs as [|v0 vs]; cbn [app first_longest]; [auto|]. rewrite Forall_app. intros [A B]. split; [exact A|]. right. exists v0. split; [now left|].
  apply Forall_inv in B. unfold before, wid. lia.
Qed.
Lemma fits_next h vs v s w' d' i sn : fits h vs ->
  applyPaddingAndJustification v (h_width h) (h_fmt h) (h_dpos h) = Ok (s, w', d') ->
  fits {| h_id := i; h_name := h_name h; h_width := w'; h_fmt := h_fmt h; h_dpos := d'; h_seen := sn |} (vs ++ [v]).
Proof.
  intros [N F] E. split; [destruct vs; intro Q; discriminate Q|]. cbn [h_fmt h_width h_dpos].
  destruct (apply_inv _ _ _ _ _ _ _ E) as [(L & -> & ->)|(Ef & D & P & Ed & Ew)].
  - left. split; [exact L|]. destruct F as [[_ F]|[Q _]]; [|rewrite Q in L; destruct L as [L|[L|[L|[]]]]; discriminate L].
    intros x I. apply in_app_or in I as [I|[<-|[]]]; [specialize (F x I)|]; lia.
  - right. destruct F as [[L _]|(_ & D0 & F1 & F2)]; [rewrite Ef in L; destruct L as [L|[L|[L|[]]]]; discriminate L|].
    split; [exact Ef|]. split; [lia|]. split.
    + intros x I. apply in_app_or in I as [I|[<-|[]]]; [specialize (F1 x I); lia|lia].
    + intros FL. apply first_longest_snoc in FL as [FL K]. destruct K as [K|(v0 & I0 & K)]; [contradiction|].
      assert (d' = h_dpos h) as Ed' by (specialize (F1 v0 I0); lia).
      intros x I. apply in_app_or in I as [I|[<-|[]]]; [specialize (F2 FL x I)|]; lia.
Qed.
(** one field of a record *)
Lemma see_item_fits h psv v h' vs : see_item h psv v = Ok h' -> (if h_seen h then fits h vs else vs = []) -> wid (h_name h) <= h_width h ->
  fits h' (vs ++ [v]) /\ h_id h' = h_id h /\ h_name h' = h_name h /\ h_seen h' = true /\ wid (h_name h') <= h_width h'.
Proof.
  unfold see_item. intros E F W.
  destruct (negb (smem (h_name h) psv) && negb (h_seen h) && smem (h_fmt h) [[]; $"R"; $"L"; $"RL"]) eqn:C.
  - destruct (h_seen h) eqn:S; [rewrite andb_false_r in C; cbn [andb] in C; discriminate C|]. rewrite F. cbn [app].
    assert (exists just n, match index_dot v with Some k => ($"D", Z.of_nat k + 1) | None => (h_fmt h, 0) end = (just, n)) as (just & n & Q) by (destruct (index_dot v); eauto).
    rewrite Q in E. destruct (applyPaddingAndJustification v (h_width h) just n) as [[[s w'] d']|e] eqn:A; [|discriminate E]. cbn [rbind] in E. apply Ok_inj in E. subst h'.
    split; [exact (fits_first h v just n s w' d' _ _ A)|]. cbn [h_id h_name h_seen h_width]. do 3 (split; [reflexivity|]).
    destruct (apply_inv _ _ _ _ _ _ _ A) as [(_ & -> & _)|(_ & _ & _ & _ & ->)]; lia.
  - destruct (applyPaddingAndJustification v (h_width h) (h_fmt h) (h_dpos h)) as [[[s w'] d']|e] eqn:A; [|discriminate E]. cbn [rbind] in E. apply Ok_inj in E. subst h'.
    split; [|cbn [h_id h_name h_seen h_width]; do 3 (split; [reflexivity|]); destruct (apply_inv _ _ _ _ _ _ _ A) as [(_ & -> & _)|(_ & _ & _ & _ & ->)]; lia].
    destruct (h_seen h); [now apply (fits_next h vs v s)|rewrite F; exact (fits_first h v _ _ s w' d' _ _ A)].
Qed.
Lemma get_item_some i l h : get_item i l = Some h -> In h l /\ h_id h = i.
Proof. unfold get_item. intro E. apply find_some in E as [A B]. apply Nat.eqb_eq in B. now split. Qed.
Lemma insert_last_In {A} (x y : A) l : In y (insert_last x l) <-> y = x \/ In y l.
Proof.
  induction l as [|a l IH]; [cbn; intuition congruence|]. destruct l as [|b l]; [cbn; intuition congruence|].
  change (insert_last x (a :: b :: l)) with (a :: insert_last x (b :: l)). cbn [In] in *. rewrite IH. intuition congruence.
Qed.
Lemma insert_last_nodup {A B} (f : A -> B) x l : NoDup (map f l) -> ~ In (f x) (map f l) -> NoDup (map f (insert_last x l)).
Proof.
  induction l as [|a l IH]; intros N I; [repeat constructor; auto|]. destruct l as [|b l].
  - cbn in *. constructor; [intros [Q|[]]; apply I; left; congruence|exact N].
  - change (insert_last x (a :: b :: l)) with (a :: insert_last x (b :: l)). cbn [map]. inversion N as [|? ? NI N']; subst. constructor.
    + intro K. apply in_map_iff in K as (y & E & K). apply insert_last_In in K as [->|K]; [apply I; left; congruence|]. apply NI. rewrite <- E. exact (in_map f (b :: l) y K).
    + apply IH; [exact N'|]. intro K. apply I. now right.
Qed.
Lemma index_before v j : index_dot v = Some j -> length (before_point v) = j.
Proof.
  unfold index_dot. revert j. induction v as [|c v IH]; intros j E; [discriminate E|]. cbn [cfind before_point] in *. destruct (ceqb c "."); [now injection E as <-|].
  destruct (cfind "." v) as [m|]; [|discriminate E]. injection E as <-. cbn [length]. now rewrite (IH m eq_refl).
Qed.
Lemma see_field_inv kv g g' hist : inv g hist -> see_field kv g = Ok g' -> inv g' (hist ++ [kv]) /\ x_data g' = x_data g.
Proof.
  intros G E. destruct kv as [k v]. unfold see_field in E. destruct (dget k (x_dict g)) as [i|] eqn:D.
  - destruct (V4 _ _ G k i D) as (h & I & Hi & Hn).
    assert (get_item i (x_info g) = Some h) as Q by (rewrite <- Hi; apply get_item_In; [exact (V1 _ _ G)|exact I]). rewrite Q in E.
    destruct (see_item h (x_psv g) v) as [h'|] eqn:S; [|discriminate E]. cbn [rbind] in E. apply Ok_inj in E. subst g'.
    assert (if h_seen h then fits h (vals hist k) else vals hist k = []) as F.
    { destruct (h_seen h) eqn:Sn; [rewrite <- Hn; now apply (V8 _ _ G)|]. destruct (vals hist k) eqn:L; [reflexivity|].
      destruct (V6 _ _ G k) as (h2 & I2 & N2 & S2); [rewrite L; intro Z; discriminate Z|].
      pose proof (V3 _ _ G h2 I2 S2) as D2. rewrite N2, D in D2. injection D2 as D2.
      assert (h2 = h) as ->; [|rewrite S2 in Sn; discriminate Sn].
      pose proof (get_item_In _ h2 (V1 _ _ G) I2) as G2. rewrite <- D2 in G2. rewrite Q in G2. now injection G2. }
    destruct (see_item_fits h (x_psv g) v h' (vals hist k) S F (V5 _ _ G h I)) as (F' & Ei & En & Es & Ew).
    split; [|reflexivity]. constructor; cbn [x_info x_dict x_next].
    + rewrite set_item_ids. exact (V1 _ _ G).
    + intros x J. apply set_item_In in J as [[-> (y & J & Ey)]|[J _]]; [rewrite <- Ey; now apply (V2 _ _ G)|now apply (V2 _ _ G)].
    + intros x J Sx. apply set_item_In in J as [[-> _]|[J _]]; [rewrite En, Ei, Hn, Hi; exact D|now apply (V3 _ _ G)].
    + intros q j Dq. destruct (V4 _ _ G q j Dq) as (y & J & Yi & Yn). destruct (Nat.eq_dec (h_id y) (h_id h')) as [Z|Z].
      * exists h'. split; [apply set_item_In; left; split; [reflexivity|exists y; split; [exact J|exact Z]]|]. split; [congruence|].
        rewrite En, Hn. assert (y = h) as -> by (pose proof (get_item_In _ y (V1 _ _ G) J) as G2; rewrite Z, Ei, Hi, Q in G2; now injection G2). congruence.
      * exists y. split; [apply set_item_In; right; now split|]. now split.
    + intros x J. apply set_item_In in J as [[-> _]|[J _]]; [exact Ew|now apply (V5 _ _ G)].
    + intros q L. rewrite vals_snoc in L. destruct (streqb k q) eqn:Kq.
      * apply streqb_eq in Kq. subst q. exists h'. split; [apply set_item_In; left; split; [reflexivity|exists h; split; [exact I|congruence]]|]. split; [congruence|exact Es].
      * destruct (V6 _ _ G q L) as (y & J & Yn & Ys). exists y. split; [|now split]. apply set_item_In. right. split; [exact J|].
        intro Z. assert (y = h) as -> by (pose proof (get_item_In _ y (V1 _ _ G) J) as G2; rewrite Z, Ei, Hi, Q in G2; now injection G2).
        rewrite <- Yn, Hn, streqb_refl in Kq. discriminate Kq.
    + intros x J Sx. rewrite vals_snoc. apply set_item_In in J as [[-> _]|[J NE]].
      * rewrite En, Hn, streqb_refl. exact F'.
      * destruct (streqb k (h_name x)) eqn:Kx; [|now apply (V8 _ _ G)]. exfalso. apply streqb_eq in Kx. apply NE. pose proof (V3 _ _ G x J Sx) as Dx. rewrite <- Kx, D in Dx. injection Dx as Dx. congruence.
  - assert (exists just n, match index_dot v with Some k => ($"D", Z.of_nat k + 1) | None => ($"R", 0) end = (just, n) /\ 
      (just = $"R" \/ just = $"D" /\ exists j, index_dot v = Some j /\ n = Z.of_nat j + 1)) as (just & n & Q & C).
    { destruct (index_dot v) as [j|]; do 2 eexists; (split; [reflexivity|]); [right; split; [reflexivity|exists j; now split]|now left]. }
    rewrite Q in E. apply Ok_inj in E. subst g'. split; [|reflexivity].
    assert (vals hist k = []) as L.
    { destruct (vals hist k) eqn:L; [reflexivity|]. destruct (V6 _ _ G k) as (h2 & I2 & N2 & S2); [rewrite L; intro Z; discriminate Z|].
      pose proof (V3 _ _ G h2 I2 S2) as D2. rewrite N2, D in D2. discriminate D2. }
    constructor; cbn [x_info x_dict x_next].
    + apply insert_last_nodup; [exact (V1 _ _ G)|]. cbn [h_id]. intro K. apply in_map_iff in K as (y & Ey & K). pose proof (V2 _ _ G y K). lia.
    + intros x J. apply insert_last_In in J as [->|J]; [cbn [h_id]; lia|]. pose proof (V2 _ _ G x J). lia.
    + intros x J Sx. apply insert_last_In in J as [->|J]; [cbn [h_name h_id]; apply dget_dset_eq|]. pose proof (V3 _ _ G x J Sx) as Dx.
      rewrite dget_dset_ne; [exact Dx|]. intro Z. first [rewrite Z in D | rewrite <- Z in D]; rewrite Dx in D; discriminate D.
    + intros q j Dq. destruct (list_eq_dec ascii_dec q k) as [->|NE].
      * rewrite dget_dset_eq in Dq. injection Dq as <-. eexists. split; [apply insert_last_In; left; reflexivity|]. split; reflexivity.
      * rewrite dget_dset_ne in Dq by congruence. destruct (V4 _ _ G q j Dq) as (y & J & Yi & Yn). exists y. split; [apply insert_last_In; now right|]. now split.
    + intros x J. apply insert_last_In in J as [->|J]; [cbn [h_name h_width]; unfold wid, zlen; lia|now apply (V5 _ _ G)].
    + intros q Lq. rewrite vals_snoc in Lq. destruct (streqb k q) eqn:Kq.
      * apply streqb_eq in Kq. subst q. eexists. split; [apply insert_last_In; left; reflexivity|]. split; reflexivity.
      * destruct (V6 _ _ G q Lq) as (y & J & Yn & Ys). exists y. split; [apply insert_last_In; now right|]. now split.
    + intros x J Sx. rewrite vals_snoc. apply insert_last_In in J as [->|J].
      * cbn [h_name]. rewrite streqb_refl, L. cbn [app]. split; [intro Z; discriminate Z|]. cbn [h_fmt h_width h_dpos].
        destruct C as [-> | [-> (j & Ej & ->)]].
        -- left. split; [right; now left|]. intros x [<-|[]]. unfold wid, zlen. lia.
        -- right. split; [reflexivity|]. split; [lia|]. apply index_before in Ej. split.
           ++ intros x [<-|[]]. unfold before, wid. lia.
           ++ intros _ x [<-|[]]. unfold before, wid, zlen. lia.
      * destruct (streqb k (h_name x)) eqn:Kx; [|now apply (V8 _ _ G)]. exfalso. apply streqb_eq in Kx. pose proof (V3 _ _ G x J Sx) as Dx. rewrite <- Kx, D in Dx. discriminate Dx.
Qed.
Lemma see_fields_inv : forall kvs g g' hist, inv g hist -> see_fields kvs g = Ok g' -> inv g' (hist ++ kvs) /\ x_data g' = x_data g.
Proof.
  induction kvs as [|kv kvs IH]; intros g g' hist G E; cbn [see_fields] in E.
  - apply Ok_inj in E. subst. rewrite app_nil_r. now split.
  - destruct (see_field kv g) as [g1|] eqn:F; [|discriminate E]. cbn [rbind] in E. destruct (see_field_inv _ _ _ _ G F) as [G1 D1].
    destruct (IH g1 g' (hist ++ [kv]) G1 E) as [G2 D2]. rewrite <- app_assoc in G2. split; [exact G2|congruence].
Qed.
(** a new header *)
Definition fresh (g : xglob) : Prop :=
  NoDup (map h_id (x_info g)) /\ (forall h, In h (x_info g) -> (h_id h < x_next g)%nat /\ h_seen h = false /\ wid (h_name h) <= h_width h) /\
  (forall k i, dget k (x_dict g) = Some i -> exists h, In h (x_info g) /\ h_id h = i /\ h_name h = k).
Lemma fresh_inv g : fresh g -> inv g [].
Proof.
  intros (A & B & C). constructor; [exact A|intros h I; now destruct (B h I)| |exact C|intros h I; now destruct (B h I)| |].
  - intros h I S. destruct (B h I) as (_ & S' & _). rewrite S in S'. discriminate S'.
  - intros k K. now destruct K.
  - intros h I S. destruct (B h I) as (_ & S' & _). rewrite S in S'. discriminate S'.
Qed.
Lemma items_facts fs : forall i, NoDup (map h_id (items_from i fs)) /\
  forall h, In h (items_from i fs) -> (i <= h_id h < i + length fs)%nat /\ h_seen h = false /\ wid (h_name h) <= h_width h.
Proof.
  induction fs as [|j fs IH]; intro i; [split; [constructor|intros h []]|]. cbn [items_from map]. destruct (IH (S i)) as [A B]. split.
  - constructor; [|exact A]. cbn [header_item h_id]. intro K. apply in_map_iff in K as (y & Ey & K). destruct (B y K) as [C _]. lia.
  - intros h [<-|I].
    + cbn [header_item h_id h_seen h_name h_width length]. split; [lia|]. split; [reflexivity|]. change (zlen (p_name j)) with (wid (p_name j)). destruct (Z.ltb_spec (p_width j) (wid (p_name j))); lia.
    + destruct (B h I) as (C & D). cbn [length]. split; [lia|exact D].
Qed.
Lemma dict_of_In l : forall d k i, dget k (fold_left (fun d h => dset (h_name h) (h_id h) d) l d) = Some i ->
  (exists h, In h l /\ h_id h = i /\ h_name h = k) \/ dget k d = Some i.
Proof.
  induction l as [|h l IH]; intros d k i E; [now right|]. cbn [fold_left] in E. apply IH in E as [(y & I & Y)|E]; [left; exists y; split; [now right|exact Y]|].
  destruct (list_eq_dec ascii_dec k (h_name h)) as [->|N].
  - rewrite dget_dset_eq in E. injection E as <-. left. exists h. split; [now left|]. now split.
  - rewrite dget_dset_ne in E by congruence. now right.
Qed.
Lemma add_allowed_fresh j g : fresh g -> fresh (add_allowed j g).
Proof.
  unfold add_allowed. destruct (smem j (x_psv g)); [auto|]. intros (A & B & C). split; [|split]; cbn [x_info x_dict x_next].
  - apply insert_last_nodup; [exact A|]. cbn [h_id]. intro K. apply in_map_iff in K as (y & Ey & K). destruct (B y K). lia.
  - intros h I. apply insert_last_In in I as [->|I]; [cbn; unfold wid, zlen; repeat split; lia|]. destruct (B h I) as (B1 & B2). split; [lia|exact B2].
  - intros k i D. destruct (list_eq_dec ascii_dec k j) as [->|N].
    + rewrite dget_dset_eq in D. injection D as <-. eexists. split; [apply insert_last_In; left; reflexivity|]. split; reflexivity.
    + rewrite dget_dset_ne in D by congruence. destruct (C k i D) as (y & I & Y). exists y. split; [apply insert_last_In; now right|exact Y].
Qed.
Lemma new_header_fresh T tag g g' : new_header T tag g = Ok g' -> fresh g' /\ x_data g' = [].
Proof.
  unfold new_header. destruct (dget tag (psvFormat T)) as [fs|]; [|intro H; discriminate H]. destruct (dget tag (allowed T)) as [al|]; [|intro H; discriminate H].
  intro H. apply Ok_inj in H. subst g'. split; [|reflexivity].
  assert (fresh {| x_info := items_from (x_next g) fs; x_dict := dict_of (items_from (x_next g) fs); x_psv := map p_name fs; x_data := x_data g; x_next := (x_next g + length fs)%nat |}) as F0.
  { destruct (items_facts fs (x_next g)) as [A B]. split; [exact A|]. cbn [x_info x_dict x_next]. split.
    - intros h I. destruct (B h I) as (C & D). split; [lia|exact D].
    - intros k i E. apply dict_of_In in E as [E|E]; [exact E|discriminate E]. }
  revert F0. match goal with |- fresh ?x -> _ => generalize x end. induction al as [|j al IH]; intros g0 F0; cbn [fold_left]; [|apply IH, add_allowed_fresh, F0].
  destruct F0 as (A & B & C). split; [exact A|]. split; [exact B|exact C].
Qed.
