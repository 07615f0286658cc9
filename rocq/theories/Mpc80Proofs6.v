From Verif Require Import FmtRe PyStrProofs PackProofs13 PackProofs14 PyReProofs.
From Verif Require Import Mpc80.
From Verif Require Export Mpc80Proofs5.
Local Open Scope nat_scope.

(** * Blank lines *)
Lemma spaces_iff l : forallb (fun c => ceqb c " ") l = true <-> l = spaces (length l).
Proof.
  induction l as [|c l IH]; cbn [forallb length]; [tauto|].
  change (spaces (S (length l))) with (" "%char :: spaces (length l)). rewrite andb_true_iff, ceqb_eq. split.
  - intros [-> H]. f_equal. tauto.
  - intros H. injection H as -> H. tauto.
Qed.
Lemma forallb_ext' {A} (f g : A -> bool) l : (forall x, f x = g x) -> forallb f l = forallb g l.
Proof. intros H. induction l as [|x l IH]; cbn; auto. now rewrite H, IH. Qed.
Lemma blank_yes l : l = spaces (length l) -> re_match blankRegex l <> None.
Proof.
  intros E. apply spaces_iff in E.
  assert (re_match blankRegex l = Some []) as ->; [|discriminate].
  unfold re_match, blankRegex. cbn [mtch]. apply rep_all; [|reflexivity].
  refine (eq_trans _ E). apply forallb_ext'. intros c. apply (incls_one " " c).
Qed.
Lemma blank_no l : ~ In nl l -> re_match blankRegex l <> None -> l = spaces (length l).
Proof.
  intros NL H. apply spaces_iff.
  unfold re_match, blankRegex in H. cbn [mtch] in H.
  destruct (rep _ 0 None l _) as [x|] eqn:R; [|congruence]. clear H.
  apply rep_sound in R as (s' & R1 & R2). 
  assert (s' = []) as ->.
  { apply reprel_suffix in R1 as (w & -> & _). destruct s' as [|c [|]]; auto; [|discriminate].
    destruct (ceqb c nl) eqn:E; [|discriminate]. apply ceqb_eq in E as ->. exfalso. apply NL. apply in_or_app. cbn. auto. }
  apply reprel_suffix in R1 as (w & E & W & _). rewrite app_nil_r in E. subst w.
  refine (eq_trans _ W). apply forallb_ext'. intros c. symmetry. apply (incls_one " " c).
Qed.

(** * Decoded lines *)
Definition decoded (d : item) : Prop := exists l, decodes l d /\ l <> [].
Definition kinds_first : str := $"RSV".
Lemma kind_char f kinds l : laid_out f l -> length (flat f) = 80 -> nth_error (flat f) 14 = Some (one_of kinds) ->
  exists c, cols 15 15 l = [c] /\ cmem c kinds = true.
Proof.
  intros F L N. apply laid_out_fitp in F. pose proof (lay80 _ _ F L) as L8.
  destruct (kind_of _ _ _ F N) as (c & H1 & H2). destruct (nth_cols 14 l) as (c' & N' & C); [lia|].
  rewrite H1 in N'. injection N' as <-. eauto.
Qed.
Definition all_kinds : str := $"A PeCBTMcEOHNnSVXxRrsv0".
Lemma decoded_code d : decoded d -> exists c, dget $"code" d = Some (@Some str [c]) /\ cmem c all_kinds = true.
Proof.
  assert (forall k, forallb (fun c => implb (cmem c k) (cmem c all_kinds)) allascii = true -> forall c, cmem c k = true -> cmem c all_kinds = true) as SUB.
  { intros k A c H. pose proof (forall_ascii _ A c) as X. cbn in X. now rewrite H in X. }
  intros (l & H & NE).
  destruct H as [k v Le I E|t p perm prov trk ra pra de pde NH F A0 R0 DE
                            |t p perm prov trk shift NH F A0 S|t p perm prov trk NH F A0
                            |t p perm prov trk x y z dp sys NH F A0 SY P1 P2 P3|t p perm prov trk NH F A0|E].
  - exists "0"%char. split; reflexivity.
  - destruct (kind_char _ _ _ F eq_refl eq_refl) as (c & C & K). exists c. split; [now rewrite <- C|].
    revert K. apply SUB. vm_compute. reflexivity.
  - destruct (kind_char _ _ _ F eq_refl eq_refl) as (c & C & K). exists c. split; [now rewrite <- C|].
    revert K. apply SUB. vm_compute. reflexivity.
  - destruct (kind_char _ _ _ F eq_refl eq_refl) as (c & C & K). exists c. split; [now rewrite <- C|].
    revert K. apply SUB. vm_compute. reflexivity.
  - destruct (kind_char _ _ _ F eq_refl eq_refl) as (c & C & K). exists c. split; [now rewrite <- C|].
    revert K. apply SUB. vm_compute. reflexivity.
  - destruct (kind_char _ _ _ F eq_refl eq_refl) as (c & C & K). exists c. split; [now rewrite <- C|].
    revert K. apply SUB. vm_compute. reflexivity.
  - contradiction.
Qed.
Lemma is_kind_char d c x : dget $"code" d = Some (@Some str [c]) -> is_kind (String x EmptyString) d = ceqb c x.
Proof. intros H. unfold is_kind, text_of. rewrite H. cbn. now rewrite andb_true_r. Qed.

(** what the kind says about the dictionary *)
Lemma decoded_kind d c : decoded d -> dget $"code" d = Some (@Some str [c]) ->
  (c = "R"%char -> exists l t p perm prov trk shift,
     d = iapp (iapp (radar1_dict l shift) (texts (time_fields t p))) (iapp (texts [($"astCat", cols 72 72 l)]) (designation perm prov trk))) /\
  (c = "r"%char -> exists l t p perm prov trk, (cols 33 33 l = $"S" \/ cols 33 33 l = $"C") /\
     d = iapp (iapp (radar2_dict l) (texts (time_fields t p))) (iapp (texts [($"astCat", cols 72 72 l)]) (designation perm prov trk))) /\
  (c = "S"%char \/ c = "V"%char -> exists l t p perm prov trk ra pra de pde,
     d = iapp (optical_dict l t p ra pra de pde) (iapp (texts [($"astCat", cols 72 72 l)]) (designation perm prov trk))) /\
  (c = "s"%char -> exists l t p perm prov trk x y z sys,
     d = iapp (iapp (satellite_dict l x y z sys) (texts (time_fields t p))) (iapp (texts [($"astCat", cols 72 72 l)]) (designation perm prov trk))) /\
  (c = "v"%char -> exists l t p perm prov trk,
     d = iapp (iapp (rover_dict l) (texts (time_fields t p))) (iapp (texts [($"astCat", cols 72 72 l)]) (designation perm prov trk))).
Proof.
  intros (l & H & NE) C.
  assert (forall k c' (l : str), cols 15 15 l = [c'] -> cmem c' k = true -> Some (Some (cols 15 15 l)) = Some (@Some str [c]) -> cmem c k = true) as TR.
  { intros k c' l' E1 E2 E3. rewrite E1 in E3. injection E3 as <-. exact E2. }
  destruct H as [k v Le I E|t p perm prov trk ra pra de pde NH F A0 R0 DE
                            |t p perm prov trk shift NH F A0 S|t p perm prov trk NH F A0
                            |t p perm prov trk x y z dp sys NH F A0 SY P1 P2 P3|t p perm prov trk NH F A0|E].
  - assert (c = "0"%char) as -> by (symmetry; injection C; auto). repeat split; intros X; try discriminate X. destruct X; discriminate.
  - destruct (kind_char _ _ _ F eq_refl eq_refl) as (c' & C' & K).
    assert (cmem c $"A PeCBTMcEOHNnSVXx" = true) as CM by (exact (TR _ _ _ C' K C)).
    repeat split; intros X; try (subst c; discriminate CM). exists l, t, p, perm, prov, trk, ra, pra, de, pde. reflexivity.
  - destruct (kind_char _ _ _ F eq_refl eq_refl) as (c' & C' & K).
    assert (cmem c $"R" = true) as CM by (exact (TR _ _ _ C' K C)).
    repeat split; intros X; try (subst c; discriminate CM). 
    + exists l, t, p, perm, prov, trk, shift. reflexivity.
    + destruct X; subst c; discriminate CM.
  - destruct (kind_char _ _ _ F eq_refl eq_refl) as (c' & C' & K).
    assert (cmem c $"r" = true) as CM by (exact (TR _ _ _ C' K C)).
    repeat split; intros X; try (subst c; discriminate CM).
    + exists l, t, p, perm, prov, trk. split; [|reflexivity]. apply laid_out_fitp in F.
      assert (forallb (one_of $"SC") (cols 33 33 l) = true) as SC by fclass F.
      destruct (nth_cols 32 l) as (c2 & _ & C2); [rewrite (lay80 _ _ F); auto; lia|]. rewrite C2 in SC |- *.
      cbn [forallb] in SC. rewrite andb_true_r in SC. revert c2 SC C2.
      assert (forall c, implb (one_of $"SC" c) (ceqb c "S" || ceqb c "C") = true) as H by (apply forall_ascii; vm_compute; reflexivity).
      intros c2 SC _. specialize (H c2). rewrite SC in H. cbn in H. apply orb_prop in H as [H|H]; apply ceqb_eq in H; subst; auto.
    + destruct X; subst c; discriminate CM.
  - destruct (kind_char _ _ _ F eq_refl eq_refl) as (c' & C' & K).
    assert (cmem c $"s" = true) as CM by (exact (TR _ _ _ C' K C)).
    repeat split; intros X; try (subst c; discriminate CM).
    + destruct X; subst c; discriminate CM.
    + exists l, t, p, perm, prov, trk, x, y, z, sys. reflexivity.
  - destruct (kind_char _ _ _ F eq_refl eq_refl) as (c' & C' & K).
    assert (cmem c $"v" = true) as CM by (exact (TR _ _ _ C' K C)).
    repeat split; intros X; try (subst c; discriminate CM).
    + destruct X; subst c; discriminate CM.
    + exists l, t, p, perm, prov, trk. reflexivity.
  - contradiction.
Qed.

(** * Joining two lines *)
Lemma streqb_sym (a b : str) : streqb a b = streqb b a.
Proof.
  destruct (streqb b a) eqn:E.
  - apply streqb_eq in E as ->. apply streqb_refl.
  - destruct (streqb a b) eqn:F; auto. apply streqb_eq in F as ->. rewrite streqb_refl in E. discriminate.
Qed.
Lemma merge_R la ta pa perma prova trka shift lb tb pb permb provb trkb :
  (cols 33 33 lb = $"S" \/ cols 33 33 lb = $"C") -> cols 15 15 la = $"R" ->
  let a := iapp (iapp (radar1_dict la shift) (texts (time_fields ta pa))) (iapp (texts [($"astCat", cols 72 72 la)]) (designation perma prova trka)) in
  let b := iapp (iapp (radar2_dict lb) (texts (time_fields tb pb))) (iapp (texts [($"astCat", cols 72 72 lb)]) (designation permb provb trkb)) in
  merge $"R" b a = if same_record a b then Ok (joined a b) else Err NameError.
Proof.
  intros SC K a b. unfold merge.
  assert (same_record a b = streqb (cols 1 12 lb) (cols 1 12 la) && streqb (cols 16 32 lb) (cols 16 32 la) &&
     streqb (cols 78 80 lb) (cols 78 80 la) && streqb (cols 69 71 lb) (cols 69 71 la)) as ->.
  { unfold same_record. assert (is_kind "R" a = true) as -> by (unfold is_kind; change (text_of a $"code") with (cols 15 15 la); rewrite K; reflexivity).
    rewrite (streqb_sym (cols 1 12 lb)), (streqb_sym (cols 16 32 lb)), (streqb_sym (cols 78 80 lb)), (streqb_sym (cols 69 71 lb)). reflexivity. }
  change (same_field $"totalid" b a) with (Ok (streqb (cols 1 12 lb) (cols 1 12 la))). cbn [rbind].
  destruct (streqb (cols 1 12 lb) (cols 1 12 la)); cbn [rbind andb negb]; [|reflexivity].
  change (same_field $"date" b a) with (Ok (streqb (cols 16 32 lb) (cols 16 32 la))). cbn [rbind].
  destruct (streqb (cols 16 32 lb) (cols 16 32 la)); cbn [rbind andb negb]; [|reflexivity].
  change (same_field $"stn" b a) with (Ok (streqb (cols 78 80 lb) (cols 78 80 la))). cbn [rbind].
  destruct (streqb (cols 78 80 lb) (cols 78 80 la)); cbn [rbind andb negb]; [|reflexivity].
  change (streqb $"R" $"R") with true. cbv iota.
  change (same_field $"trx" b a) with (Ok (streqb (cols 69 71 lb) (cols 69 71 la))). cbn [rbind].
  destruct (streqb (cols 69 71 lb) (cols 69 71 la)); cbn [rbind andb negb]; [|reflexivity].
  change (iget $"sc" b) with (Ok (cols 33 33 lb)). cbn [rbind].
  unfold joined. assert (is_kind "R" a = true) as -> by (unfold is_kind; change (text_of a $"code") with (cols 15 15 la); rewrite K; reflexivity).
  change (text_of b $"sc") with (cols 33 33 lb).
  destruct SC as [-> | ->]; reflexivity.
Qed.
