(** Meta-theory of the regular-expression matcher.

    1. A declarative semantics [Mat r s c s' c'] ("r can match a prefix of s,
       leaving s', extending the captures c to c'") and the proof that
       [re_match] succeeds exactly when a declarative match exists, and returns
       the captures of one.
    2. A symbolic matcher, run by the kernel's evaluator on the SHAPE of a
       string (which character classes its characters belong to), with a
       soundness proof: used to evaluate a pattern on infinitely many strings. *)
From Verif Require Export PyRe PyStrProofs.

(** * Declarative semantics *)
Inductive RepRel (k : ascii -> bool) : nat -> option nat -> str -> str -> Prop :=
| rep_stop mx s : RepRel k O mx s s
| rep_more mn mx c s s' : mx <> Some O -> k c = true ->
    RepRel k (Nat.pred mn) (option_map Nat.pred mx) s s' -> RepRel k mn mx (c :: s) s'.

Inductive Mat : re -> str -> caps -> str -> caps -> Prop :=
| m_eps s c : Mat REps s c s c
| m_cls k x s c : incls k x = true -> Mat (RCls k) (x :: s) c s c
| m_seq a b s c s1 c1 s2 c2 : Mat a s c s1 c1 -> Mat b s1 c1 s2 c2 -> Mat (RSeq a b) s c s2 c2
| m_altl a b s c s' c' : Mat a s c s' c' -> Mat (RAlt a b) s c s' c'
| m_altr a b s c s' c' : Mat b s c s' c' -> Mat (RAlt a b) s c s' c'
| m_rep k mn mx s c s' : RepRel (incls k) mn mx s s' -> Mat (RRep k mn mx) s c s' c
| m_grp i r s c s' c' : Mat r s c s' c' ->
    Mat (RGrp i r) s c s' ((i, firstn (length s - length s') s) :: c')
| m_eos0 c : Mat REos [] c [] c
| m_eos1 c : Mat REos [nl] c [nl] c.

Lemma rep_sound {A} k (kont : str -> option A) s : forall mn mx x,
  rep k mn mx s kont = Some x -> exists s', RepRel k mn mx s s' /\ kont s' = Some x.
Proof.
  induction s as [|c s IH]; intros mn mx x H.
  - assert (match mn with O => kont [] | S _ => None end = Some x) as H'
      by (cbn in H; destruct mx as [[|]|]; exact H).
    destruct mn; [|discriminate]. exists []. split; [constructor|exact H'].
  - destruct mx as [[|m]|].
    + cbn in H. destruct mn; [|discriminate]. eexists; split; [constructor|exact H].
    + cbn in H. destruct (k c) eqn:Hk.
      * destruct (rep k (Nat.pred mn) (Some m) s kont) eqn:E.
        -- injection H as ->. apply IH in E as (s' & Hr & Hs). exists s'. split; [|exact Hs].
           constructor; [discriminate|exact Hk|exact Hr].
        -- destruct mn; [|discriminate]. eexists; split; [constructor|exact H].
      * destruct mn; [|discriminate]. eexists; split; [constructor|exact H].
    + cbn in H. destruct (k c) eqn:Hk.
      * destruct (rep k (Nat.pred mn) None s kont) eqn:E.
        -- injection H as ->. apply IH in E as (s' & Hr & Hs). exists s'. split; [|exact Hs].
           constructor; [discriminate|exact Hk|exact Hr].
        -- destruct mn; [|discriminate]. eexists; split; [constructor|exact H].
      * destruct mn; [|discriminate]. eexists; split; [constructor|exact H].
Qed.

Lemma mtch_sound {A} r : forall s c (kont : str -> caps -> option A) x,
  mtch r s c kont = Some x -> exists s' c', Mat r s c s' c' /\ kont s' c' = Some x.
Proof.
  induction r as [|k|a IHa b IHb|a IHa b IHb|k mn mx|i r IH|]; intros s c kont x H; cbn in H.
  - exists s, c. split; [constructor|exact H].
  - destruct s as [|y s]; [discriminate|]. destruct (incls k y) eqn:E; [|discriminate].
    exists s, c. split; [now constructor|exact H].
  - apply IHa in H as (s1 & c1 & Ha & H). apply IHb in H as (s2 & c2 & Hb & H).
    exists s2, c2. split; [econstructor; eauto|exact H].
  - destruct (mtch a s c kont) eqn:E.
    + injection H as ->. apply IHa in E as (s1 & c1 & Ha & H). exists s1, c1. split; [now constructor|exact H].
    + apply IHb in H as (s1 & c1 & Ha & H). exists s1, c1. split; [now apply m_altr|exact H].
  - apply rep_sound in H as (s' & Hr & H). exists s', c. split; [now constructor|exact H].
  - apply IH in H as (s1 & c1 & Ha & H). eexists _, _. split; [constructor; exact Ha|exact H].
  - destruct s as [|y [|z s]]; try discriminate.
    + exists [], c. split; [constructor|exact H].
    + cbn in H. destruct (ceqb y nl) eqn:E; [|discriminate]. apply ceqb_eq in E. subst.
      exists [nl], c. split; [constructor|exact H].
Qed.

Lemma rep_complete {A} k (kont : str -> option A) mn mx s s' :
  RepRel k mn mx s s' -> kont s' <> None -> rep k mn mx s kont <> None.
Proof.
  induction 1 as [mx s|mn mx c s s' Hm Hk Hr IH]; intro Hs.
  - destruct s as [|c s]; cbn.
    + destruct mx as [[|]|]; exact Hs.
    + destruct mx as [[|m]|]; [exact Hs| |];
        (destruct (k c); [|exact Hs]; match goal with |- context [match ?X with Some _ => _ | None => _ end] => destruct X end; [discriminate|exact Hs]).
  - specialize (IH Hs). cbn. destruct mx as [[|m]|]; [congruence| |]; rewrite Hk; cbn in IH;
      destruct (rep k (Nat.pred mn) _ s kont); congruence.
Qed.

Lemma mtch_complete {A} r s c s' c' : Mat r s c s' c' ->
  forall (kont : str -> caps -> option A), kont s' c' <> None -> mtch r s c kont <> None.
Proof.
  induction 1; intros kont Hk; cbn; auto.
  - rewrite H. exact Hk.
  - specialize (IHMat kont Hk). destruct (mtch a s c kont); [discriminate|congruence].
  - specialize (IHMat kont Hk). destruct (mtch a s c kont); [discriminate|exact IHMat].
  - eapply rep_complete; eauto.
Qed.

(** re_match succeeds iff a declarative match exists *)
Theorem re_match_iff r s : re_match r s <> None <-> exists s' c', Mat r s [] s' c'.
Proof.
  split.
  - intro H. unfold re_match in H. destruct (mtch r s [] _) eqn:E; [|congruence].
    apply mtch_sound in E as (s' & c' & Hm & _). eauto.
  - intros (s' & c' & Hm). unfold re_match. eapply mtch_complete; [exact Hm|discriminate].
Qed.
Lemma re_match_mat r s g : re_match r s = Some g -> exists s', Mat r s [] s' g.
Proof.
  intro H. apply mtch_sound in H as (s' & c' & Hm & E). injection E as ->. eauto.
Qed.
Lemma re_match_none r s : (forall s' c', ~ Mat r s [] s' c') -> re_match r s = None.
Proof.
  intro H. destruct (re_match r s) eqn:E; [|reflexivity].
  apply re_match_mat in E as (s' & Hm). exfalso. eapply H; eauto.
Qed.

(** what remains after a match is a suffix *)
Lemma reprel_suffix k mn mx s s' : RepRel k mn mx s s' ->
  exists p, s = p ++ s' /\ forallb k p = true /\ (mn <= length p)%nat /\
            match mx with Some m => (mn <= m -> length p <= m)%nat | None => True end.
Proof.
  induction 1 as [mx s|mn mx c s s' Hm Hk Hr (p & E & Hp & Hl & Hx)].
  - exists []. repeat split; cbn; try lia. destruct mx; [cbn; lia|trivial].
  - exists (c :: p). cbn. rewrite E, Hk, Hp. repeat split; try lia.
    destruct mx as [[|m]|]; [congruence| |trivial]. cbn in Hx. lia.
Qed.
Lemma mat_suffix r s c s' c' : Mat r s c s' c' -> exists p, s = p ++ s'.
Proof.
  induction 1 as [| | ? ? ? ? ? ? ? ? ? [p1 ->] ? [p2 ->] | ? ? ? ? ? ? ? [p ->] | ? ? ? ? ? ? ? [p ->]
                  | ? ? ? ? ? ? H | ? ? ? ? ? ? ? [p ->] | | ].
  - now exists [].
  - now exists [x].
  - exists (p1 ++ p2). now rewrite app_assoc.
  - now exists p.
  - now exists p.
  - apply reprel_suffix in H as (p & -> & _). now exists p.
  - now exists p.
  - now exists [].
  - now exists [].
Qed.
Lemma grp_val (p s' : str) : firstn (length (p ++ s') - length s') (p ++ s') = p.
Proof.
  rewrite app_length. replace (length p + length s' - length s')%nat with (length p) by lia.
  rewrite firstn_app, Nat.sub_diag, firstn_all, firstn_O, app_nil_r. reflexivity.
Qed.

(** * Symbolic matching *)
Inductive item := One (k : cls) | Many (k : cls).   (* Many: one or more *)
Definition piece : Type := item * str.
Definition confb (p : piece) : bool :=
  match p with
  | (One k, [x]) => incls k x
  | (Many k, _ :: _) => forallb (incls k) (snd p)
  | _ => false
  end.
Definition conf (p : piece) : Prop := confb p = true.
Definition flat (s : list piece) : str := concat (map snd s).
Definition scaps := list (nat * list piece).
Definition cflat (c : scaps) : caps := map (fun p => (fst p, flat (snd p))) c.

(** inclusion / disjointness of classes: decided on the ranges when neither is
    negated, by enumeration otherwise *)
Definition csub (a b : cls) : bool :=
  if c_neg a || c_neg b then forallb (fun x => implb (incls a x) (incls b x)) allascii
  else forallb (fun r => existsb (fun q => cle (fst q) (fst r) && cle (snd r) (snd q)) (c_rs b)) (c_rs a).
Definition cdis (a b : cls) : bool :=
  if c_neg a || c_neg b then forallb (fun x => implb (incls a x) (negb (incls b x))) allascii
  else forallb (fun r => forallb (fun q => negb (cle (fst q) (snd r) && cle (fst r) (snd q))) (c_rs b)) (c_rs a).
Definition k_nl : cls := Cl false [(nl, nl)].
#[global] Arguments csub : simpl never.
#[global] Arguments cdis : simpl never.
#[global] Arguments k_nl : simpl never.
#[global] Arguments allascii : simpl never.

Lemma csub_ok a b x : csub a b = true -> incls a x = true -> incls b x = true.
Proof.
  intros H. unfold csub in H. destruct (c_neg a || c_neg b) eqn:E.
  - revert x. now apply impl_ascii.
  - apply orb_false_iff in E as [E1 E2]. unfold incls, inr. rewrite E1, E2.
    rewrite !Bool.xorb_false_l. intro Hx. apply existsb_exists in Hx as (r & Hr & Hx).
    rewrite forallb_forall in H. specialize (H r Hr). apply existsb_exists in H as (q & Hq & H).
    apply existsb_exists. exists q. split; [exact Hq|]. unfold cle in *. lia.
Qed.
Lemma cdis_ok a b x : cdis a b = true -> incls a x = true -> incls b x = false.
Proof.
  intros H. unfold cdis in H. destruct (c_neg a || c_neg b) eqn:E.
  - revert x. now apply implf_ascii.
  - apply orb_false_iff in E as [E1 E2]. unfold incls, inr. rewrite E1, E2.
    rewrite !Bool.xorb_false_l. intro Hx. apply existsb_exists in Hx as (r & Hr & Hx).
    rewrite forallb_forall in H. specialize (H r Hr). rewrite forallb_forall in H.
    destruct (existsb _ (c_rs b)) eqn:F; [|reflexivity]. exfalso.
    apply existsb_exists in F as (q & Hq & F). specialize (H q Hq). unfold cle in *. lia.
Qed.
Lemma k_nl_ok x : incls k_nl x = ceqb x nl.
Proof.
  assert (forall x, Bool.eqb (incls k_nl x) (ceqb x nl) = true) as H
    by (apply forall_ascii; vm_compute; reflexivity).
  apply Bool.eqb_prop, H.
Qed.

Section SNo.
  (** definitely no match, for every string of the shape *)
  Fixpoint srepno (k : cls) (mn : nat) (mx : option nat) (s : list item) (kno : list item -> bool) : bool :=
    let stop := match mn with O => kno s | S _ => true end in
    match mx with
    | Some O => stop
    | _ =>
      match s with
      | [] => stop
      | One c :: s' => stop && (cdis c k || srepno k (Nat.pred mn) (option_map Nat.pred mx) s' kno)
      | Many c :: s' => if cdis c k then stop else kno s && srepno k O None s' kno
      end
    end.
  Fixpoint sno (r : re) (s : list item) (kno : list item -> bool) : bool :=
    match r with
    | REps => kno s
    | RCls k => match s with
                | [] => true
                | One c :: s' => cdis c k || kno s'
                | Many c :: s' => cdis c k || (kno s' && kno s)
                end
    | RSeq a b => sno a s (fun s' => sno b s' kno)
    | RAlt a b => sno a s kno && sno b s kno
    | RRep k mn mx => srepno k mn mx s kno
    | RGrp _ r => sno r s kno
    | REos => match s with
              | [] => kno []
              | [One c] => cdis c k_nl || kno s
              | [Many c] => cdis c k_nl || kno s
              | _ => true
              end
    end.
End SNo.

Definition items (s : list piece) : list item := map fst s.

(** the concrete remainder [t] has the symbolic shape [s] *)
Definition shape (s : list item) (t : str) : Prop :=
  exists ps, items ps = s /\ Forall conf ps /\ flat ps = t.

Lemma shape_nil t : shape [] t -> t = [].
Proof. intros (ps & E & _ & <-). destruct ps; [reflexivity|discriminate]. Qed.
Lemma shape_one c s t : shape (One c :: s) t -> exists x t', t = x :: t' /\ incls c x = true /\ shape s t'.
Proof.
  intros (ps & E & F & <-). destruct ps as [|[i v] ps]; [discriminate|].
  injection E as -> E. inversion F as [|? ? Hc F']; subst.
  destruct v as [|x [|]]; try discriminate Hc. exists x, (flat ps). repeat split; auto. exists ps. auto.
Qed.
Lemma shape_many c s t : shape (Many c :: s) t ->
  exists x t', t = x :: t' /\ incls c x = true /\ (shape s t' \/ shape (Many c :: s) t').
Proof.
  intros (ps & E & F & <-). destruct ps as [|[i v] ps]; [discriminate|].
  injection E as -> E. inversion F as [|? ? Hc F']; subst.
  destruct v as [|x v]; [discriminate Hc|]. unfold conf, confb in Hc. cbn [snd] in Hc.
  cbn in Hc. apply andb_prop in Hc as [Hx Hv].
  exists x, (v ++ flat ps). repeat split; auto. destruct v as [|y v].
  - left. exists ps. auto.
  - right. exists ((Many c, y :: v) :: ps). repeat split; auto.
Qed.

Lemma srepno_ok {A} k (ck : str -> option A) kno :
  (forall s t, shape s t -> kno s = true -> ck t = None) ->
  forall s mn mx t, shape s t -> srepno k mn mx s kno = true -> rep (incls k) mn mx t ck = None.
Proof.
  intro Hk. induction s as [|it s IH]; intros mn mx t Hs H.
  - assert (match mn with O => kno [] | S _ => true end = true) as H'
      by (cbn in H; destruct mx as [[|]|]; exact H).
    apply shape_nil in Hs as E. subst t. cbn. destruct mn.
    + destruct mx as [[|]|]; apply (Hk _ _ Hs H').
    + destruct mx as [[|]|]; reflexivity.
  - destruct it as [c|c].
    + pose proof (shape_one _ _ _ Hs) as (x & t' & -> & Hx & Hs').
      assert ((match mn with O => kno (One c :: s) | S _ => true end) = true ->
              (match mn with O => ck (x :: t') | S _ => None end) = None) as Hstop.
      { destruct mn; [|reflexivity]. apply (Hk _ _ Hs). }
      destruct mx as [[|m]|].
      * cbn in H |- *. now apply Hstop.
      * cbn in H |- *. apply andb_prop in H as [H1 H2]. specialize (Hstop H1).
        destruct (incls k x) eqn:Ex; [|exact Hstop].
        apply orb_prop in H2 as [H2|H2]; [rewrite (cdis_ok _ _ _ H2 Hx) in Ex; discriminate|].
        rewrite (IH _ _ _ Hs' H2). exact Hstop.
      * cbn in H |- *. apply andb_prop in H as [H1 H2]. specialize (Hstop H1).
        destruct (incls k x) eqn:Ex; [|exact Hstop].
        apply orb_prop in H2 as [H2|H2]; [rewrite (cdis_ok _ _ _ H2 Hx) in Ex; discriminate|].
        rewrite (IH _ _ _ Hs' H2). exact Hstop.
    + (* Many *)
      assert (forall mn mx, kno (Many c :: s) = true -> srepno k O None s kno = true ->
                rep (incls k) mn mx t ck = None) as Hgen.
      { intros mn0 mx0 H1 H2.
        (* any stopping point is either inside the Many item or after it *)
        destruct (rep (incls k) mn0 mx0 t ck) eqn:E; [|reflexivity]. exfalso.
        apply rep_sound in E as (t2 & Hr & Hc2).
        assert (shape (Many c :: s) t2 \/
                exists t3, shape s t3 /\ RepRel (incls k) O None t3 t2) as D.
        { clear - Hr Hs. revert Hs. induction Hr as [mx0 t0|mn0 mx0 x t0 t2 Hm Hkx Hr IH]; intro Hs.
          - left. exact Hs.
          - apply shape_many in Hs as (x' & t' & E & Hx & [Hs|Hs]); injection E as <- <-.
            + right. exists t0. split; [exact Hs|].
              clear - Hr. remember (Nat.pred mn0) as a. remember (option_map Nat.pred mx0) as b.
              clear Heqa Heqb. induction Hr.
              * constructor.
              * constructor; [discriminate|assumption|exact IHHr].
            + apply IH, Hs. }
        destruct D as [D|(t3 & D & Hr3)].
        - rewrite (Hk _ _ D H1) in Hc2. discriminate.
        - pose proof (rep_complete (incls k) ck O None t3 t2 Hr3) as Hcomp.
          rewrite (IH _ _ _ D H2) in Hcomp. apply Hcomp; [congruence|reflexivity]. }
      pose proof (shape_many _ _ _ Hs) as (x & t' & -> & Hx & _).
      assert ((match mn with O => kno (Many c :: s) | S _ => true end) = true ->
              (match mn with O => ck (x :: t') | S _ => None end) = None) as Hstop.
      { destruct mn; [|reflexivity]. apply (Hk _ _ Hs). }
      destruct mx as [[|m]|].
      * cbn in H |- *. apply Hstop; exact H.
      * cbn in H. destruct (cdis c k) eqn:Ed.
        -- cbn. rewrite (cdis_ok _ _ _ Ed Hx). apply Hstop; exact H.
        -- apply andb_prop in H as [H1 H2]. now apply Hgen.
      * cbn in H. destruct (cdis c k) eqn:Ed.
        -- cbn. rewrite (cdis_ok _ _ _ Ed Hx). apply Hstop; exact H.
        -- apply andb_prop in H as [H1 H2]. now apply Hgen.
Qed.

Lemma sno_ok {A} r : forall (ck : str -> caps -> option A) kno,
  (forall s t c, shape s t -> kno s = true -> ck t c = None) ->
  forall s t c, shape s t -> sno r s kno = true -> mtch r t c ck = None.
Proof.
  induction r as [|k|a IHa b IHb|a IHa b IHb|k mn mx|i r IH|]; intros ck kno Hk s t c Hs H; cbn in H |- *.
  - eapply Hk; eauto.
  - destruct s as [|[c'|c'] s].
    + apply shape_nil in Hs. now subst.
    + apply shape_one in Hs as (x & t' & -> & Hx & Hs). destruct (incls k x) eqn:E; [|reflexivity].
      apply orb_prop in H as [H|H]; [rewrite (cdis_ok _ _ _ H Hx) in E; discriminate|].
      eapply Hk; eauto.
    + apply shape_many in Hs as (x & t' & -> & Hx & Hs). destruct (incls k x) eqn:E; [|reflexivity].
      apply orb_prop in H as [H|H]; [rewrite (cdis_ok _ _ _ H Hx) in E; discriminate|].
      apply andb_prop in H as [H1 H2]. destruct Hs; eapply Hk; eauto.
  - apply (IHa _ (fun s' => sno b s' kno)) with (s := s); auto.
    intros s1 t1 c1 Hs1 H1. apply (IHb _ kno) with (s := s1); auto.
  - apply andb_prop in H as [H1 H2]. rewrite (IHa ck kno Hk s t c Hs H1). eapply IHb; eauto.
  - apply (srepno_ok k _ kno) with (s := s); auto. intros s1 t1 Hs1 H1. eapply Hk; eauto.
  - apply (IH _ kno) with (s := s); auto. intros s1 t1 c1 Hs1 H1. eapply Hk; eauto.
  - destruct s as [|[c1|c1] [|i2 s]].
    + pose proof (shape_nil _ Hs). subst. eapply Hk; eauto.
    + pose proof (shape_one _ _ _ Hs) as (x & t' & -> & Hx & Hs'). apply shape_nil in Hs'. subst t'.
      destruct (ceqb x nl) eqn:E; [|reflexivity].
      apply orb_prop in H as [H|H].
      * pose proof (cdis_ok _ _ _ H Hx) as E2. rewrite k_nl_ok in E2. congruence.
      * eapply Hk; eauto.
    + pose proof (shape_one _ _ _ Hs) as (x & t' & -> & Hx & Hs').
      destruct t' as [|y t']; [|reflexivity].
      exfalso. destruct i2; [apply shape_one in Hs' as (? & ? & ? & _)|apply shape_many in Hs' as (? & ? & ? & _)]; discriminate.
    + pose proof (shape_many _ _ _ Hs) as (x & t' & -> & Hx & Hs').
      destruct t' as [|y t']; [|reflexivity].
      destruct (ceqb x nl) eqn:E; [|reflexivity].
      apply orb_prop in H as [H|H].
      * pose proof (cdis_ok _ _ _ H Hx) as E2. rewrite k_nl_ok in E2. congruence.
      * eapply Hk; eauto.
    + pose proof (shape_many _ _ _ Hs) as (x & t' & -> & Hx & Hs').
      destruct t' as [|y t']; [|reflexivity].
      exfalso. destruct Hs' as [Hs'|Hs'].
      * destruct i2; [apply shape_one in Hs' as (? & ? & ? & _)|apply shape_many in Hs' as (? & ? & ? & _)]; discriminate.
      * apply shape_many in Hs' as (? & ? & ? & _). discriminate.
Qed.

(** no string of the shape matches r *)
Definition sym_no (r : re) (s : list item) : bool := sno r s (fun _ => false).
Theorem sym_no_ok r ps : Forall conf ps -> sym_no r (items ps) = true -> re_match r (flat ps) = None.
Proof.
  intros F H. unfold re_match. apply (sno_ok r _ (fun _ => false)) with (s := items ps).
  - discriminate.
  - exists ps. auto.
  - exact H.
Qed.

Section SYes.
  Context {B : Type}.
  (** definite match; None means "could not decide" *)
  Fixpoint srep (k : cls) (mn : nat) (mx : option nat) (s : list piece)
      (sk : list piece -> option B) (kno : list item -> bool) : option B :=
    let stop := match mn with O => sk s | S _ => None end in
    match mx with
    | Some O => stop
    | _ =>
      match s with
      | [] => stop
      | (One c, _) :: s' =>
          if cdis c k then stop
          else if csub c k then
            if srepno k (Nat.pred mn) (option_map Nat.pred mx) (items s') kno then stop
            else srep k (Nat.pred mn) (option_map Nat.pred mx) s' sk kno
          else None
      | (Many c, _) :: s' =>
          if cdis c k then stop
          else if csub c k then
            match mx, mn with
            | None, (O | S O) => srep k O None s' sk kno
            | _, _ => None
            end
          else None
      end
    end.
  Fixpoint smtch (r : re) (s : list piece) (c : scaps)
      (sk : list piece -> scaps -> option B) (kno : list item -> bool) : option B :=
    match r with
    | REps => sk s c
    | RCls k => match s with
                | (One c', _) :: s' => if csub c' k then sk s' c else None
                | _ => None
                end
    | RSeq a b => smtch a s c (fun s' c' => smtch b s' c' sk kno) (fun s' => sno b s' kno)
    | RAlt a b => if sno a (items s) kno then smtch b s c sk kno else smtch a s c sk kno
    | RRep k mn mx => srep k mn mx s (fun s' => sk s' c) kno
    | RGrp i r => smtch r s c (fun s' c' => sk s' ((i, firstn (length s - length s') s) :: c')) kno
    | REos => match s with
              | [] => sk [] c
              | [(One k, _)] => if csub k k_nl then sk s c else None
              | _ => None
              end
    end.
End SYes.

Definition suffix (s' s : list piece) : Prop := exists p, s = p ++ s'.
Lemma suffix_refl s : suffix s s. Proof. now exists []. Qed.
Lemma suffix_cons x s' s : suffix (x :: s') s -> suffix s' s.
Proof. intros [p ->]. exists (p ++ [x]). now rewrite <- app_assoc. Qed.
Lemma suffix_trans a b c : suffix a b -> suffix b c -> suffix a c.
Proof. intros [p ->] [q ->]. exists (q ++ p). now rewrite app_assoc. Qed.
Lemma suffix_conf s' s : suffix s' s -> Forall conf s -> Forall conf s'.
Proof. intros [p ->] H. apply Forall_app in H. tauto. Qed.
Lemma flat_app a b : flat (a ++ b) = flat a ++ flat b.
Proof. unfold flat. now rewrite map_app, concat_app. Qed.
Lemma flat_cons i v s : flat ((i, v) :: s) = v ++ flat s.
Proof. reflexivity. Qed.
Lemma conf_shape ps : Forall conf ps -> shape (items ps) (flat ps).
Proof. intro H. exists ps. auto. Qed.

Lemma rep_many {A} k mn v s (ck : str -> option A) x :
  forallb k v = true -> (mn <= length v)%nat ->
  rep k O None s ck = Some x -> rep k mn None (v ++ s) ck = Some x.
Proof.
  revert mn. induction v as [|c v IH]; intros mn Hv Hm H.
  - cbn in Hm. assert (mn = O) as -> by lia. exact H.
  - cbn in Hv. apply andb_prop in Hv as [Hc Hv]. cbn [app]. cbn [rep option_map]. rewrite Hc.
    rewrite (IH (Nat.pred mn) Hv); [reflexivity|cbn in Hm; lia|exact H].
Qed.

Section SymOk.
  Context {A B : Type} (F : B -> A).

  Lemma srep_ok k s0 : forall s (sk : list piece -> option B) (ck : str -> option A) kno mn mx x,
    suffix s s0 ->
    (forall s' x, suffix s' s0 -> sk s' = Some x -> ck (flat s') = Some (F x)) ->
    (forall s t, shape s t -> kno s = true -> ck t = None) ->
    Forall conf s ->
    srep k mn mx s sk kno = Some x -> rep (incls k) mn mx (flat s) ck = Some (F x).
  Proof.
    induction s as [|[it v] s IH]; intros sk ck kno mn mx x Hsuf Hsk Hno HF H.
    - assert (match mn with O => sk [] | S _ => None end = Some x) as H'
        by (cbn in H; destruct mx as [[|]|]; exact H).
      destruct mn; [|discriminate]. apply Hsk in H'; [|exact Hsuf].
      cbn. destruct mx as [[|]|]; exact H'.
    - inversion HF as [|? ? Hc HF']; subst.
      assert (forall y, (match mn with O => sk ((it, v) :: s) | S _ => None end) = Some y ->
              (match mn with O => ck (flat ((it, v) :: s)) | S _ => None end) = Some (F y)) as Hstop.
      { intros y Hy. destruct mn; [|discriminate]. now apply Hsk. }
      pose proof (suffix_cons _ _ _ Hsuf) as Hsuf'.
      destruct it as [c|c].
      + unfold conf in Hc. cbn in Hc. destruct v as [|a [|]]; try discriminate.
        rewrite flat_cons in *. cbn [app] in *.
        assert (mx <> Some O -> (if cdis c k then match mn with O => sk ((One c, [a]) :: s) | S _ => None end
          else if csub c k then
            if srepno k (Nat.pred mn) (option_map Nat.pred mx) (items s) kno
            then match mn with O => sk ((One c, [a]) :: s) | S _ => None end
            else srep k (Nat.pred mn) (option_map Nat.pred mx) s sk kno
          else None) = Some x ->
          (if incls k a then match rep (incls k) (Nat.pred mn) (option_map Nat.pred mx) (flat s) ck with
             | Some x => Some x | None => match mn with O => ck (a :: flat s) | S _ => None end end
           else match mn with O => ck (a :: flat s) | S _ => None end) = Some (F x)) as G.
        { intros Hmx HH. destruct (cdis c k) eqn:Ed.
          - rewrite (cdis_ok _ _ _ Ed Hc). now apply Hstop.
          - destruct (csub c k) eqn:Es; [|discriminate]. rewrite (csub_ok _ _ _ Es Hc).
            destruct (srepno k (Nat.pred mn) (option_map Nat.pred mx) (items s) kno) eqn:En.
            + rewrite (srepno_ok k ck kno Hno _ _ _ _ (conf_shape _ HF') En). now apply Hstop.
            + rewrite (IH _ ck kno _ _ _ Hsuf' Hsk Hno HF' HH). reflexivity. }
        destruct mx as [[|m]|].
        * cbn in H |- *. now apply Hstop.
        * cbn in H |- *. cbn in G. apply G; [discriminate|exact H].
        * cbn in H |- *. cbn in G. apply G; [discriminate|exact H].
      + unfold conf in Hc. destruct v as [|a v]; [discriminate|]. cbn [confb snd] in Hc.
        pose proof Hc as Hc'. cbn in Hc'. apply andb_prop in Hc' as [Ha Hv].
        destruct mx as [[|m]|].
        * cbn in H |- *. now apply Hstop.
        * cbn in H. destruct (cdis c k) eqn:Ed.
          -- cbn. rewrite (cdis_ok _ _ _ Ed Ha). now apply Hstop.
          -- destruct (csub c k); discriminate.
        * cbn in H. destruct (cdis c k) eqn:Ed.
          -- cbn. rewrite (cdis_ok _ _ _ Ed Ha). now apply Hstop.
          -- destruct (csub c k) eqn:Es; [|discriminate].
             rewrite flat_cons. apply rep_many.
             ++ apply forallb_forall. intros y Hy. rewrite forallb_forall in Hc. eapply csub_ok; eauto.
             ++ destruct mn as [|[|]]; cbn; try lia. discriminate.
             ++ destruct mn as [|[|]]; try discriminate; apply (IH sk ck kno); auto.
  Qed.

  Lemma smtch_ok r : forall s c (sk : list piece -> scaps -> option B) (ck : str -> caps -> option A) kno x,
    (forall s' c' x, suffix s' s -> sk s' c' = Some x -> ck (flat s') (cflat c') = Some (F x)) ->
    (forall s t c, shape s t -> kno s = true -> ck t c = None) ->
    Forall conf s ->
    smtch r s c sk kno = Some x -> mtch r (flat s) (cflat c) ck = Some (F x).
  Proof.
    induction r as [|k|a IHa b IHb|a IHa b IHb|k mn mx|i r IH|];
      intros s c sk ck kno x Hsk Hno HF H; cbn in H |- *.
    - apply Hsk; [apply suffix_refl|exact H].
    - destruct s as [|[[c'|c'] v] s]; try discriminate.
      inversion HF as [|? ? Hc HF']; subst. unfold conf in Hc. cbn in Hc.
      destruct v as [|y [|]]; try discriminate. cbn.
      destruct (csub c' k) eqn:E; [|discriminate]. rewrite (csub_ok _ _ _ E Hc).
      apply Hsk; [eapply suffix_cons, suffix_refl|exact H].
    - apply (IHa _ _ (fun s' c' => smtch b s' c' sk kno) _ (fun s' => sno b s' kno)); auto.
      + intros s' c' x' Hs' H'. apply (IHb s' c' sk ck kno); auto.
        * intros s2 c2 x2 Hs2 H2. apply Hsk; [eapply suffix_trans; eauto|exact H2].
        * eapply suffix_conf; eauto.
      + intros s' t c' Hs' H'. apply (sno_ok b ck kno Hno s' t c' Hs' H').
    - destruct (sno a (items s) kno) eqn:E.
      + rewrite (sno_ok a ck kno Hno (items s) (flat s) _ (conf_shape _ HF) E). eapply IHb; eauto.
      + rewrite (IHa s c sk ck kno x Hsk Hno HF H). reflexivity.
    - eapply (srep_ok k s s (fun s' => sk s' c) (fun s' => ck s' (cflat c)) kno); eauto.
      apply suffix_refl.
    - apply (IH _ _ (fun s' c' => sk s' ((i, firstn (length s - length s') s) :: c')) _ kno); auto.
      + intros s' c' x' [p ->] H'. apply Hsk in H'; [|now exists p].
        cbn [cflat map fst snd] in H'. rewrite flat_app, grp_val.
        replace (firstn (length (p ++ s') - length s') (p ++ s')) with p in H'; [exact H'|].
        rewrite app_length. replace (length p + length s' - length s')%nat with (length p) by lia.
        rewrite firstn_app, Nat.sub_diag, firstn_all, firstn_O, app_nil_r. reflexivity.
      + intros s' t c' Hs' H'. eapply Hno; eauto.
    - destruct s as [|[[k|k] v] [|]]; try discriminate.
      + apply Hsk; [apply suffix_refl|exact H].
      + destruct (csub k k_nl) eqn:E; [|discriminate].
        inversion HF as [|? ? Hc HF']; subst. unfold conf in Hc. cbn in Hc.
        destruct v as [|y [|]]; try discriminate.
        pose proof (csub_ok _ _ _ E Hc) as Hy. rewrite k_nl_ok in Hy. cbn. rewrite Hy.
        apply (Hsk [(One k, [y])]); [apply suffix_refl|exact H].
  Qed.
End SymOk.

(** every string of the shape matches r, with these captures *)
Definition sym_match (r : re) (s : list piece) : option scaps :=
  smtch r s [] (fun _ c => Some c) (fun _ => false).
Theorem sym_match_ok r ps g : Forall conf ps -> sym_match r ps = Some g ->
  re_match r (flat ps) = Some (cflat g).
Proof.
  intros HF H. unfold re_match.
  apply (smtch_ok cflat r ps [] (fun _ c => Some c) (fun _ c => Some c) (fun _ => false)); auto.
  - intros s' c' x _ E. now injection E as ->.
  - discriminate.
Qed.
