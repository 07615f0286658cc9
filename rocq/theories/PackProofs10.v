(** Lemmas about PackUtil.v, part 10: reading followed by writing (C12), all shapes. *)
From Verif Require Export PackProofs9.

Lemma unpack_split p t : unpackPackedID p = Ok t -> exists st st', unpack_minor p = Ok st /\ unpack_comet p st = Ok st' /\ unpack_sat p st' = Ok t.
Proof.
  unfold unpackPackedID. destruct (unpack_minor p) as [st|]; [|discriminate]. cbn [rbind].
  destruct (unpack_comet p st) as [st'|] eqn:E; [|discriminate]. cbn [rbind].
  destruct (unpack_sat p st') as [t'|] eqn:E'; [|discriminate]. cbn [rbind]. destruct t' as [[a b] c].
  destruct (negb (otrue a) && negb (otrue b) && negb (otrue c)); [discriminate|].
  intros [= <-]. eauto.
Qed.
Lemma pack_noprov q : (forall st, pack_prov (Some q) <> Ok st) -> forall perm trk r, packTupleID (perm, Some q, trk) <> Ok r.
Proof.
  intros H perm trk r. unfold packTupleID. destruct (pack_perm perm); [|discriminate]. cbn [rbind].
  destruct (pack_prov (Some q)) as [st|]; [now elim (H st)|discriminate].
Qed.
Lemma pack_prov_some q st : pack_prov (Some q) = Ok st ->
  (exists g, re_match minorplanetProvIDRegex q = Some g) \/ (exists g, re_match minorplanetSurveyProvIDRegex q = Some g) \/
  (exists g, re_match cometProvIDRegex q = Some g) \/ (exists g, re_match cometfragmentProvIDRegex q = Some g) \/
  (exists g, re_match satelliteProvIDRegex q = Some g).
Proof.
  unfold pack_prov, prov_minor, prov_survey, prov_comet, prov_cometfrag, prov_sat.
  destruct (re_match minorplanetProvIDRegex q); [eauto|].
  destruct (re_match minorplanetSurveyProvIDRegex q); [eauto|].
  destruct (re_match cometProvIDRegex q); [eauto|].
  destruct (re_match cometfragmentProvIDRegex q); [eauto 6|].
  destruct (re_match satelliteProvIDRegex q); [eauto 7|]. discriminate.
Qed.

(** shapes of the texts the provisional patterns accept *)
Lemma minorprov_shape q g : re_match minorplanetProvIDRegex q = Some g -> exists a b r, q = a :: b :: r /\ isdig b = true.
Proof. intro H. unfold minorplanetProvIDRegex in H. invert_match H; classify; eauto. Qed.
Lemma surveyprov_shape q g : re_match minorplanetSurveyProvIDRegex q = Some g -> exists a b r, q = a :: b :: r /\ isdig b = true.
Proof. intro H. unfold minorplanetSurveyProvIDRegex in H. invert_match H; classify; eauto. Qed.
Lemma cometprov_shape q g : re_match cometProvIDRegex q = Some g ->
  exists t a b c d h o w e, q = t :: "/"%char :: a :: b :: c :: d :: " "%char :: h :: o ++ w ++ e /\ incls k_ct t = true /\
    isdig a = true /\ isdig b = true /\ isdig c = true /\ isdig d = true /\ incls k_up h = true /\
    (o = [] \/ exists x, o = [x] /\ incls k_up x = true) /\ alldig w = true /\ eos e.
Proof.
  intro H. unfold cometProvIDRegex in H. invert_match H; classify;
  match goal with H : forallb (incls (Cl false [("0", "9")]%char)) _ = true |- _ => apply forallb_cls_dig in H end.
  - match goal with |- exists t a b c d h o w e, ?t0 :: "/"%char :: ?a0 :: ?b0 :: ?c0 :: ?d0 :: " "%char :: ?h0 :: ?o0 :: ?w0 ++ ?e0 = _ /\ _ =>
      exists t0, a0, b0, c0, d0, h0, [o0], w0, e0 end. repeat split; auto. right. eauto.
  - match goal with |- exists t a b c d h o w e, ?t0 :: "/"%char :: ?a0 :: ?b0 :: ?c0 :: ?d0 :: " "%char :: ?h0 :: ?w0 ++ ?e0 = _ /\ _ =>
      exists t0, a0, b0, c0, d0, h0, [], w0, e0 end. repeat split; auto.
Qed.
Lemma cometfrag_shape q g : re_match cometfragmentProvIDRegex q = Some g ->
  exists t a b c d r, q = t :: "/"%char :: a :: b :: c :: d :: " "%char :: r /\ incls k_cf t = true /\
    isdig a = true /\ isdig b = true /\ isdig c = true /\ isdig d = true.
Proof.
  intro H. unfold cometfragmentProvIDRegex in H. invert_match H; classify.
  do 6 eexists. split; [reflexivity|]. auto 7.
Qed.
Lemma satprov_shape q g : re_match satelliteProvIDRegex q = Some g ->
  exists a b c d p w e, q = "S"%char :: "/"%char :: a :: b :: c :: d :: " "%char :: p :: " "%char :: w ++ e /\ 
    isdig a = true /\ isdig b = true /\ isdig c = true /\ isdig d = true /\ alldig w = true /\ w <> [] /\ eos e.
Proof.
  intro H. unfold satelliteProvIDRegex in H. invert_match H; classify.
  match goal with H : forallb (incls (Cl false [("0", "9")]%char)) _ = true |- _ => apply forallb_cls_dig in H end.
  do 7 eexists. split; [reflexivity|]. repeat split; auto. intros ->. cbn in *. lia.
Qed.
(** an accepted text "t/..." has a four-digit year *)
Lemma slash_year t r st : pack_prov (Some (t :: "/"%char :: r)) = Ok st ->
  t <> "I"%char /\ exists a b c d r', r = a :: b :: c :: d :: " "%char :: r' /\ isdig a = true /\ isdig b = true /\ isdig c = true /\ isdig d = true.
Proof.
  intro H. apply pack_prov_some in H as [[g H]|[[g H]|[[g H]|[[g H]|[g H]]]]].
  - apply minorprov_shape in H as (? & ? & ? & E & H). injection E as <- <- <-. discriminate H.
  - apply surveyprov_shape in H as (? & ? & ? & E & H). injection E as <- <- <-. discriminate H.
  - apply cometprov_shape in H as (? & ? & ? & ? & ? & ? & ? & ? & ? & E & Ht & Ha & Hb & Hc & Hd & _). injection E as <- ->.
    split; [intros ->; revert Ht; vm_compute; discriminate|]. do 5 eexists. split; [reflexivity|auto].
  - apply cometfrag_shape in H as (? & ? & ? & ? & ? & ? & E & Ht & Ha & Hb & Hc & Hd). injection E as <- ->.
    split; [intros ->; revert Ht; vm_compute; discriminate|]. do 5 eexists. split; [reflexivity|auto].
  - apply satprov_shape in H as (? & ? & ? & ? & ? & ? & ? & E & Ha & Hb & Hc & Hd & _). injection E as -> ->.
    split; [discriminate|]. do 5 eexists. split; [reflexivity|auto].
Qed.
Lemma short_year t y r st : 0 <= y < 1000 -> pack_prov (Some (t :: "/"%char :: dec y ++ " "%char :: r)) <> Ok st.
Proof.
  intros Hy H. apply slash_year in H as (_ & a & b & c & d & r' & E & Ha & Hb & Hc & Hd).
  assert (length (dec y) <= 3)%nat as Hl.
  { destruct (Z.ltb_spec y 10); [|destruct (Z.ltb_spec y 100)].
    - destruct (Z.eq_dec y 0) as [->|]; [vm_compute; lia|]. rewrite (dec_length y 0) by (cbn; lia). lia.
    - rewrite (dec_length y 1) by (cbn; lia). lia.
    - rewrite (dec_length y 2) by (cbn; lia). lia. }
  destruct (dec y) as [|x0 [|x1 [|x2 [|]]]]; cbn in E, Hl; try lia.
  - injection E as <- _. discriminate Ha.
  - injection E as _ <- _. discriminate Hb.
  - injection E as _ _ <- _. discriminate Hc.
  - injection E as _ _ _ <- _. discriminate Hd.
Qed.
Lemma I_prov r st : pack_prov (Some ("I"%char :: "/"%char :: r)) <> Ok st.
Proof. intro H. apply slash_year in H as (H & _). now elim H. Qed.
Lemma A_frag r st : has "-" r = true -> pack_prov (Some ("A"%char :: "/"%char :: r)) <> Ok st.
Proof.
  intros Hr H. apply pack_prov_some in H as [[g H]|[[g H]|[[g H]|[[g H]|[g H]]]]].
  - apply minorprov_shape in H as (? & ? & ? & E & H). injection E as <- <- <-. discriminate H.
  - apply surveyprov_shape in H as (? & ? & ? & E & H). injection E as <- <- <-. discriminate H.
  - apply cometprov_shape in H as (t & a & b & c & d & h & o & w & e & E & Ht & Ha & Hb & Hc & Hd & Hh & Ho & Hw & He). injection E as <- ->.
    rewrite !has_cons, (dig_nodash _ Ha), (dig_nodash _ Hb), (dig_nodash _ Hc), (dig_nodash _ Hd), (up_nodash _ Hh) in Hr.
    change (ceqb "-" " ") with false in Hr. cbn [orb] in Hr.
    assert (has "-" o = false) as Hoo. { destruct Ho as [->|(x & -> & Hx)]; [reflexivity|]. rewrite has_cons, (up_nodash _ Hx). reflexivity. }
    rewrite !has_app, Hoo, (has_dig "-" w eq_refl Hw), (has_eos "-" e) in Hr by (try assumption; vm_compute; discriminate). discriminate Hr.
  - apply cometfrag_shape in H as (? & ? & ? & ? & ? & ? & E & Ht & _). injection E as <- _. revert Ht; vm_compute; discriminate.
  - apply satprov_shape in H as (? & ? & ? & ? & ? & ? & ? & E & _). discriminate E.
Qed.
Lemma sat_nonum y p st : pack_prov (Some ("S"%char :: "/"%char :: dec y ++ [" "; p; " "]%char)) <> Ok st.
Proof.
  intro H. apply pack_prov_some in H as [[g H]|[[g H]|[[g H]|[[g H]|[g H]]]]].
  - apply minorprov_shape in H as (? & ? & ? & E & H). injection E as <- <- <-. discriminate H.
  - apply surveyprov_shape in H as (? & ? & ? & E & H). injection E as <- <- <-. discriminate H.
  - apply cometprov_shape in H as (? & ? & ? & ? & ? & ? & ? & ? & ? & E & Ht & _). injection E as <- _. revert Ht; vm_compute; discriminate.
  - apply cometfrag_shape in H as (? & ? & ? & ? & ? & ? & E & Ht & _). injection E as <- _. revert Ht; vm_compute; discriminate.
  - apply satprov_shape in H as (a & b & c & d & p' & w & e & E & Ha & Hb & Hc & Hd & Hw & Hne & He). 
    change (a :: b :: c :: d :: " "%char :: p' :: " "%char :: w ++ e) with ([a; b; c; d; " "%char; p'; " "%char] ++ w ++ e) in E.
    injection E as E. assert (last (dec y ++ [" "; p; " "]%char) "x"%char = " "%char) as L1 by (change [" "; p; " "]%char with ([" "; p]%char ++ [" "%char]); now rewrite app_assoc, last_last).
    rewrite E in L1. destruct He as [->| ->].
    + rewrite app_nil_r in L1. assert (w = removelast w ++ [last w "x"%char]) as Ew by now apply app_removelast_last.
      rewrite Ew in L1.
      rewrite Ew in Hw. apply alldig_app in Hw as [_ Hw]. apply alldig_cons in Hw as [Hw _].
      revert L1. match goal with |- last ?l _ = _ -> _ => change l with ([a; b; c; d; " "%char; p'; " "%char] ++ (removelast w ++ [last w "x"%char])) end.
      rewrite app_assoc, last_last. intros L1. rewrite L1 in Hw. discriminate Hw.
    + revert L1. match goal with |- last ?l _ = _ -> _ => change l with ([a; b; c; d; " "%char; p'; " "%char] ++ (w ++ [nl])) end.
      rewrite app_assoc, last_last. discriminate.
Qed.
