(** Lemmas of C50, part 1: the characters of designations. *)
From Verif Require Import PackUtil PackProofs12 PackProofs7 PackProofs3 PyReProofs.
From Verif Require Import PyStrProofs IdProofs5 Xml Back80Proofs1.
Local Open Scope nat_scope.

Definition okc (c : ascii) : bool := (32 <=? code c)%N.
Definition fine (s : str) : Prop := forallb okc s = true.
Definition fine_o (o : option str) : Prop := match o with Some s => fine s | None => True end.
Lemma fine_app a b : fine a -> fine b -> fine (a ++ b).
Proof. unfold fine. rewrite forallb_app. intros -> ->. reflexivity. Qed.
Lemma fine_cons c a : okc c = true -> fine a -> fine (c :: a).
Proof. unfold fine. cbn [forallb]. intros -> ->. reflexivity. Qed.
Lemma fine_in s c : fine s -> In c s -> okc c = true.
Proof. unfold fine. rewrite forallb_forall. auto. Qed.
Lemma fine_all s : (forall c, In c s -> okc c = true) -> fine s.
Proof. unfold fine. rewrite forallb_forall. auto. Qed.
Lemma fine_sub s t : (forall c, In c t -> In c s) -> fine s -> fine t.
Proof. intros H F. apply fine_all. intros c I. exact (fine_in s c F (H c I)). Qed.
Lemma fine_imp (f : ascii -> bool) s : (forall c, f c = true -> okc c = true) -> forallb f s = true -> fine s.
Proof. intros H F. apply fine_all. intros c I. rewrite forallb_forall in F. exact (H c (F c I)). Qed.
Lemma fine_nonl s : fine s -> nonl s.
Proof. intros F I. discriminate (fine_in s _ F I). Qed.
Lemma fine_text s : fine s -> valid_text s = true.
Proof. unfold fine, valid_text. rewrite !forallb_forall. intros H c I. unfold okc in H. rewrite (H c I). reflexivity. Qed.
Lemma reprel_incl k mn mx s s' : RepRel k mn mx s s' -> fine s -> fine s'.
Proof. induction 1; auto. intro N. apply IHRepRel. revert N. apply fine_sub. intros d D. now right. Qed.
Lemma mat_fine r s c s' c' : Mat r s c s' c' -> fine s -> (forall i, fine_o (grp c i)) -> fine s' /\ forall i, fine_o (grp c' i).
Proof.
  induction 1; intros N C; auto.
  - split; auto. revert N. apply fine_sub. intros d D. now right.
  - destruct (IHMat1 N C) as [A B]. exact (IHMat2 A B).
  - split; auto. eapply reprel_incl; eauto.
  - destruct (IHMat N C) as [A B]. split; auto. intro j. cbn [grp]. destruct (Nat.eqb j i); [|apply B].
    revert N. apply fine_sub. intros d D. rewrite <- (firstn_skipn (length s - length s') s). apply in_or_app. now left.
Qed.
Lemma match_fine r s g : re_match r s = Some g -> fine s -> forall i, fine_o (grp g i).
Proof. intros H N. apply re_match_mat in H as [s' H]. apply (mat_fine _ _ _ _ _ H N). intro i. exact I. Qed.
Lemma gives_gstr r s g i : re_match r s = Some g -> fine s -> gives fine (gstr g i).
Proof. intros H N. unfold gstr. pose proof (match_fine r s g H N i) as K. destruct (grp g i); cbn; auto. Qed.
Lemma dig_ok : forall c, isdig c = true -> okc c = true. Proof. apply imp_ascii. vm_compute. reflexivity. Qed.
Lemma dec_fine n : fine (dec n).
Proof.
  unfold dec. destruct (Z.ltb_spec n 0).
  - apply fine_cons; [reflexivity|]. apply (fine_imp isdig); [exact dig_ok|]. apply decn_spec. lia.
  - apply (fine_imp isdig); [exact dig_ok|]. apply decn_spec. lia.
Qed.
Lemma nstr_fine n : fine (nstr n).
Proof. unfold nstr. destruct (n =? 0)%Z; [reflexivity|apply dec_fine]. Qed.
Lemma strip_fine s : fine s -> fine (strip s).
Proof. apply fine_sub. intros c Q. destruct (strip_decomp s) as (a & b & E & _). rewrite E. apply in_or_app. right. apply in_or_app. now left. Qed.
Lemma map_fine f s : (forall c, okc c = true -> okc (f c) = true) -> fine s -> fine (map f s).
Proof. intros K F. apply fine_all. intros c I. apply in_map_iff in I as (d & <- & I). apply K. exact (fine_in s d F I). Qed.
Lemma upper_fine s : fine s -> fine (upper s).
Proof. apply map_fine. apply imp_ascii. vm_compute. reflexivity. Qed.
Lemma lower_fine s : fine s -> fine (lower s).
Proof. apply map_fine. apply imp_ascii. vm_compute. reflexivity. Qed.
Lemma gives_index s i : fine s -> gives (fun c => okc c = true) (pyindex s i).
Proof.
  intro N. unfold pyindex.
  repeat match goal with |- context [if ?b then _ else _] => destruct b end; try exact I;
  match goal with |- context [nth_error ?a ?b] => destruct (nth_error a b) eqn:E; [|exact I]; apply nth_error_In in E; exact (fine_in s _ N E) | _ => idtac end.
Qed.
Lemma gives_chat s i : fine s -> gives (fun c => okc c = true) (chat s i).
Proof. intro N. unfold chat. destruct (nth_error s i) eqn:E; cbn; auto. apply nth_error_In in E. exact (fine_in s _ N E). Qed.
Lemma gives_planet c : gives fine (planetName c).
Proof. unfold planetName. repeat apply gives_if; cbn; auto; reflexivity. Qed.
Lemma from_fine n s : fine s -> fine (from n s).
Proof. apply fine_sub. intros c I. unfold from in I. rewrite <- (firstn_skipn n s). apply in_or_app. now right. Qed.
Lemma firstn_fine n s : fine s -> fine (firstn n s).
Proof. apply fine_sub. intros c I. rewrite <- (firstn_skipn n s). apply in_or_app. now left. Qed.
Lemma slice_fine a b s : fine s -> fine (slice a b s).
Proof. intro H. unfold slice. apply firstn_fine, (from_fine a s H). Qed.
Lemma zpad_fine n m : fine (zpad10 n m).
Proof. apply from_fine, dec_fine. Qed.
Lemma spaces_fine n : fine (spaces n).
Proof. unfold fine, spaces. induction n; cbn; auto. Qed.
Lemma padr_fine n s : fine s -> fine (padr n s).
Proof. intro H. unfold padr. apply fine_app; [exact H|apply spaces_fine]. Qed.
Lemma padl_fine n s : fine s -> fine (padl n s).
Proof. intro H. unfold padl. apply fine_app; [apply spaces_fine|exact H]. Qed.
Lemma letters_fine : fine packLetters. Proof. vm_compute. reflexivity. Qed.
Lemma radix_loop_fine n : forall mp acc, fine acc -> fine (radix62_loop n mp acc).
Proof.
  induction n; intros mp acc H; [exact H|]. cbn [radix62_loop]. cbv zeta. apply IHn. apply fine_cons; [|exact H].
  destruct (nth_in_or_default (Z.to_nat (mp mod 62)) packLetters "?"%char) as [I|E]; [exact (fine_in _ _ letters_fine I)|rewrite E; reflexivity].
Qed.
Lemma radix_fine n : fine (radix62_4 n).
Proof. unfold radix62_4. apply fine_cons; [reflexivity|]. apply radix_loop_fine. reflexivity. Qed.
Ltac texts_fine := repeat first [apply fine_app | apply dec_fine | apply nstr_fine | apply upper_fine | apply lower_fine | apply strip_fine | apply zpad_fine | apply radix_fine | apply from_fine | apply slice_fine | assumption
  | apply fine_cons; [assumption|] | (vm_compute; reflexivity)].
Definition fine_pk (p : pk) : Prop := fine_o (pk_s p) /\ fine_o (pk_f p).
Ltac fin R N :=
  repeat match goal with
  | |- gives _ (rbind (gint _ _) _) => apply gives_any; intro
  | |- gives _ (rbind (py_int _) _) => apply gives_any; intro
  | |- gives _ (rbind (gletter _ _) _) => apply gives_any; intro
  | |- gives _ (rbind (unRadix62_4 _) _) => apply gives_any; intro
  | |- gives _ (rbind (if gtrue _ _ then gint _ _ else _) _) => apply gives_any; intro
  | |- gives _ (rbind (if gtrue _ _ then gstr _ _ else _) _) => eapply gives_bind; [apply gives_if; [apply (gives_gstr _ _ _ _ R N)|vm_compute; reflexivity]|intros]
  | |- gives _ (rbind (gstr _ _) _) => eapply gives_bind; [apply (gives_gstr _ _ _ _ R N)|intros]
  | |- gives _ (rbind (chat _ _) _) => eapply gives_bind; [apply gives_chat; assumption|intros]
  | |- gives _ (rbind (pyindex order_letters _) _) => eapply gives_bind; [apply gives_index; vm_compute; reflexivity|intros]
  | |- gives _ (rbind (pyindex packLetters _) _) => eapply gives_bind; [apply gives_index; vm_compute; reflexivity|intros]
  | |- gives _ (if _ then _ else _) => apply gives_if
  | |- gives _ (let _ := _ in _) => cbv zeta
  | |- gives _ (Err _) => exact I
  | |- gives fine_o (Ok (Some _)) => cbn [gives fine_o]; texts_fine
  | |- gives fine_o (Ok None) => exact I
  | |- gives fine_pk (Ok _) => split; cbn [pk_s pk_f fine_o]; [texts_fine|try assumption; try exact I]
  | |- gives fine (Ok _) => cbn [gives]; texts_fine
  end.
Ltac pkpart R N := match goal with |- context [re_match ?x ?y] => destruct (re_match x y) as [g|] eqn:R; [|assumption] end; fin R N.
Section Pack.
Variable p : str.
Hypothesis N : fine p.
Lemma perm_minor_fine st : fine_pk st -> gives fine_pk (perm_minor p st).
Proof. intros [A B]. unfold perm_minor. destruct (re_match _ p) as [g|] eqn:R; [|now split]. fin R N. Qed.
Lemma perm_comet_fine st : fine_pk st -> gives fine_pk (perm_comet p st).
Proof. intros [A B]. unfold perm_comet. destruct (re_match _ p) as [g|] eqn:R; [|now split]. fin R N. Qed.
Lemma perm_cometfrag_fine st : fine_pk st -> gives fine_pk (perm_cometfrag p st).
Proof. intros [A B]. unfold perm_cometfrag. destruct (re_match _ p) as [g|] eqn:R; [|now split]. fin R N. Qed.
Lemma perm_sat_fine st : fine_pk st -> gives fine_pk (perm_sat p st).
Proof. intros [A B]. unfold perm_sat. destruct (re_match _ p) as [g|] eqn:R; [|now split]. fin R N. Qed.
Lemma perm_astsat_fine st : fine_pk st -> gives fine_pk (perm_astsat p st).
Proof. intros [A B]. unfold perm_astsat. destruct (re_match _ p) as [g|] eqn:R; [|now split]. fin R N. Qed.
Lemma prov_minor_fine st : fine_pk st -> gives fine_pk (prov_minor p st).
Proof. intros [A B]. unfold prov_minor. destruct (re_match _ p) as [g|] eqn:R; [|now split]. fin R N. Qed.
Lemma prov_survey_fine st : fine_pk st -> gives fine_pk (prov_survey p st).
Proof. intros [A B]. unfold prov_survey. destruct (re_match _ p) as [g|] eqn:R; [|now split]. fin R N. Qed.
Lemma prov_comet_fine st : fine_pk st -> gives fine_pk (prov_comet p st).
Proof. intros [A B]. unfold prov_comet. destruct (re_match _ p) as [g|] eqn:R; [|now split]. fin R N. Qed.
Lemma prov_cometfrag_fine st : fine_pk st -> gives fine_pk (prov_cometfrag p st).
Proof. intros [A B]. unfold prov_cometfrag. destruct (re_match _ p) as [g|] eqn:R; [|now split]. fin R N. Qed.
Lemma prov_sat_fine st : fine_pk st -> gives fine_pk (prov_sat p st).
Proof. intros [A B]. unfold prov_sat. destruct (re_match _ p) as [g|] eqn:R; [|now split]. fin R N. Qed.
Lemma pk0_fine : fine_pk pk0. Proof. split; exact I. Qed.
Lemma perm_fine : gives fine_pk (pack_perm (Some p)).
Proof.
  unfold pack_perm. eapply gives_bind; [apply perm_minor_fine, pk0_fine|intros s1 H1]. eapply gives_bind; [now apply perm_comet_fine|intros s2 H2].
  eapply gives_bind; [now apply perm_cometfrag_fine|intros s3 H3]. eapply gives_bind; [now apply perm_sat_fine|intros s4 H4].
  eapply gives_bind; [now apply perm_astsat_fine|intros s5 H5]. apply gives_if; [exact H5|exact I].
Qed.
Lemma prov_fine : gives fine_pk (pack_prov (Some p)).
Proof.
  unfold pack_prov. eapply gives_bind; [apply prov_minor_fine, pk0_fine|intros s1 H1]. eapply gives_bind; [now apply prov_survey_fine|intros s2 H2].
  eapply gives_bind; [now apply prov_comet_fine|intros s3 H3]. eapply gives_bind; [now apply prov_cometfrag_fine|intros s4 H4].
  eapply gives_bind; [now apply prov_sat_fine|intros s5 H5]. apply gives_if; [exact H5|exact I].
Qed.
Lemma trk_fine a b : gives fine_o (pack_trk (Some p) a b).
Proof.
  unfold pack_trk. destruct (pk_s a); [exact I|]. cbv zeta.
  assert (fine_o (match re_match trksubRegex p with None => None | Some g => match grp g 1 with Some tmp => if Nat.ltb 7 (length tmp) then Some (from 1 tmp) else Some tmp | None => None end end)) as K.
  { destruct (re_match trksubRegex p) as [g|] eqn:R; [|exact I]. pose proof (match_fine _ _ _ R N 1) as G. destruct (grp g 1); [|exact I]. cbn [fine_o] in G. destruct (Nat.ltb 7 (length s)); cbn [fine_o]; texts_fine. }
  do 2 (apply gives_if; [exact K|]). exact I.
Qed.
End Pack.
Lemma join_fine a b t : fine_pk a -> fine_pk b -> fine_o t -> gives fine (pack_join a b t).
Proof.
  intros [A1 A2] [B1 B2] T. unfold pack_join. destruct (pk_s a) as [pp|], (pk_s b) as [pv|]; cbn [fine_o] in *.
  - repeat apply gives_if; try exact I. cbn [gives]. texts_fine.
  - apply gives_if; [exact I|]. cbv zeta. apply gives_if.
    + destruct (pk_f a) as [f|]; [|exact I]. cbn [gives]. apply fine_app; [apply firstn_fine, fine_app; [exact A1|apply spaces_fine]|]. apply lower_fine. destruct (Nat.eqb (length f) 1); [|exact A2]. now apply fine_app.
    + cbn [gives]. apply fine_app; [exact A1|apply spaces_fine].
  - cbn [gives]. apply fine_app; [apply spaces_fine|exact B1].
  - destruct t as [[|c t]|]; try exact I. cbn [gives]. apply padr_fine, fine_app; [apply spaces_fine|exact T].
Qed.
Lemma pack_fine a b c w : fine_o a -> fine_o b -> fine_o c -> packTupleID (a, b, c) = Ok w -> fine w.
Proof.
  intros A B C H. assert (gives fine (packTupleID (a, b, c))) as G; [|rewrite H in G; exact G]. unfold packTupleID.
  apply (gives_bind fine_pk); [destruct a; [now apply perm_fine|exact pk0_fine]|intros x X].
  apply (gives_bind fine_pk); [destruct b; [now apply prov_fine|exact pk0_fine]|intros y Y].
  apply (gives_bind fine_o); [destruct c; [now apply trk_fine|exact I]|intros z Z]. now apply join_fine.
Qed.
(** unpacking *)
Definition fine3 (t : triple) : Prop := let '(a, b, c) := t in fine_o a /\ fine_o b /\ fine_o c.
Lemma minor_fine p : fine p -> gives fine3 (unpack_minor p).
Proof.
  intro N. unfold unpack_minor. destruct (re_match minorplanetPackedIDRegex p) as [g|] eqn:R; [|cbn; auto]. cbv zeta.
  apply (gives_bind fine_o).
  { apply gives_if; [|exact I]. apply (gives_bind (fun _ => True)); [now destruct (if gtrue g 1 then _ else _)|intros n _]. fin R N. }
  intros perm HP. apply (gives_bind fine_o).
  { apply gives_if; [|apply gives_if]; fin R N. }
  intros prov HQ. apply (gives_bind fine_o).
  { apply gives_if; [fin R N|exact HQ]. }
  intros prov' HQ'. cbn [gives fine3]. split; [exact HP|]. split; [exact HQ'|].
  pose proof (match_fine _ _ _ R N 12) as T. destruct (negb (otrue perm) && otrue (grp g 12)); [|exact T].
  destruct (grp g 12); cbn [option_map]; [|exact I]. apply strip_fine, T.
Qed.
Lemma comet_fine p st : fine p -> fine3 st -> gives fine3 (unpack_comet p st).
Proof.
  intros N H. unfold unpack_comet. destruct (re_match cometPackedIDRegex p) as [g|] eqn:R; [|exact H].
  destruct st as [[a b] c]. destruct H as (HA & HB & HC). apply (gives_bind fine_o).
  { apply gives_if; [|exact HA]. apply gives_any; intro n. apply gives_if; [exact I|].
    eapply gives_bind; [apply (gives_gstr _ _ _ _ R N)|intros ty HT]. apply gives_if; [exact I|]. cbv zeta.
    apply (gives_bind fine). { fin R N. } intros x HX. apply (gives_bind fine). { fin R N. } intros y HY. exact HY. }
  intros perm HP. apply (gives_bind fine_o).
  { apply gives_if; [|exact HB]. do 2 (apply gives_any; intro). cbv zeta. do 2 (apply gives_any; intro). 
    pose proof (match_fine _ _ _ R N 8) as T8. pose proof (match_fine _ _ _ R N 9) as T9.
    eapply gives_bind; [apply (gives_gstr _ _ _ _ R N)|intros ty HT]. eapply gives_bind; [apply (gives_gstr _ _ _ _ R N)|intros hm HH].
    cbn [gives fine_o]. texts_fine.
    - destruct (grp g 8); [exact T8|reflexivity].
    - destruct (gtrue g 9); [|reflexivity]. destruct (grp g 9); [|reflexivity]. texts_fine. }
  intros prov HQ. cbn [gives fine3]. auto.
Qed.
Lemma sat_fine p st : fine p -> fine3 st -> gives fine3 (unpack_sat p st).
Proof.
  intros N H. unfold unpack_sat. destruct (re_match satellitePackedIDRegex p) as [g|] eqn:R; [|exact H].
  destruct st as [[a b] c]. destruct H as (HA & HB & HC). apply (gives_bind fine_o).
  { apply gives_if; [|exact HA]. apply gives_any; intro n. apply gives_if; [exact I|].
    eapply gives_bind; [apply (gives_gstr _ _ _ _ R N)|intros ty HT]. apply (gives_bind fine).
    { destruct ty as [|x [|? ?]]; try exact I. apply gives_planet. }
    intros pn HN. cbn [gives fine_o]. texts_fine. }
  intros perm HP. apply (gives_bind fine_o).
  { apply gives_if; [|exact HB]. fin R N. }
  intros prov HQ. cbn [gives fine3]. auto.
Qed.
Lemma unpack_fine p a b c : fine p -> unpackPackedID p = Ok (a, b, c) -> fine_o a /\ fine_o b /\ fine_o c.
Proof.
  intros N H. apply unpack_split in H as (st & st' & H1 & H2 & H3).
  pose proof (minor_fine p N) as K1. rewrite H1 in K1. pose proof (comet_fine p st N K1) as K2. rewrite H2 in K2.
  pose proof (sat_fine p st' N K2) as K3. rewrite H3 in K3. exact K3.
Qed.
