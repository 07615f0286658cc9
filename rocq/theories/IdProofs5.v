(** Lemmas about IdSpec, part 5: the schema's identifier types. *)
From Verif Require Import PyStrProofs SchemaProofs1 SchemaProofs2 SchemaProofs3.
From Verif Require Import XsdPattern XsdFiles SchemaSpec IdSpec IdProofs3 IdProofs4.
Local Open Scope nat_scope.

Lemma forallb_imp {A} (f g : A -> bool) s : (forall c, f c = true -> g c = true) -> forallb f s = true -> forallb g s = true.
Proof. rewrite !forallb_forall. auto. Qed.
Lemma imp_ascii (f g : ascii -> bool) : forallb (fun n => implb (f (ascii_of_nat n)) (g (ascii_of_nat n))) (seq 0 256) = true -> forall c, f c = true -> g c = true.
Proof.
  intros H c Hc. rewrite forallb_forall in H. specialize (H (nat_of_ascii c)). rewrite ascii_nat_embedding, Hc in H. apply H, in_seq.
  pose proof (nat_ascii_bounded c). lia.
Qed.
Lemma dig_plain : forall c, isdig c = true -> solid_char c = true. Proof. apply imp_ascii. vm_compute. reflexivity. Qed.
Lemma up_plain : forall c, isupper c = true -> solid_char c = true. Proof. apply imp_ascii. vm_compute. reflexivity. Qed.
Lemma hm_plain : forall c, half_month c = true -> solid_char c = true. Proof. apply imp_ascii. vm_compute. reflexivity. Qed.
Lemma or_plain : forall c, order_letter c = true -> solid_char c = true. Proof. apply imp_ascii. vm_compute. reflexivity. Qed.
Lemma solid_plain c : solid_char c = true -> plain_char c = true. Proof. intro H. apply andb_prop in H. apply H. Qed.
Lemma digs_plain w : forallb isdig w = true -> forallb plain_char w = true. Proof. apply forallb_imp. intros c H. now apply solid_plain, dig_plain. Qed.
Lemma ups_plain w : forallb isupper w = true -> forallb plain_char w = true. Proof. apply forallb_imp. intros c H. now apply solid_plain, up_plain. Qed.
Lemma digits_solid w : digits w -> forallb plain_char w = true /\ existsb solid_char w = true.
Proof.
  intros [H N]. split; [now apply digs_plain|]. destruct w as [|c w]; [now destruct N|]. cbn [forallb] in H. apply andb_prop in H as [H _].
  cbn [existsb]. now rewrite (dig_plain c H).
Qed.
Lemma four_solid y : four y -> forallb plain_char y = true /\ existsb solid_char y = true.
Proof. intros [H L]. apply digits_solid. split; [exact H|]. intros ->. discriminate L. Qed.

Definition textual (s : str) : Prop := forallb plain_char s = true /\ existsb solid_char s = true.
Lemma textual_left a b : textual a -> forallb plain_char b = true -> textual (a ++ b).
Proof. intros [P S] B. split; [now rewrite forallb_app, P|]. now rewrite existsb_app, S. Qed.
Lemma perm_textual i : perm_shaped i -> textual (perm_written i).
Proof.
  destruct i as [w|w t f|q w|w n]; cbn [perm_shaped perm_written].
  - apply digits_solid.
  - intros (Hw & Ht & Hf & _). apply textual_left; [now apply digits_solid|].
    assert (plain_char t = true) as Pt by (destruct Ht as [<-|[<-|[<-|[]]]]; reflexivity). cbn [app forallb]. rewrite Pt.
    destruct f as [|a f]; [reflexivity|]. now apply (ups_plain (a :: f)).
  - intros (Hq & Hw). apply textual_left; [|rewrite forallb_app, (proj1 (digits_solid w Hw)); reflexivity]. destruct Hq as [<-|[<-|[<-|[<-|[<-|[]]]]]]; split; reflexivity.
  - intros (Hw & Hn). destruct (digits_solid w Hw) as [P S]. destruct (digits_solid n Hn) as [P' _]. split.
    + rewrite !forallb_app, P, P'. reflexivity.
    + rewrite !existsb_app, S. reflexivity.
Qed.
Lemma prov_textual i : prov_shaped i -> textual (prov_written i).
Proof.
  destruct i as [y h o w|y s1 s2|t y h o w f|y q w|y b w]; cbn [prov_shaped prov_written].
  - intros (Hy & Hh & Ho & Hw). apply textual_left; [now apply four_solid|]. rewrite !forallb_app, (digs_plain w Hw). cbn [forallb].
    rewrite (solid_plain h (hm_plain h Hh)), (solid_plain o (or_plain o Ho)). reflexivity.
  - intros (Hy & Hs). apply textual_left; [now apply four_solid|].
    unfold is_survey in Hs. apply orb_prop in Hs as [Hs|Hs]; apply andb_prop in Hs as [H1 H2]; apply ceqb_eq in H1; subst s1.
    + apply ceqb_eq in H2. subst s2. reflexivity.
    + apply orb_prop in H2 as [H2|H2]; [apply orb_prop in H2 as [H2|H2]|]; apply ceqb_eq in H2; subst s2; reflexivity.
  - intros (Ht & Hy & Hh & Ho & Hw & Hf). apply textual_left.
    + destruct Ht as [<-|[<-|[<-|[<-|[<-|[]]]]]]; split; reflexivity.
    + rewrite !forallb_app, (proj1 (four_solid y Hy)), (digs_plain w Hw). cbn [forallb]. rewrite (solid_plain h (up_plain h Hh)).
      destruct o as [o|]; cbn [letter_of forallb capital] in *; rewrite ?(solid_plain o (up_plain o Ho)); (destruct f as [f|]; [cbn [capital] in Hf; cbn [app forallb lit list_ascii_of_string]; rewrite (solid_plain f (up_plain f Hf))|]; reflexivity).
  - intros (Hy & Hq & Hw). apply textual_left; [split; reflexivity|]. rewrite !forallb_app, (proj1 (four_solid y Hy)), (proj1 (digits_solid w Hw)).
    destruct Hq as [<-|[<-|[<-|[<-|[<-|[]]]]]]; reflexivity.
  - intros (Hy & Hb & Hw). apply textual_left; [split; reflexivity|]. rewrite !forallb_app, (proj1 (four_solid y Hy)), (proj1 (digits_solid w Hw)).
    assert (forallb plain_char b = true) as ->; [|reflexivity].
    destruct Hb as [n Hn|y' h o n Hy' Hh Ho Hn]; [now apply digits_solid|].
    rewrite !forallb_app, (proj1 (four_solid y' Hy')), (proj1 (digits_solid n Hn)). cbn [forallb]. rewrite (solid_plain h (hm_plain h Hh)).
    destruct o as [o|]; cbn [letter_of forallb]; rewrite ?(solid_plain o (or_plain o Ho)); reflexivity.
Qed.

Section Types.
Variable F : derivation -> str -> Prop.
Hypothesis R : reads_texts F.

Lemma perm_type T s : is_type3 T $"PermIDType" perm_pattern $"25" ->
  (simple F T $"PermIDType" s <-> length s <= 25 /\ exists i, perm_shaped i /\ perm_written i = s /\ perm_short i).
Proof.
  intro H. rewrite (type3 F T _ _ _ s R H), (matches_lang _ _ s perm_read), string_lang. change (value $"25") with 25. split.
  - intros (M & L & _). split; [exact L|]. now apply perm_lang_to.
  - intros (L & i & Hi & <- & Sh). split; [now apply perm_lang_from|]. split; [exact L|]. now apply perm_textual.
Qed.
Lemma base_type T s : is_type3 T $"BaseProvIDType" prov_pattern $"25" ->
  (simple F T $"BaseProvIDType" s <-> length s <= 25 /\ exists i, prov_shaped i /\ prov_written i = s).
Proof.
  intro H. rewrite (type3 F T _ _ _ s R H), (matches_lang _ _ s prov_read), string_lang. change (value $"25") with 25. split.
  - intros (M & L & _). split; [exact L|]. now apply prov_lang_to.
  - intros (L & i & Hi & <-). split; [now apply prov_lang_from|]. split; [exact L|]. now apply prov_textual.
Qed.
Lemma old_type s : simple F general_xsd $"OldProvIDType" s <-> old_designation s.
Proof.
  rewrite (type3 F _ _ _ _ s R old_general), (matches_lang _ _ s old_prov_read), string_lang, old_prov_lang. change (value $"25") with 25. split; [tauto|].
  intro H. split; [exact H|]. destruct H as (c & d & e & h & o & -> & Hc & Hd & He & Hh & Ho). split; [cbn; lia|]. split.
  - cbn [forallb]. rewrite (solid_plain d (dig_plain d Hd)), (solid_plain e (dig_plain e He)), (solid_plain h (hm_plain h Hh)), (solid_plain o (or_plain o Ho)).
    destruct Hc as [<-|[<-|[]]]; reflexivity.
  - reflexivity.
Qed.
Lemma prov_type_submit s : simple F submit_xsd $"ProvIDType" s <-> length s <= 25 /\ exists i, prov_shaped i /\ prov_written i = s.
Proof.
  rewrite (union_simple F submit_xsd $"ProvIDType" _ [$"BaseProvIDType"] s eq_refl ltac:(vm_compute; reflexivity) ltac:(vm_compute; reflexivity) ltac:(vm_compute; reflexivity)).
  rewrite <- (base_type submit_xsd s base_submit). split; [intros (m & [<-|[]] & H); exact H|]. intro H. eexists. split; [left; reflexivity|exact H].
Qed.
Lemma prov_type_general s : simple F general_xsd $"ProvIDType" s <-> (length s <= 25 /\ exists i, prov_shaped i /\ prov_written i = s) \/ old_designation s.
Proof.
  rewrite (union_simple F general_xsd $"ProvIDType" _ [$"BaseProvIDType"; $"OldProvIDType"] s eq_refl ltac:(vm_compute; reflexivity) ltac:(vm_compute; reflexivity) ltac:(vm_compute; reflexivity)).
  rewrite <- (base_type general_xsd s base_general), <- old_type. split.
  - intros (m & [<-|[<-|[]]] & H); [now left|now right].
  - intros [H|H]; eexists; (split; [|exact H]); [left; reflexivity|right; left; reflexivity].
Qed.

Lemma schema_char_plain : forall c, trk_schema_char c = true -> solid_char c = true. Proof. apply imp_ascii. vm_compute. reflexivity. Qed.
Lemma basetrk T s : is_type2 T $"BaseTrkSubType" trk_pattern $"8" ->
  (simple F T $"BaseTrkSubType" s <-> 1 <= length s <= 8 /\ forallb trk_schema_char s = true).
Proof.
  intro H. rewrite (type2 F T _ _ _ s R H), trk_lang, string_lang. change (value $"8") with 8. split.
  - intros ((M & L) & P & S). split; [|exact M]. split; [|exact L]. destruct s; [discriminate S|cbn; lia].
  - intros ((L1 & L) & M). split; [now split|]. split.
    + revert M. apply forallb_imp. intros c Hc. now apply solid_plain, schema_char_plain.
    + destruct s as [|c s]; [cbn in L1; lia|]. cbn [forallb] in M. apply andb_prop in M as [M _]. cbn [existsb]. now rewrite (schema_char_plain c M).
Qed.
Lemma old_not_space : forall c, old_trk_char c = true -> plain_char c = true. Proof. apply imp_ascii. vm_compute. reflexivity. Qed.
Lemma old_solid : forall c, old_trk_char c && negb (ceqb c " ") = true -> solid_char c = true. Proof. apply imp_ascii. vm_compute. reflexivity. Qed.
Lemma oldtrk s : simple F general_xsd $"OldTrkSubType" s <-> length s <= 8 /\ forallb old_trk_char s = true /\ exists c, In c s /\ c <> " "%char.
Proof.
  rewrite (type2 F _ _ _ _ s R oldtrk_general), old_trk_lang, string_lang. change (value $"8") with 8. split.
  - intros ((M & L) & P & S). split; [exact L|]. split; [exact M|]. apply existsb_exists in S as (c & I & Hc). exists c. split; [exact I|].
    intros ->. discriminate Hc.
  - intros (L & M & c & I & N). split; [now split|]. split; [revert M; apply forallb_imp, old_not_space|].
    apply existsb_exists. exists c. split; [exact I|]. apply old_solid. rewrite forallb_forall in M. rewrite (M c I). destruct (ceqb c " ") eqn:E; [|reflexivity].
    apply ceqb_eq in E. now destruct N.
Qed.
Lemma trk_type_submit s : simple F submit_xsd $"TrkSubType" s <-> 1 <= length s <= 8 /\ forallb trk_schema_char s = true.
Proof.
  rewrite (union_simple F submit_xsd $"TrkSubType" _ [$"BaseTrkSubType"] s eq_refl ltac:(vm_compute; reflexivity) ltac:(vm_compute; reflexivity) ltac:(vm_compute; reflexivity)).
  rewrite <- (basetrk submit_xsd s trk_submit). split; [intros (m & [<-|[]] & H); exact H|]. intro H. eexists. split; [left; reflexivity|exact H].
Qed.
Lemma trk_type_general s : simple F general_xsd $"TrkSubType" s <-> length s <= 8 /\ forallb old_trk_char s = true /\ exists c, In c s /\ c <> " "%char.
Proof.
  rewrite (union_simple F general_xsd $"TrkSubType" _ [$"BaseTrkSubType"; $"OldTrkSubType"] s eq_refl ltac:(vm_compute; reflexivity) ltac:(vm_compute; reflexivity) ltac:(vm_compute; reflexivity)).
  split.
  - intros (m & [<-|[<-|[]]] & H); [|now apply oldtrk]. apply (basetrk _ _ trk_general) in H as ((L1 & L) & M). split; [exact L|]. split.
    + revert M. apply forallb_imp. intros c Hc. unfold old_trk_char. now rewrite Hc.
    + destruct s as [|c s]; [cbn in L1; lia|]. exists c. split; [now left|]. cbn [forallb] in M. apply andb_prop in M as [M _]. intros ->. discriminate M.
  - intro H. eexists. split; [right; left; reflexivity|]. now apply oldtrk.
Qed.
End Types.

(** identifier elements anywhere in a valid document *)
Lemma element_type F S e d t : no_clash S = true -> valid F S e -> d = e \/ In d (descendants e) ->
  option_map (attr_text $"type") (component S $"xsd:element" (xtag d)) = Some t ->
  component S $"xsd:complexType" t = None -> simple F S t (xtext d).
Proof.
  intros NC V I C N. destruct (component S _ (xtag d)) as [c|] eqn:K; [|discriminate C].
  assert (attr_text $"type" c = t) as C' by (injection C as C; exact C).
  pose proof (valid_everywhere S NC F e d c V I K) as H. rewrite C' in H.
  apply valid_type_inv in H as [(Hs & _)|(ct & Co & _)]; [exact Hs|rewrite N in Co; discriminate Co].
Qed.
Lemma submit_clash : no_clash submit_xsd = true. Proof. vm_compute. reflexivity. Qed.
Lemma submitted F e d x t : valid F submit_xsd e -> d = e \/ In d (descendants e) -> xtag d = x ->
  option_map (attr_text $"type") (component submit_xsd $"xsd:element" x) = Some t ->
  component submit_xsd $"xsd:complexType" t = None -> simple F submit_xsd t (xtext d).
Proof. intros V I <- C N. exact (element_type F submit_xsd e d t submit_clash V I C N). Qed.

Definition not_nl (c : ascii) : bool := negb (ceqb c nl).
Lemma perm_no_newline i : perm_shaped i -> ~ In nl (perm_written i).
Proof.
  assert (forall s, forallb not_nl s = true -> ~ In nl s) as K.
  { intros s H J. rewrite forallb_forall in H. discriminate (H _ J). }
  assert (forall w, forallb isdig w = true -> forallb not_nl w = true) as D by (intro w; apply forallb_imp, imp_ascii; vm_compute; reflexivity).
  assert (forall w, forallb isupper w = true -> forallb not_nl w = true) as U by (intro w; apply forallb_imp, imp_ascii; vm_compute; reflexivity).
  intro H. apply K. revert H. destruct i as [w|w t f|q w|w n]; cbn [perm_shaped perm_written].
  - intros [H _]. auto.
  - intros ((Hw & _) & Ht & Hf & _). rewrite !forallb_app, (D w Hw).
    destruct Ht as [<-|[<-|[<-|[]]]]; (destruct f as [|a f]; [reflexivity|]); cbn [forallb andb]; rewrite forallb_app, (U _ Hf); reflexivity.
  - intros (Hq & Hw & _). rewrite !forallb_app, (D w Hw). destruct Hq as [<-|[<-|[<-|[<-|[<-|[]]]]]]; reflexivity.
  - intros ((Hw & _) & Hn & _). rewrite !forallb_app, (D w Hw), (D n Hn). reflexivity.
Qed.
