From Verif Require Import PyStrProofs AdesTables TablesSpec.

Lemma smem_In k l : smem k l = true <-> In k l.
Proof.
  unfold smem. rewrite existsb_exists. split.
  - intros (x & I & E). apply streqb_eq in E. now subst.
  - intros I. exists k. split; auto. now apply streqb_eq.
Qed.

Lemma streqb_refl s : streqb s s = true.
Proof. now apply streqb_eq. Qed.
Lemma streqb_neq a b : a <> b -> streqb a b = false.
Proof. intros N. destruct (streqb a b) eqn:E; auto. apply streqb_eq in E. congruence. Qed.

Lemma dget_dset_eq {A} k (v : A) d : dget k (dset k v d) = Some v.
Proof.
  induction d as [|[k' v'] d IH]; simpl; [now rewrite streqb_refl|].
  destruct (streqb k k') eqn:E; simpl; [now rewrite streqb_refl|now rewrite E].
Qed.
Lemma dget_dset_ne {A} k k' (v : A) d : k <> k' -> dget k (dset k' v d) = dget k d.
Proof.
  intros N. induction d as [|[k2 v2] d IH]; simpl.
  - now rewrite streqb_neq.
  - destruct (streqb k' k2) eqn:E; simpl.
    + apply streqb_eq in E. subst. now rewrite streqb_neq.
    + now rewrite IH.
Qed.
Lemma dget_map {A B} (f : A -> B) k d : dget k (map (fun kv => (fst kv, f (snd kv))) d) = option_map f (dget k d).
Proof. induction d as [|[k' v] d IH]; simpl; auto. destruct (streqb k k'); auto. Qed.

(** * dedupe *)
Lemma fromkeys_aux_In seen l : forall x, In x (fromkeys_aux seen l) <-> In x l /\ ~ In x seen.
Proof.
  revert seen. induction l as [|y l IH]; intros seen x; simpl; [tauto|].
  destruct (smem y seen) eqn:E.
  - apply smem_In in E. rewrite IH. split; [tauto|]. intros [[->|I] N]; tauto.
  - assert (~ In y seen) by (intros I; apply smem_In in I; congruence).
    simpl. rewrite IH. simpl. split.
    + intros [->|[I N]]; tauto.
    + intros [[->|I] N]; auto. destruct (list_eq_dec Ascii.ascii_dec y x); [now left|]. right. tauto.
Qed.

Lemma fromkeys_aux_app seen l x : fromkeys_aux seen (l ++ [x]) =
  fromkeys_aux seen l ++ (if smem x seen || smem x l then [] else [x]).
Proof.
  revert seen. induction l as [|y l IH]; intros seen; simpl.
  - rewrite orb_false_r. now destruct (smem x seen).
  - destruct (smem y seen) eqn:E.
    + rewrite IH. f_equal. destruct (smem x seen) eqn:E2; simpl; auto.
      unfold smem at 2; simpl. destruct (streqb x y) eqn:E3; auto.
      apply streqb_eq in E3. subst. congruence.
    + rewrite IH. simpl. f_equal. f_equal.
      unfold smem; simpl. destruct (existsb (streqb x) seen), (streqb x y), (existsb (streqb x) l); reflexivity.
Qed.

Lemma smem_rev x l : smem x (rev l) = smem x l.
Proof.
  destruct (smem x l) eqn:E.
  - apply smem_In. rewrite <- in_rev. now apply smem_In.
  - destruct (smem x (rev l)) eqn:E2; auto. apply smem_In in E2. rewrite <- in_rev in E2. apply smem_In in E2. congruence.
Qed.

Lemma dedupe_spec l : dedupe l = last_occurrences l.
Proof.
  assert (G : rev (fromkeys (rev l)) = last_occurrences l).
  { unfold fromkeys. induction l as [|x l IH]; auto. simpl.
    rewrite fromkeys_aux_app, rev_app_distr. simpl. rewrite smem_rev.
    destruct (smem x l); simpl; now rewrite IH. }
  unfold dedupe. destruct l; auto.
Qed.

Lemma last_occurrences_In l x : In x (last_occurrences l) <-> In x l.
Proof.
  induction l as [|y l IH]; simpl; [tauto|]. destruct (smem y l) eqn:E.
  - rewrite IH. split; auto. intros [->|I]; auto. now apply smem_In.
  - simpl. now rewrite IH.
Qed.
Lemma last_occurrences_NoDup l : NoDup (last_occurrences l).
Proof.
  induction l as [|y l IH]; simpl; [constructor|]. destruct (smem y l) eqn:E; auto.
  constructor; auto. rewrite last_occurrences_In. intros I. apply smem_In in I. congruence.
Qed.

(** * lines *)
Definition w0_is (w : str) (l : list str) : Prop := exists r, l = w :: r.
Definition body_line (l : list str) : Prop :=
  (exists n r, l = $"element" :: n :: r) \/ (exists n r, l = $"open" :: n :: r) \/
  (exists r, l = $"close" :: r) \/ (exists r, l = $"complex" :: r) \/ (exists r, l = $"end" :: r).
Definition line_name (l : list str) : list str :=
  match l with w0 :: w1 :: _ => if streqb w0 $"element" then [w1] else [] | _ => [] end.
Definition names (ls : list (list str)) : list str := flat_map line_name ls.

Lemma names_app a b : names (a ++ b) = names a ++ names b.
Proof. unfold names. induction a; simpl; auto. now rewrite IHa, app_assoc. Qed.

Lemma append_at_inv k v d d' : append_at k v d = Ok d' ->
  exists l, dget k d = Some l /\ dget k d' = Some (l ++ [v]) /\ forall k', k' <> k -> dget k' d' = dget k' d.
Proof.
  unfold append_at. destruct (dget k d) eqn:E; [|discriminate]. intros H; inversion H; subst.
  exists l. split; auto. split; [apply dget_dset_eq|]. intros. now apply dget_dset_ne.
Qed.

(** what a block of body lines does *)
Definition block_effect (c : str) (add : list str) (s s' : rstate) : Prop :=
  r_cur s' = Some c /\ (exists b, r_still s' = Some b) /\
  psvFormat (r_t s') = psvFormat (r_t s) /\
  (forall l, dget c (allowed (r_t s)) = Some l -> dget c (allowed (r_t s')) = Some (l ++ add)) /\
  (forall k, k <> c -> dget k (allowed (r_t s')) = dget k (allowed (r_t s))) /\
  (forall l, dget c (required (r_t s)) = Some l ->
     exists radd, dget c (required (r_t s')) = Some (l ++ radd) /\ incl radd add) /\
  (forall k, k <> c -> dget k (required (r_t s')) = dget k (required (r_t s))).

Lemma block_refl c s b : r_cur s = Some c -> r_still s = Some b -> block_effect c [] s s.
Proof.
  intros C B. unfold block_effect. repeat split; eauto.
  - intros. now rewrite app_nil_r.
  - intros l H. exists []. rewrite app_nil_r. split; auto. easy.
Qed.

Lemma block_trans c a1 a2 s1 s2 s3 : block_effect c a1 s1 s2 -> block_effect c a2 s2 s3 -> block_effect c (a1 ++ a2) s1 s3.
Proof.
  intros (A1 & A2 & A3 & A4 & A5 & A6 & A7) (B1 & B2 & B3 & B4 & B5 & B6 & B7).
  unfold block_effect. repeat split; eauto.
  - congruence.
  - intros l H. rewrite app_assoc. auto.
  - intros k N. rewrite B5; auto.
  - intros l H. destruct (A6 l H) as (r1 & R1 & I1). destruct (B6 _ R1) as (r2 & R2 & I2).
    exists (r1 ++ r2). rewrite app_assoc. split; auto. apply incl_app; [apply incl_appl|apply incl_appr]; auto.
  - intros k N. rewrite B7; auto.
Qed.

Lemma lit_neq_dec (a b : str) : {a = b} + {a <> b}.
Proof. apply (list_eq_dec Ascii.ascii_dec). Defined.

Ltac decide_lits :=
  repeat match goal with
  | |- context[streqb ?a ?b] =>
      let r := eval vm_compute in (streqb a b) in
      match r with
      | true => change (streqb a b) with true
      | false => change (streqb a b) with false
      end
  | H : context[streqb ?a ?b] |- _ =>
      let r := eval vm_compute in (streqb a b) in
      match r with
      | true => change (streqb a b) with true in H
      | false => change (streqb a b) with false in H
      end
  end.

Lemma read_line_body l s s' c b : body_line l -> r_cur s = Some c -> r_still s = Some b ->
  read_line l s = Ok s' -> block_effect c (line_name l) s s'.
Proof.
  intros B C S E.
  destruct B as [(n & r & ->)|[(n & r & ->)|[(r & ->)|[(r & ->)|(r & ->)]]]];
    unfold read_line in E; unfold line_name; decide_lits; cbn [negb] in *.
  - cbn [word nth_error rbind] in E. rewrite C, S in E.
    destruct (append_at c n (allowed (r_t s))) as [a|] eqn:Ea; cbn [rbind] in E; [|discriminate].
    destruct (append_at_inv _ _ _ _ Ea) as (l0 & G1 & G2 & G3).
    assert (K : forall st, block_effect c [n] s
       {| r_t := {| allowed := a; required := required (r_t s); psvFormat := psvFormat (r_t s) |};
          r_cur := Some c; r_still := Some st |}).
    { intros st. unfold block_effect; simpl. repeat split; eauto.
      - intros l H. congruence.
      - intros l H. exists []. rewrite app_nil_r. split; auto. easy. }
    destruct b.
    + destruct (word _ 3) as [w3|] eqn:Ew in E; cbn [rbind] in E; [|discriminate].
      destruct (streqb w3 $"required").
      * destruct (append_at c n (required (r_t s))) as [rq|] eqn:Er; cbn [rbind] in E; [|discriminate].
        destruct (append_at_inv _ _ _ _ Er) as (l1 & H1 & H2 & H3).
        inversion E; subst. rewrite ?C. unfold block_effect; simpl. repeat split; eauto.
        -- intros l H. congruence.
        -- intros l H. exists [n]. rewrite H in H1. inversion H1; subst. split; auto. apply incl_refl.
      * inversion E; subst. rewrite ?C, ?S. apply K.
    + inversion E; subst. rewrite ?C, ?S. apply K.
  - assert (K : forall st, block_effect c [] s {| r_t := r_t s; r_cur := r_cur s; r_still := Some st |}).
    { intros st. unfold block_effect; simpl. repeat split; eauto.
      - intros. now rewrite app_nil_r.
      - intros l H. exists []. rewrite app_nil_r. split; auto. easy. }
    cbn [word nth_error rbind] in E. destruct (streqb n $"choice"); cbn [negb] in E.
    + destruct (word _ 3) as [w3|] eqn:Ew in E; cbn [rbind] in E; [|discriminate].
      destruct (streqb w3 $"required"); cbn [negb] in E; inversion E; subst.
      * eapply block_refl; eauto.
      * apply K.
    + inversion E; subst. apply K.
  - inversion E; subst.
    replace (match r with [] => [] | _ :: _ => [] end) with (@nil str) by now destruct r.
    unfold block_effect; simpl. repeat split; eauto.
    + intros. now rewrite app_nil_r.
    + intros l H. exists []. rewrite app_nil_r. split; auto. easy.
  - inversion E; subst. replace (match r with [] => [] | _ :: _ => [] end) with (@nil str) by now destruct r.
    eapply block_refl; eauto.
  - inversion E; subst. replace (match r with [] => [] | _ :: _ => [] end) with (@nil str) by now destruct r.
    eapply block_refl; eauto.
Qed.

Lemma read_lines_body ls : forall s s' c b, Forall body_line ls -> r_cur s = Some c -> r_still s = Some b ->
  read_lines ls s = Ok s' -> block_effect c (names ls) s s'.
Proof.
  induction ls as [|l ls IH]; intros s s' c b F C B E; simpl in E.
  - inversion E; subst. eapply block_refl; eauto.
  - inversion F; subst. destruct (read_line l s) as [s1|] eqn:E1; simpl in E; [|discriminate].
    pose proof (read_line_body _ _ _ _ _ H1 C B E1) as K.
    destruct K as (K1 & [b1 K2] & K3) eqn:EK; clear EK.
    unfold names; simpl. eapply block_trans; [|eapply IH; eauto].
    unfold block_effect. eauto.
Qed.

Lemma read_lines_app a b s : read_lines (a ++ b) s = (do s' <- read_lines a s; read_lines b s').
Proof. revert s. induction a as [|l a IH]; intros s; simpl; auto. destruct (read_line l s); simpl; auto. Qed.

(** * the style sheet's lines mention what the definitions mention *)
Lemma cat_opt_app {A} (f : A -> option (list (list str))) a b :
  cat_opt f (a ++ b) = match cat_opt f a, cat_opt f b with Some x, Some y => Some (x ++ y) | _, _ => None end.
Proof.
  induction a as [|k a IH]; simpl.
  - destruct (cat_opt f b); auto.
  - rewrite IH. destruct (f k); auto.
    destruct (cat_opt f a), (cat_opt f b); auto. now rewrite app_assoc.
Qed.
Lemma cat_opt_flat {A B} (f : B -> option (list (list str))) (g : A -> list B) xs :
  cat_opt (fun a => cat_opt f (g a)) xs = cat_opt f (flat_map g xs).
Proof.
  induction xs as [|x xs IH]; simpl; auto. rewrite cat_opt_app, <- IH. reflexivity.
Qed.

Lemma has_tag_iff t x : has_tag t x = true <-> xtag x = t.
Proof. apply streqb_eq. Qed.
Lemma has_tag_no t x : xtag x <> t -> has_tag t x = false.
Proof. apply streqb_neq. Qed.

Lemma mentions_all_cat m f : (forall x ls, f x = Some ls -> Forall body_line ls /\ mentions m x (names ls)) ->
  forall xs ls, cat_opt f xs = Some ls -> Forall body_line ls /\ mentions_all m xs (names ls).
Proof.
  intros K. induction xs as [|x xs IH]; intros ls E; simpl in E.
  - inversion E; subst. split; constructor.
  - destruct (f x) as [a|] eqn:Ea; [|discriminate].
    destruct (cat_opt f xs) as [b|] eqn:Eb; [|discriminate]. inversion E; subst.
    destruct (K _ _ Ea) as [A1 A2]. destruct (IH _ eq_refl) as [B1 B2].
    split; [now apply Forall_app|]. rewrite names_app. now constructor.
Qed.

Lemma open_line_name w r : line_name ($"open" :: w :: r) = [].
Proof. reflexivity. Qed.

Lemma table_lines_S f m x : table_lines (S f) m x =
      if has_tag $"element" x then
        match attr $"ref" x with
        | Some r => Some [[$"element"; r] ++ processUse x]
        | None => Some [[$"element"; attr_text $"name" x] ++ processUse x]
        end
      else if has_tag $"group" x && (match attr $"ref" x with Some _ => true | None => false end) then
        let r := attr_text $"ref" x in
        match cat_opt (fun g => cat_opt (table_lines f m) (xkids g)) (descend $"grouptype" r m) with
        | Some b => Some ([[$"open"; $"group"; r] ++ processUse x] ++ b ++ [[$"close"; $"group"; r]])
        | None => None
        end
      else if has_tag $"sequence" x || has_tag $"all" x || has_tag $"choice" x then
        match cat_opt (table_lines f m) (xkids x) with
        | Some b => Some ([[$"open"; xtag x] ++ processUse x] ++ b ++ [[$"close"; xtag x]])
        | None => None
        end
      else if has_tag $"doc" x then Some []
      else cat_opt (table_lines f m) (xkids x).
Proof. reflexivity. Qed.

Lemma some_inj {A} (a b : A) : Some a = Some b -> a = b.
Proof. congruence. Qed.
Lemma names_wrap o c b : line_name o = [] -> line_name c = [] -> names ([o] ++ b ++ [c]) = names b.
Proof. intros O C. unfold names. simpl. rewrite O. simpl. fold (names (b ++ [c])). rewrite names_app. cbn [names flat_map]. rewrite C. unfold names. simpl. now rewrite app_nil_r. Qed.
Lemma Forall1 {A} (P : A -> Prop) x : P x -> Forall P [x].
Proof. auto. Qed.
Lemma body_open w r : body_line ($"open" :: w :: r).
Proof. right; left. eauto. Qed.
Lemma body_close r : body_line ($"close" :: r).
Proof. right; right; left. eauto. Qed.
Lemma body_element w r : body_line ($"element" :: w :: r).
Proof. left. eauto. Qed.

Lemma table_lines_mentions m : forall f x ls, table_lines f m x = Some ls ->
  Forall body_line ls /\ mentions m x (names ls).
Proof.
  induction f as [|f IH]; intros x ls E; [discriminate|]. rewrite table_lines_S in E.
  destruct (has_tag $"element" x) eqn:T1.
  { apply has_tag_iff in T1. destruct (attr $"ref" x) as [r|] eqn:A; inversion E; subst.
    - split; [apply Forall1, body_element|]. now apply m_ref.
    - split; [apply Forall1, body_element|]. now apply m_name. }
  assert (N1 : xtag x <> $"element") by (intros K; apply has_tag_iff in K; congruence).
  destruct (has_tag $"group" x) eqn:T2; [destruct (attr $"ref" x) as [r|] eqn:A|]; cbn [andb] in E.
  - apply has_tag_iff in T2. unfold attr_text in E. rewrite A in E. cbn zeta in E.
    rewrite cat_opt_flat in E.
    destruct (cat_opt _ _) as [b|] eqn:Eb in E; [|discriminate]. apply some_inj in E; subst ls.
    destruct (mentions_all_cat m _ IH _ _ Eb) as [B1 B2]. split.
    + constructor; [apply body_open|]. apply Forall_app. split; auto. apply Forall1, body_close.
    + eapply m_group; eauto.
      now rewrite names_wrap.
  - destruct (has_tag $"sequence" x || has_tag $"all" x || has_tag $"choice" x) eqn:T3.
    + apply has_tag_iff in T2. exfalso. unfold has_tag in T3. rewrite T2 in T3. discriminate.
    + destruct (has_tag $"doc" x) eqn:T4.
      * apply has_tag_iff in T2, T4. rewrite T2 in T4. discriminate.
      * destruct (mentions_all_cat m _ IH _ _ E) as [B1 B2]. split; auto. apply m_inner; auto.
        intros K; apply has_tag_iff in K; congruence.
  - assert (N2 : xtag x <> $"group") by (intros K; apply has_tag_iff in K; congruence).
    destruct (has_tag $"sequence" x || has_tag $"all" x || has_tag $"choice" x) eqn:T3.
    + destruct (cat_opt _ _) as [b|] eqn:Eb in E; [|discriminate]. apply some_inj in E; subst ls.
      destruct (mentions_all_cat m _ IH _ _ Eb) as [B1 B2]. split.
      * constructor; [apply body_open|]. apply Forall_app. split; auto. apply Forall1, body_close.
      * apply m_inner; auto; [|tauto|].
        -- intros K. unfold has_tag in T3. rewrite K in T3. discriminate.
        -- now rewrite names_wrap.
    + destruct (has_tag $"doc" x) eqn:T4.
      * inversion E; subst. split; [constructor|]. apply m_doc. now apply has_tag_iff.
      * destruct (mentions_all_cat m _ IH _ _ E) as [B1 B2]. split; auto. apply m_inner; auto; [|tauto].
        intros K; apply has_tag_iff in K; congruence.
Qed.

(** the types of one declaration: what all their definitions mention *)
Definition decl_types (m e : xml) : list xml :=
  match attr $"type" e with Some t => descend $"complextype" t m | None => [] end.

Lemma complex_lines_mentions m f c ls : complex_lines f m c = Some ls ->
  Forall body_line ls /\ mentions_all m (xkids c) (names ls).
Proof.
  unfold complex_lines.
  destruct (cat_opt _ _) as [b|] eqn:Eb; [|discriminate]. intros E; apply some_inj in E; subst ls.
  destruct (mentions_all_cat m _ (table_lines_mentions m f) _ _ Eb) as [B1 B2]. split.
  - constructor; [right; right; right; left; eauto|]. apply Forall_app. split; auto. apply Forall1.
    right; right; right; right; eauto.
  - now rewrite names_wrap.
Qed.

Lemma mentions_all_app m a b la lb : mentions_all m a la -> mentions_all m b lb -> mentions_all m (a ++ b) (la ++ lb).
Proof.
  induction 1; intros Hb; auto. simpl. rewrite <- app_assoc. constructor; auto.
Qed.

Lemma element_lines_mentions m f e ls : element_lines f m e = Some ls ->
  exists b, ls = [$"top"; attr_text $"name" e] :: b /\ Forall body_line b /\
    mentions_all m (flat_map xkids (decl_types m e)) (names b).
Proof.
  unfold element_lines. fold (decl_types m e).
  destruct (cat_opt _ _) as [b|] eqn:Eb; [|discriminate]. intros E; apply some_inj in E; subst ls.
  exists (b ++ [[$"close"; attr_text $"name" e]]). split; auto.
  assert (G : forall cs b, cat_opt (complex_lines f m) cs = Some b ->
     Forall body_line b /\ mentions_all m (flat_map xkids cs) (names b)).
  { clear. induction cs as [|c cs IH]; intros b E; simpl in E.
    - inversion E; subst. split; constructor.
    - destruct (complex_lines f m c) as [a|] eqn:Ea; [|discriminate].
      destruct (cat_opt _ cs) as [b'|] eqn:Eb; [|discriminate]. inversion E; subst.
      destruct (complex_lines_mentions _ _ _ _ Ea), (IH _ eq_refl).
      split; [now apply Forall_app|]. rewrite names_app. simpl. now apply mentions_all_app. }
  destruct (G _ _ Eb) as [G1 G2]. split.
  - apply Forall_app. split; auto. apply Forall1, body_close.
  - rewrite names_app. cbn. now rewrite app_nil_r.
Qed.

(** * reading the declarations *)
Lemma read_element_lines m f e ls s s' : element_lines f m e = Some ls -> read_lines ls s = Ok s' ->
  exists l radd, mentions_all m (flat_map xkids (decl_types m e)) l /\
    dget (attr_text $"name" e) (allowed (r_t s')) = Some l /\
    dget (attr_text $"name" e) (required (r_t s')) = Some radd /\ incl radd l /\
    (forall k, k <> attr_text $"name" e -> dget k (allowed (r_t s')) = dget k (allowed (r_t s)) /\
       dget k (required (r_t s')) = dget k (required (r_t s))).
Proof.
  intros El E. destruct (element_lines_mentions _ _ _ _ El) as (b & -> & F & M).
  cbn [read_lines] in E.
  set (nm := attr_text $"name" e) in *.
  assert (E1 : read_line [$"top"; nm] s = Ok {| r_t := {| allowed := dset nm [] (allowed (r_t s)); required := dset nm [] (required (r_t s));
                        psvFormat := psvFormat (r_t s) |}; r_cur := Some nm; r_still := Some true |}) by reflexivity.
  rewrite E1 in E. cbn [rbind] in E.
  assert (RB := fun C B => read_lines_body _ _ _ nm true F C B E). specialize (RB eq_refl eq_refl).
  destruct RB as (K1 & K2 & K3 & K4 & K5 & K6 & K7).
  simpl in K4, K5, K6, K7.
  destruct (K6 [] (dget_dset_eq _ _ _)) as (radd & R1 & R2).
  exists (names b), radd. repeat split; auto.
  - rewrite (K4 [] (dget_dset_eq _ _ _)). reflexivity.
  - rewrite K5 by auto. now apply dget_dset_ne.
  - rewrite K7 by auto. now apply dget_dset_ne.
Qed.

Lemma read_decls m f : forall es ls s s', cat_opt (element_lines f m) es = Some ls -> read_lines ls s = Ok s' ->
  (forall name pre e post, es = pre ++ e :: post -> attr_text $"name" e = name ->
     Forall (fun e' => attr_text $"name" e' <> name) post ->
     exists l radd, mentions_all m (flat_map xkids (decl_types m e)) l /\
       dget name (allowed (r_t s')) = Some l /\
       dget name (required (r_t s')) = Some radd /\ incl radd l) /\
  (forall k, Forall (fun e' => attr_text $"name" e' <> k) es ->
     dget k (allowed (r_t s')) = dget k (allowed (r_t s)) /\ dget k (required (r_t s')) = dget k (required (r_t s))).
Proof.
  induction es as [|e es IH]; intros ls s s' C E; simpl in C.
  - inversion C; subst. simpl in E. inversion E; subst. split; auto.
    intros name pre e post H. destruct pre; discriminate.
  - destruct (element_lines f m e) as [a|] eqn:Ea; [|discriminate].
    destruct (cat_opt _ es) as [b|] eqn:Eb; [|discriminate]. inversion C; subst; clear C.
    rewrite read_lines_app in E. destruct (read_lines a s) as [s1|] eqn:E1; simpl in E; [|discriminate].
    destruct (read_element_lines _ _ _ _ _ _ Ea E1) as (l & radd & M & G1 & G2 & G3 & G4).
    destruct (IH _ _ _ eq_refl E) as [I1 I2]. split.
    + intros name pre e0 post H N P. destruct pre as [|p pre]; simpl in H; inversion H; subst.
      * exists l, radd. destruct (I2 _ P) as [J1 J2]. rewrite J1, J2. auto.
      * eapply I1; eauto.
    + intros k P. inversion P; subst. destruct (I2 _ H2) as [-> ->]. apply G4. auto.
Qed.

Lemma read_psv ps : forall s s', read_lines (map psv_line ps) s = Ok s' ->
  allowed (r_t s') = allowed (r_t s) /\ required (r_t s') = required (r_t s).
Proof.
  induction ps as [|p ps IH]; intros s s' E; cbn [map read_lines] in E.
  - inversion E; auto.
  - destruct (read_line (psv_line p) s) as [s1|] eqn:E1; cbn [rbind] in E; [|discriminate].
    apply IH in E as [-> ->]. unfold read_line, psv_line in E1. decide_lits.
    cbn [word nth_error rbind] in E1.
    destruct (py_int _); cbn [rbind] in E1; [|discriminate].
    destruct (py_int _); cbn [rbind] in E1; [|discriminate].
    inversion E1; subst. auto.
Qed.

Theorem tables_spec fuel m T name e : readAdesTables fuel m = Some (Ok T) -> declared m name e ->
  exists l, mentions_all m (flat_map xkids (decl_types m e)) l /\
    dget name (allowed T) = Some (last_occurrences l) /\
    exists r, dget name (required T) = Some r /\ NoDup r /\ incl r l.
Proof.
  unfold readAdesTables, tableades. intros R (pre & post & D & N & P).
  destruct (cat_opt (element_lines fuel m) (element_decls m)) as [b|] eqn:Eb; [|discriminate].
  inversion R as [R1]; clear R. rewrite read_lines_app in R1.
  match type of R1 with context[read_lines b ?s0] => destruct (read_lines b s0) as [s1|] eqn:E1 end; simpl in R1; [|discriminate].
  destruct (read_lines (map psv_line _) s1) as [s2|] eqn:E2; simpl in R1; [|discriminate].
  inversion R1; subst; clear R1.
  destruct (read_decls _ _ _ _ _ _ Eb E1) as [I1 _].
  destruct (I1 _ _ _ _ D eq_refl P) as (l & radd & M & G1 & G2 & G3).
  destruct (read_psv _ _ _ E2) as [J1 J2].
  exists l. split; auto. cbn [allowed required]. rewrite !dget_map, J1, J2, G1, G2. simpl.
  rewrite !dedupe_spec. split; auto. eexists; split; auto. split; [apply last_occurrences_NoDup|].
  intros x I. apply G3. now apply last_occurrences_In.
Qed.
