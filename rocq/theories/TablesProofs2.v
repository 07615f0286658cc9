From Verif Require Import PyStrProofs AdesTables TablesSpec TablesSpec2 TablesProofs.

(** * [counted] *)

Fixpoint is_free (b0 : bool) (l : list mark) : bool :=
  match l with
  | [] => b0
  | Begins b :: l' => is_free (b && b0) l'
  | Ends :: l' => is_free true l'
  | Names _ _ :: l' => is_free b0 l'
  end.
Lemma is_free_app b a c : is_free b (a ++ c) = is_free (is_free b a) c.
Proof. revert b. induction a as [|[x| |n k] a IH]; intros b; cbn; auto. Qed.
Lemma counted_app b a c : counted b (a ++ c) = counted b a ++ counted (is_free b a) c.
Proof.
  revert b. induction a as [|[x| |n k] a IH]; intros b; cbn [app counted is_free]; auto.
  rewrite IH. now rewrite app_assoc.
Qed.
Lemma is_free_free l : is_free true l = true <-> free l.
Proof.
  induction l as [|k l IH] using rev_ind.
  - split; auto. intros _. left. intros b [].
  - rewrite is_free_app. destruct k as [b| |n k]; cbn.
    + destruct b; cbn.
      * rewrite IH. split.
        -- intros [A|(u & v & -> & V)].
           ++ left. intros b I. apply in_app_or in I as [I|[I|[]]]; [now apply A|congruence].
           ++ right. exists u, (v ++ [Begins true]). split; [now rewrite <- app_assoc|].
              intros b I. apply in_app_or in I as [I|[I|[]]]; [now apply V|congruence].
        -- intros [A|(u & v & E & V)].
           ++ left. intros b I. apply A. apply in_or_app. now left.
           ++ destruct v as [|k v] using rev_ind.
              ** apply app_inj_tail in E as [_ E]. discriminate E.
              ** clear IHv. change (u ++ Ends :: v ++ [k]) with (u ++ (Ends :: v) ++ [k]) in E. rewrite app_assoc in E.
                 apply app_inj_tail in E as [-> <-]. right. exists u, v. split; auto.
                 intros b I. apply V. apply in_or_app. now left.
      * split; [discriminate|]. intros [A|(u & v & E & V)].
        -- exfalso. assert (Z : false = true) by (apply A; apply in_or_app; right; now left). discriminate Z.
        -- destruct v as [|k v] using rev_ind.
           ++ apply app_inj_tail in E as [_ E]. discriminate E.
           ++ clear IHv. change (u ++ Ends :: v ++ [k]) with (u ++ (Ends :: v) ++ [k]) in E. rewrite app_assoc in E.
              apply app_inj_tail in E as [_ <-].
              assert (Z : false = true) by (apply V; apply in_or_app; right; now left). discriminate Z.
    + split; auto. intros _. right. exists l, []. split; [reflexivity|intros b []].
    + rewrite IH. split.
      * intros [A|(u & v & -> & V)].
        -- left. intros b I. apply in_app_or in I as [I|[I|[]]]; [now apply A|discriminate I].
        -- right. exists u, (v ++ [Names n k]). split; [now rewrite <- app_assoc|].
           intros b I. apply in_app_or in I as [I|[I|[]]]; [now apply V|discriminate I].
      * intros [A|(u & v & E & V)].
        -- left. intros b I. apply A. apply in_or_app. now left.
        -- destruct v as [|k' v] using rev_ind.
           ++ apply app_inj_tail in E as [_ E]. discriminate E.
           ++ clear IHv. change (u ++ Ends :: v ++ [k']) with (u ++ (Ends :: v) ++ [k']) in E. rewrite app_assoc in E.
              apply app_inj_tail in E as [-> <-]. right. exists u, v. split; auto.
              intros b I. apply V. apply in_or_app. now left.
Qed.
Lemma counted_In b l n : In n (counted b l) <->
  exists before after, l = before ++ Names n true :: after /\ is_free b before = true.
Proof.
  revert b. induction l as [|k l IH]; intros b.
  - split; [intros []|]. intros (u & v & E & _). destruct u; discriminate E.
  - assert (G : forall b', (exists u v, l = u ++ Names n true :: v /\ is_free b' u = true) ->
       (is_free b [k] = b') -> exists u v, k :: l = u ++ Names n true :: v /\ is_free b u = true).
    { intros b' (u & v & -> & F) K. exists (k :: u), v. split; auto.
      change (k :: u) with ([k] ++ u). rewrite is_free_app, K. exact F. }
    assert (G' : (exists u v, k :: l = u ++ Names n true :: v /\ is_free b u = true) ->
       (k = Names n true /\ b = true) \/ exists u v, l = u ++ Names n true :: v /\ is_free (is_free b [k]) u = true).
    { intros (u & v & E & F). destruct u as [|k' u].
      - left. inversion E; subst. auto.
      - right. inversion E; subst. exists u, v. split; auto. change (k' :: u) with ([k'] ++ u) in F.
        now rewrite is_free_app in F. }
    destruct k as [x| |n' k]; cbn [counted].
    + rewrite IH. split; [intros H; eapply G; [exact H|reflexivity]|]. intros H. apply G' in H as [[H _]|H]; [discriminate H|exact H].
    + rewrite IH. split; [intros H; eapply G; [exact H|reflexivity]|]. intros H. apply G' in H as [[H _]|H]; [discriminate H|exact H].
    + rewrite in_app_iff, IH. split.
      * intros [H|H]; [|eapply G; [exact H|reflexivity]].
        destruct k, b; cbn in H; try (now destruct H). destruct H as [->|[]].
        exists [], l. split; reflexivity.
      * intros H. apply G' in H as [[H B]|H]; [|right; exact H].
        inversion H; subst. left. now left.
Qed.
Lemma counted_spec l n : In n (counted true l) <-> counts_as_required l n.
Proof.
  rewrite counted_In. split.
  - intros (u & v & E & F). exact (counts _ _ u v E (proj1 (is_free_free _) F)).
  - intros [u v E F]. exists u, v. split; auto. now apply is_free_free.
Qed.

(** * lines and marks *)
Definition line_mark (l : list str) : list mark :=
  match l with
  | w0 :: w1 :: r =>
      if streqb w0 $"element" then [Names w1 (match r with [_; u] => streqb u $"required" | _ => false end)]
      else if streqb w0 $"open" then [Begins (streqb w1 $"choice" && (match r with [_; u] => streqb u $"required" | _ => false end))]
      else if streqb w0 $"close" then [Ends] else []
  | _ => []
  end.
Definition marks_of (ls : list (list str)) : list mark := flat_map line_mark ls.
Lemma marks_of_app a b : marks_of (a ++ b) = marks_of a ++ marks_of b.
Proof. apply flat_map_app. Qed.

(** the lines the style sheet writes: for an element and a choice the use is the third and fourth word *)
Definition ruled (l : list str) : Prop :=
  (exists n x, l = $"element" :: n :: processUse x) \/
  (exists n x, l = $"open" :: n :: processUse x) \/
  (exists n x, l = $"open" :: $"group" :: n :: processUse x) \/
  (exists n, l = $"close" :: n :: []) \/ (exists n, l = [$"close"; $"group"; n]) \/
  (l = [$"complex"; $"type"]) \/ (l = [$"end"; $"complex"]).

Lemma processUse_cases x : (processUse x = [] /\ no_use x = false) \/ (processUse x = [$"use"; $"required"] /\ no_use x = true) \/
  (exists u, processUse x = [$"use"; u] /\ streqb u $"required" = false /\ no_use x = false).
Proof.
  unfold processUse, no_use. destruct (attr $"use" x) as [u|]; [|auto].
  destruct (smem u _) eqn:S; [|auto]. right. right. exists u. split; auto. split; auto.
  apply smem_In in S. cbn in S. destruct S as [<-|[<-|[<-|[<-|[]]]]]; vm_compute; reflexivity.
Qed.
Lemma no_use_mark x : match processUse x with [_; u] => streqb u $"required" | _ => false end = no_use x.
Proof.
  destruct (processUse_cases x) as [[E N]|[[E N]|(u & E & U & N)]]; rewrite E, N; auto.
Qed.

Definition steps (c : str) (b : bool) (ks : list mark) (s s' : rstate) : Prop :=
  r_cur s' = Some c /\ r_still s' = Some (is_free b ks) /\
  (forall l, dget c (required (r_t s)) = Some l -> dget c (required (r_t s')) = Some (l ++ counted b ks)).

Lemma word_use3 a b p : word (a :: b :: p) 3 = match p with _ :: u :: _ => Ok u | _ => Err IndexError end.
Proof. destruct p as [|? [|? ?]]; reflexivity. Qed.

Lemma read_line_ruled l s s' c b : ruled l -> r_cur s = Some c -> r_still s = Some b ->
  read_line l s = Ok s' -> steps c b (line_mark l) s s'.
Proof.
  intros R C S E. destruct R as [(n & x & ->)|[(n & x & ->)|[(n & x & ->)|[(n & ->)|[(n & ->)|[-> | ->]]]]]].
  - unfold read_line in E; unfold line_mark; decide_lits. cbv iota in E |- *.
    change (word ($"element" :: n :: processUse x) 1) with (Ok n) in E. cbn [rbind] in E. rewrite C, S in E.
    destruct (append_at c n (allowed (r_t s))) as [a|] eqn:Ea; cbn [rbind] in E; [|discriminate E].
    set (k := match processUse x with [_; u] => streqb u $"required" | _ => false end).
    destruct b.
    + rewrite word_use3 in E.
      assert (W : exists u, match processUse x with _ :: u :: _ => Ok u | _ => Err IndexError end = Ok u /\ k = streqb u $"required").
      { subst k. destruct (processUse_cases x) as [[P N]|[[P N]|(u & P & U & N)]]; rewrite P in *.
        - discriminate E.
        - eexists. split; reflexivity.
        - eexists. split; reflexivity. }
      destruct W as (u & W & K). rewrite W in E. cbn [rbind] in E. rewrite K.
      destruct (streqb u $"required").
      * destruct (append_at c n (required (r_t s))) as [rq|] eqn:Er; cbn [rbind] in E; [|discriminate E].
        destruct (append_at_inv _ _ _ _ Er) as (l1 & H1 & H2 & H3). inversion E; subst. cbn.
        unfold steps. cbn. repeat split; auto. intros l H. congruence.
      * inversion E; subst. unfold steps. cbn. repeat split; auto. intros l H. now rewrite app_nil_r.
    + inversion E; subst. unfold steps. cbn. repeat split; auto. intros l H. rewrite andb_false_r. now rewrite app_nil_r.
  - unfold read_line in E; unfold line_mark; decide_lits. cbv iota in E |- *.
    change (word ($"open" :: n :: processUse x) 1) with (Ok n) in E. cbn [rbind] in E.
    destruct (streqb n $"choice") eqn:Q; cbn [negb andb] in E |- *.
    + rewrite word_use3 in E.
      destruct (processUse_cases x) as [[P N]|[[P N]|(u & P & U & N)]]; rewrite P in *.
      * discriminate E.
      * cbn [rbind] in E. rewrite streqb_refl in E |- *. cbn in E. inversion E; subst. unfold steps. cbn. repeat split; auto.
        intros l H. now rewrite app_nil_r.
      * cbn [rbind] in E. rewrite U in E |- *. cbn in E. inversion E; subst. unfold steps. cbn. repeat split; auto.
        intros l H. now rewrite app_nil_r.
    + inversion E; subst. unfold steps. cbn. repeat split; auto. intros l H. now rewrite app_nil_r.
  - unfold read_line in E; unfold line_mark; decide_lits. cbv iota in E |- *.
    change (word ($"open" :: $"group" :: n :: processUse x) 1) with (Ok $"group") in E. cbn [rbind] in E. decide_lits.
    cbn [negb andb] in E |- *. inversion E; subst. unfold steps. cbn. repeat split; auto. intros l H. now rewrite app_nil_r.
  - unfold read_line in E; unfold line_mark; decide_lits. cbv iota in E |- *. inversion E; subst. unfold steps. cbn. repeat split; auto.
    intros l H. now rewrite app_nil_r.
  - unfold read_line in E; unfold line_mark; decide_lits. cbv iota in E |- *. inversion E; subst. unfold steps. cbn. repeat split; auto.
    intros l H. now rewrite app_nil_r.
  - unfold read_line in E; unfold line_mark; decide_lits. cbv iota in E |- *. inversion E; subst. unfold steps. cbn. repeat split; auto.
    intros l H. now rewrite app_nil_r.
  - unfold read_line in E; unfold line_mark; decide_lits. cbv iota in E |- *. inversion E; subst. unfold steps. cbn. repeat split; auto.
    intros l H. now rewrite app_nil_r.
Qed.
Lemma read_lines_ruled ls : forall s s' c b, Forall ruled ls -> r_cur s = Some c -> r_still s = Some b ->
  read_lines ls s = Ok s' -> steps c b (marks_of ls) s s'.
Proof.
  induction ls as [|l ls IH]; intros s s' c b F C B E; simpl in E.
  - inversion E; subst. unfold steps. cbn. repeat split; auto. intros l H. now rewrite app_nil_r.
  - inversion F; subst. destruct (read_line l s) as [s1|] eqn:E1; simpl in E; [|discriminate E].
    destruct (read_line_ruled _ _ _ _ _ H1 C B E1) as (K1 & K2 & K3).
    destruct (IH _ _ _ _ H2 K1 K2 E) as (J1 & J2 & J3).
    unfold steps. cbn [marks_of flat_map]. fold (marks_of ls). rewrite is_free_app, counted_app.
    repeat split; auto. intros l0 H. rewrite app_assoc. apply J3, K3, H.
Qed.

(** * the style sheet *)
Lemma marks_all_cat m f : (forall x ls, f x = Some ls -> Forall ruled ls /\ marks m x (marks_of ls)) ->
  forall xs ls, cat_opt f xs = Some ls -> Forall ruled ls /\ marks_all m xs (marks_of ls).
Proof.
  intros K. induction xs as [|x xs IH]; intros ls E; simpl in E.
  - inversion E; subst. split; constructor.
  - destruct (f x) as [a|] eqn:Ea; [|discriminate].
    destruct (cat_opt f xs) as [b|] eqn:Eb; [|discriminate]. inversion E; subst.
    destruct (K _ _ Ea) as [A1 A2]. destruct (IH _ eq_refl) as [B1 B2].
    split; [now apply Forall_app|]. rewrite marks_of_app. now constructor.
Qed.
Lemma marks_all_app m a b la lb : marks_all m a la -> marks_all m b lb -> marks_all m (a ++ b) (la ++ lb).
Proof.
  induction 1; intros Hb; auto. simpl. rewrite <- app_assoc. constructor; auto.
Qed.
Lemma element_mark n x : marks_of [[$"element"; n] ++ processUse x] = [Names n (no_use x)].
Proof.
  unfold marks_of. cbn [flat_map app]. unfold line_mark. decide_lits. cbv iota. now rewrite no_use_mark.
Qed.
Lemma open_group_mark n x : line_mark ([$"open"; $"group"; n] ++ processUse x) = [Begins false].
Proof. unfold line_mark. cbn [app]. decide_lits. reflexivity. Qed.
Lemma open_mark t x : line_mark ([$"open"; t] ++ processUse x) = [Begins (streqb t $"choice" && no_use x)].
Proof. unfold line_mark. cbn [app]. decide_lits. cbv iota. now rewrite no_use_mark. Qed.

Lemma table_lines_marks m : forall f x ls, table_lines f m x = Some ls ->
  Forall ruled ls /\ marks m x (marks_of ls).
Proof.
  induction f as [|f IH]; intros x ls E; [discriminate E|]. rewrite table_lines_S in E.
  destruct (has_tag $"element" x) eqn:T1.
  { apply has_tag_iff in T1. destruct (attr $"ref" x) as [r|] eqn:A; apply some_inj in E; subst ls; rewrite element_mark.
    - split; [apply Forall1; left; exists r, x; reflexivity|]. now apply k_ref.
    - split; [apply Forall1; left; eexists _, x; reflexivity|]. now apply k_name. }
  assert (N1 : xtag x <> $"element") by (intros K; apply has_tag_iff in K; congruence).
  assert (OTHER : ~ In (xtag x) [$"sequence"; $"all"; $"choice"] -> xtag x <> $"doc" -> (xtag x = $"group" -> attr $"ref" x = None) ->
     cat_opt (table_lines f m) (xkids x) = Some ls -> Forall ruled ls /\ marks m x (marks_of ls)).
  { intros NC ND G E'. destruct (marks_all_cat m _ IH _ _ E') as [B1 B2]. split; auto. apply k_other; auto.
    intros I. cbn in I, NC. destruct I as [I|[I|[I|[I|[I|[]]]]]]; [apply N1; symmetry; exact I|apply NC; left; exact I|apply NC; right; left; exact I|apply NC; right; right; left; exact I|apply ND; symmetry; exact I]. }
  destruct (has_tag $"group" x) eqn:T2; [destruct (attr $"ref" x) as [r|] eqn:A|]; cbn [andb] in E.
  - apply has_tag_iff in T2. unfold attr_text in E. rewrite A in E. cbn zeta in E.
    rewrite cat_opt_flat in E.
    destruct (cat_opt _ _) as [b|] eqn:Eb in E; [|discriminate E]. apply some_inj in E; subst ls.
    destruct (marks_all_cat m _ IH _ _ Eb) as [B1 B2]. split.
    + constructor; [right; right; left; exists r, x; reflexivity|]. apply Forall_app. split; auto.
      apply Forall1. right; right; right; right; left. exists r. reflexivity.
    + rewrite !marks_of_app. unfold marks_of at 1 3. cbn [flat_map]. rewrite open_group_mark.
      change (line_mark [$"close"; $"group"; r]) with [Ends]. rewrite !app_nil_r. eapply k_group; eauto.
  - assert (NC : ~ In (xtag x) [$"sequence"; $"all"; $"choice"]).
    { apply has_tag_iff in T2. rewrite T2. intros I. cbn in I. destruct I as [I|[I|[I|[]]]]; discriminate I. }
    assert (ND : xtag x <> $"doc"). { apply has_tag_iff in T2. rewrite T2. intros I. discriminate I. }
    rewrite !has_tag_no in E; try (intros K; apply NC; rewrite K; cbn; auto; fail); auto.
  - assert (N2 : xtag x <> $"group") by (intros K; apply has_tag_iff in K; congruence).
    destruct (has_tag $"sequence" x || has_tag $"all" x || has_tag $"choice" x) eqn:T3.
    + destruct (cat_opt _ _) as [b|] eqn:Eb in E; [|discriminate E]. apply some_inj in E; subst ls.
      destruct (marks_all_cat m _ IH _ _ Eb) as [B1 B2].
      assert (I : In (xtag x) [$"sequence"; $"all"; $"choice"]).
      { apply orb_prop in T3 as [T3|T3]; [apply orb_prop in T3 as [T3|T3]|]; apply has_tag_iff in T3; rewrite T3; cbn; auto. }
      split.
      * constructor; [right; left; exists (xtag x), x; reflexivity|]. apply Forall_app. split; auto.
        apply Forall1. right; right; right; left. exists (xtag x). reflexivity.
      * rewrite !marks_of_app. unfold marks_of at 1 3. cbn [flat_map]. rewrite open_mark.
        assert (Z : line_mark [$"close"; xtag x] = [Ends]) by reflexivity. rewrite Z, !app_nil_r.
        apply k_compositor; auto.
    + assert (NC : ~ In (xtag x) [$"sequence"; $"all"; $"choice"]).
      { intros I. apply orb_false_elim in T3 as [T3 T5]. apply orb_false_elim in T3 as [T3 T4].
        destruct I as [I|[I|[I|[]]]]; symmetry in I; apply (proj2 (has_tag_iff _ _)) in I;
        [discriminate (eq_trans (eq_sym T3) I)|discriminate (eq_trans (eq_sym T4) I)|discriminate (eq_trans (eq_sym T5) I)]. }
      destruct (has_tag $"doc" x) eqn:T4.
      * apply some_inj in E; subst. split; [constructor|]. apply k_doc. now apply has_tag_iff.
      * apply OTHER; auto; [intros K; apply has_tag_iff in K; congruence|tauto].
Qed.

Lemma complex_lines_marks m f c ls : complex_lines f m c = Some ls ->
  Forall ruled ls /\ marks_all m (xkids c) (marks_of ls).
Proof.
  unfold complex_lines.
  destruct (cat_opt _ _) as [b|] eqn:Eb; [|discriminate]. intros E; apply some_inj in E; subst ls.
  destruct (marks_all_cat m _ (table_lines_marks m f) _ _ Eb) as [B1 B2]. split.
  - constructor; [right; right; right; right; right; left; reflexivity|]. apply Forall_app. split; auto. apply Forall1.
    right; right; right; right; right; right; reflexivity.
  - rewrite !marks_of_app. unfold marks_of at 1 3. cbn [flat_map].
    change (line_mark [$"complex"; $"type"]) with (@nil mark). change (line_mark [$"end"; $"complex"]) with (@nil mark).
    rewrite !app_nil_r. exact B2.
Qed.
Lemma element_lines_marks m f e ls : element_lines f m e = Some ls ->
  exists b, ls = [$"top"; attr_text $"name" e] :: b ++ [[$"close"; attr_text $"name" e]] /\ Forall ruled b /\
    marks_all m (flat_map xkids (decl_types m e)) (marks_of b).
Proof.
  unfold element_lines. fold (decl_types m e).
  destruct (cat_opt _ _) as [b|] eqn:Eb; [|discriminate]. intros E; apply some_inj in E; subst ls.
  exists b. split; auto.
  revert b Eb. generalize (decl_types m e). clear.
  induction l as [|c cs IH]; intros b E; simpl in E.
  - inversion E; subst. split; constructor.
  - destruct (complex_lines f m c) as [a|] eqn:Ea; [|discriminate].
    destruct (cat_opt _ cs) as [b'|] eqn:Eb; [|discriminate]. inversion E; subst.
    destruct (complex_lines_marks _ _ _ _ Ea), (IH _ eq_refl).
    split; [now apply Forall_app|]. rewrite marks_of_app. simpl. now apply marks_all_app.
Qed.

Lemma read_element_required m f e ls s s' : element_lines f m e = Some ls -> read_lines ls s = Ok s' ->
  exists ks, marks_all m (flat_map xkids (decl_types m e)) ks /\
    dget (attr_text $"name" e) (required (r_t s')) = Some (counted true ks).
Proof.
  intros El E. destruct (element_lines_marks _ _ _ _ El) as (b & -> & F & M).
  cbn [read_lines] in E.
  set (nm := attr_text $"name" e) in *.
  assert (E1 : read_line [$"top"; nm] s = Ok {| r_t := {| allowed := dset nm [] (allowed (r_t s)); required := dset nm [] (required (r_t s));
                        psvFormat := psvFormat (r_t s) |}; r_cur := Some nm; r_still := Some true |}) by reflexivity.
  rewrite E1 in E. cbn [rbind] in E.
  assert (F' : Forall ruled (b ++ [[$"close"; nm]])).
  { apply Forall_app. split; auto. apply Forall1. right; right; right; left. exists nm. reflexivity. }
  assert (RB := fun C B => read_lines_ruled _ _ _ nm true F' C B E). specialize (RB eq_refl eq_refl).
  destruct RB as (K1 & K2 & K3). cbn [r_t required] in K3.
  exists (marks_of b). split; auto.
  rewrite (K3 [] (dget_dset_eq _ _ _)). rewrite marks_of_app, counted_app.
  change (marks_of [[$"close"; nm]]) with [Ends]. cbn [counted]. now rewrite app_nil_r.
Qed.
Lemma read_decls_required m f : forall es ls s s', cat_opt (element_lines f m) es = Some ls -> read_lines ls s = Ok s' ->
  forall name pre e post, es = pre ++ e :: post -> attr_text $"name" e = name ->
     Forall (fun e' => attr_text $"name" e' <> name) post ->
     exists ks, marks_all m (flat_map xkids (decl_types m e)) ks /\
       dget name (required (r_t s')) = Some (counted true ks).
Proof.
  induction es as [|e es IH]; intros ls s s' C E name pre e0 post H N P; simpl in C.
  - destruct pre; discriminate.
  - destruct (element_lines f m e) as [a|] eqn:Ea; [|discriminate].
    destruct (cat_opt _ es) as [b|] eqn:Eb; [|discriminate]. inversion C; subst; clear C.
    rewrite read_lines_app in E. destruct (read_lines a s) as [s1|] eqn:E1; simpl in E; [|discriminate].
    destruct pre as [|p pre]; simpl in H; inversion H; subst.
    + destruct (read_element_required _ _ _ _ _ _ Ea E1) as (ks & M & G).
      destruct (read_decls _ _ _ _ _ _ Eb E) as [_ I2]. exists ks. destruct (I2 _ P) as [_ ->]. auto.
    + eapply IH; eauto.
Qed.
Theorem required_spec fuel m T name e : readAdesTables fuel m = Some (Ok T) -> declared m name e ->
  exists ks, marks_all m (flat_map xkids (decl_types m e)) ks /\
    dget name (required T) = Some (last_occurrences (counted true ks)).
Proof.
  unfold readAdesTables, tableades. intros R (pre & post & D & N & P).
  destruct (cat_opt (element_lines fuel m) (element_decls m)) as [b|] eqn:Eb; [|discriminate].
  inversion R as [R1]; clear R. rewrite read_lines_app in R1.
  match type of R1 with context[read_lines b ?s0] => destruct (read_lines b s0) as [s1|] eqn:E1 end; simpl in R1; [|discriminate].
  destruct (read_lines (map psv_line _) s1) as [s2|] eqn:E2; simpl in R1; [|discriminate].
  inversion R1; subst; clear R1.
  destruct (read_decls_required _ _ _ _ _ _ Eb E1 _ _ _ _ D eq_refl P) as (ks & M & G).
  destruct (read_psv _ _ _ E2) as [J1 J2].
  exists ks. split; auto. cbn [allowed required]. rewrite !dget_map, J2, G. simpl.
  now rewrite dedupe_spec.
Qed.
