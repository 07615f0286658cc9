(** Lemmas about IdSpec, part 4: the languages of the schema's patterns. *)
From Verif Require Import PyStrProofs.
From Verif Require Import XsdPattern IdSpec IdProofs3.
Local Open Scope nat_scope.

Lemma forallb_eq {A} (f g : A -> bool) s : (forall c, f c = g c) -> forallb f s = forallb g s.
Proof. intro H. induction s; cbn; [reflexivity|]. now rewrite H, IHs. Qed.
Lemma r_dig c : xorb false (in_ranges [("0", "9")]%char c) = isdig c. Proof. revert c. apply eqb_ascii. vm_compute. reflexivity. Qed.
Lemma r_up c : xorb false (in_ranges [("A", "Z")]%char c) = isupper c. Proof. revert c. apply eqb_ascii. vm_compute. reflexivity. Qed.
Lemma r_hm c : xorb false (in_ranges [("A", "H"); ("J", "Y")]%char c) = half_month c. Proof. revert c. apply eqb_ascii. vm_compute. reflexivity. Qed.
Lemma r_or c : xorb false (in_ranges [("A", "H"); ("J", "Z")]%char c) = order_letter c. Proof. revert c. apply eqb_ascii. vm_compute. reflexivity. Qed.
Lemma r_digs s : forallb (fun c => xorb false (in_ranges [("0", "9")]%char c)) s = forallb isdig s. Proof. apply forallb_eq, r_dig. Qed.
Lemma r_ups s : forallb (fun c => xorb false (in_ranges [("A", "Z")]%char c)) s = forallb isupper s. Proof. apply forallb_eq, r_up. Qed.
Lemma in_points (l : list ascii) c : xorb false (in_ranges (map (fun x => (x, x)) l) c) = true <-> In c l.
Proof.
  rewrite xorb_false_l. unfold in_ranges. induction l as [|x l IH]; [split; [intro H; discriminate H|intros []]|].
  cbn [map existsb In fst snd]. rewrite orb_true_iff, IH. pose proof (in_one x c) as O. unfold in_ranges in O. cbn [existsb fst snd] in O. rewrite orb_false_r, xorb_false_l in O. rewrite O. intuition.
Qed.
Lemma r_digits w : forallb isdig w = true -> 1 <= length w -> digits w.
Proof. intros H L. split; [exact H|]. intros ->. cbn in L. lia. Qed.
Lemma digits_len w : digits w -> forallb isdig w = true /\ 1 <= length w.
Proof. intros [H N]. split; [exact H|]. destruct w; [now destruct N|cbn; lia]. Qed.

Ltac class H :=
  first [ rewrite r_digs in H | rewrite r_ups in H | rewrite r_dig in H | rewrite r_up in H | rewrite r_hm in H | rewrite r_or in H
        | match type of H with xorb false (in_ranges ?l ?c) = true => let m := eval cbn in (map fst l) in apply (proj1 (in_points m c)) in H end ].
Ltac inv_lang := repeat match goal with
  | H : lang (PAlt _ _) _ |- _ => destruct H as [H|H]
  | H : lang PEps _ |- _ => unfold lang in H; subst
  | H : lang (PSeq (PSet false [(?c, ?c)]) _) _ |- _ => apply (proj1 (lang_char c _ _)) in H as (? & ? & H); subst
  | H : lang (PSeq _ PEps) _ |- _ => apply (proj1 (lang_end _ _)) in H
  | H : lang (PSeq _ _) _ |- _ => let H' := fresh in apply (proj1 (lang_seq _ _ _)) in H as (? & ? & ? & H & H'); subst
  | H : lang (PRep (PSet _ _) _ _) _ |- _ => apply (proj1 (lang_rep_set _ _ _ _ _)) in H as (H & ? & ?); class H
  | H : lang (PRep _ 0 (Some 1)) _ |- _ => apply (proj1 (lang_opt _ _)) in H as [H|H]; [subst|]
  | H : lang (PSet _ _) _ |- _ => destruct H as (? & ? & H); subst; class H
  end.

Definition perm_pat : pat := Eval vm_compute in pat_of perm_pattern.
Lemma perm_read : pattern perm_pattern = Some perm_pat. Proof. vm_compute. reflexivity. Qed.
Lemma perm_lang_to s : lang perm_pat s -> exists i, perm_shaped i /\ perm_written i = s /\ perm_short i.
Proof.
  unfold perm_pat. intro H. inv_lang.
  - exists (Number x). rewrite app_nil_r. split; [now apply r_digits|]. now split.
  - exists (NumberedComet x x0 []). split; [|now split]. split; [now apply r_digits|]. split; [assumption|]. split; [reflexivity|cbn; lia].
  - exists (NumberedComet x x2 x0). split; [split; [now apply r_digits|]; split; [assumption|]; split; assumption|].
    split; [|exact I]. destruct x0 as [|a f]; [cbn in *; lia|reflexivity].
  - exists (Moon $"Mars" x1). split; [split; [cbn [In]; tauto|now apply r_digits]|]. now split.
  - exists (Moon $"Jupiter" x1). split; [split; [cbn [In]; tauto|now apply r_digits]|]. now split.
  - exists (Moon $"Saturn" x1). split; [split; [cbn [In]; tauto|now apply r_digits]|]. now split.
  - exists (Moon $"Uranus" x1). split; [split; [cbn [In]; tauto|now apply r_digits]|]. now split.
  - exists (Moon $"Neptune" x1). split; [split; [cbn [In]; tauto|now apply r_digits]|]. now split.
  - exists (AsteroidMoon x0 x1). split; [split; now apply r_digits|]. now split.
Qed.

Lemma lang_left a b s : lang a s -> lang (PAlt a b) s. Proof. now left. Qed.
Lemma lang_right a b s : lang b s -> lang (PAlt a b) s. Proof. now right. Qed.
Lemma lang_split p q x y : lang p x -> lang q y -> lang (PSeq p q) (x ++ y).
Proof. intros. apply (proj2 (lang_seq _ _ _)). eauto. Qed.
Lemma lang_one rs c : xorb false (in_ranges rs c) = true -> lang (PSet false rs) [c].
Proof. intro H. exists c. now split. Qed.
Lemma lang_head c q t : lang q t -> lang (PSeq (PSet false [(c, c)]) q) (c :: t).
Proof. intro H. apply (proj2 (lang_char _ _ _)). eauto. Qed.
Lemma lang_first rs q c t : xorb false (in_ranges rs c) = true -> lang q t -> lang (PSeq (PSet false rs) q) (c :: t).
Proof. intros H1 H2. exact (lang_split _ _ [c] t (lang_one _ _ H1) H2). Qed.
Lemma lang_last p s : lang p s -> lang (PSeq p PEps) s. Proof. apply (proj2 (lang_end _ _)). Qed.
Lemma lang_digs mn mx w : forallb isdig w = true -> mn <= length w -> match mx with Some k => length w <= k | None => True end ->
  lang (PRep (PSet false [("0", "9")]%char) mn mx) w.
Proof. intros. apply (proj2 (lang_rep_set _ _ _ _ _)). rewrite r_digs. auto. Qed.
Lemma lang_ups mn mx w : forallb isupper w = true -> mn <= length w -> match mx with Some k => length w <= k | None => True end ->
  lang (PRep (PSet false [("A", "Z")]%char) mn mx) w.
Proof. intros. apply (proj2 (lang_rep_set _ _ _ _ _)). rewrite r_ups. auto. Qed.
Lemma lang_none p : lang (PRep p 0 (Some 1)) []. Proof. apply (proj2 (lang_opt _ _)). now left. Qed.
Lemma lang_some p s : lang p s -> lang (PRep p 0 (Some 1)) s. Proof. intro H. apply (proj2 (lang_opt _ _)). now right. Qed.
Lemma lang_eps : lang PEps []. Proof. reflexivity. Qed.

Lemma perm_lang_from i : perm_shaped i -> perm_short i -> lang perm_pat (perm_written i).
Proof.
  unfold perm_pat. destruct i as [w|w t f|q w|w n]; cbn [perm_shaped perm_short perm_written].
  - intros H _. apply digits_len in H as [H L]. apply lang_left. rewrite <- (app_nil_r w).
    apply lang_split; [now apply lang_digs|]. apply lang_last, lang_none.
  - intros (H & Ht & Hf & Lf) _. apply digits_len in H as [H L]. apply lang_left.
    apply lang_split; [now apply lang_digs|]. apply lang_last, lang_some, lang_first; [now apply (proj2 (in_points ["I"; "P"; "D"]%char t))|].
    apply lang_last. destruct f as [|a f]; [apply lang_none|]. apply lang_some, lang_head, lang_last, lang_ups; [assumption|cbn; lia|assumption].
  - intros (Hq & H) L3. apply digits_len in H as [H L]. apply lang_right, lang_last, lang_left, lang_split.
    + destruct Hq as [<-|[<-|[<-|[<-|[<-|[]]]]]]; [apply lang_left|apply lang_right, lang_left|do 2 apply lang_right; apply lang_left|
        do 3 apply lang_right; apply lang_left|do 4 apply lang_right]; repeat apply lang_head; apply lang_eps.
    + apply lang_head, lang_last, lang_digs; assumption.
  - intros (Hw & Hn) L3. apply digits_len in Hw as [Hw Lw]. apply digits_len in Hn as [Hn Ln].
    apply lang_right, lang_last, lang_right, lang_head, lang_split; [now apply lang_digs|]. apply lang_head, lang_head, lang_last, lang_digs; assumption.
Qed.

Definition prov_pat : pat := Eval vm_compute in pat_of prov_pattern.
Lemma prov_read : pattern prov_pattern = Some prov_pat. Proof. vm_compute. reflexivity. Qed.
Lemma r_four y : forallb isdig y = true -> 4 <= length y -> length y <= 4 -> four y.
Proof. intros H A B. split; [exact H|lia]. Qed.
Ltac four_tac := apply r_four; assumption.
Lemma prov_lang_to s : lang prov_pat s -> exists i, prov_shaped i /\ prov_written i = s.
Proof.
  unfold prov_pat. intro H. inv_lang.
  - exists (Designation x x1 x2 x3). split; [|reflexivity]. split; [four_tac|]. split; [assumption|]. split; assumption.
  - exists (SurveyDes x "P"%char "L"%char). split; [|reflexivity]. split; [four_tac|reflexivity].
  - exists (SurveyDes x "T"%char x0). split; [|reflexivity]. split; [four_tac|].
    match goal with H : In x0 _ |- _ => destruct H as [<-|[<-|[<-|[]]]]; reflexivity end.
  - destruct x2 as [|h [|o [|]]]; cbn [length] in *; [lia| | |lia]; cbn [forallb] in *.
    + exists (CometDes x3 x0 h None x1 None). split; [|reflexivity].
      match goal with H : isupper h && _ = true |- _ => rewrite andb_true_r in H end.
      split; [assumption|]. split; [four_tac|]. split; [assumption|]. split; [exact I|]. split; [assumption|exact I].
    + exists (CometDes x3 x0 h (Some o) x1 None). split; [|reflexivity].
      match goal with H : isupper h && _ = true |- _ => rewrite andb_true_r in H; apply andb_prop in H as [? ?] end.
      split; [assumption|]. split; [four_tac|]. split; [assumption|]. split; [assumption|]. split; [assumption|exact I].
  - destruct x2 as [|h [|o [|]]]; cbn [length] in *; [lia| | |lia]; cbn [forallb] in *.
    + exists (CometDes x3 x0 h None x1 (Some x4)). split; [|reflexivity].
      match goal with H : isupper h && _ = true |- _ => rewrite andb_true_r in H end.
      split; [assumption|]. split; [four_tac|]. split; [assumption|]. split; [exact I|]. split; assumption.
    + exists (CometDes x3 x0 h (Some o) x1 (Some x4)). split; [|reflexivity].
      match goal with H : isupper h && _ = true |- _ => rewrite andb_true_r in H; apply andb_prop in H as [? ?] end.
      split; [assumption|]. split; [four_tac|]. split; [assumption|]. split; [assumption|]. split; assumption.
  - exists (MoonDes x "M"%char x0). split; [|reflexivity]. split; [four_tac|]. split; [cbn [In]; tauto|now apply r_digits].
  - exists (MoonDes x "J"%char x0). split; [|reflexivity]. split; [four_tac|]. split; [cbn [In]; tauto|now apply r_digits].
  - exists (MoonDes x "S"%char x0). split; [|reflexivity]. split; [four_tac|]. split; [cbn [In]; tauto|now apply r_digits].
  - exists (MoonDes x "U"%char x0). split; [|reflexivity]. split; [four_tac|]. split; [cbn [In]; tauto|now apply r_digits].
  - exists (MoonDes x "N"%char x0). split; [|reflexivity]. split; [four_tac|]. split; [cbn [In]; tauto|now apply r_digits].
  - exists (AsteroidMoonDes x x1 x0). split; [|cbn [prov_written lit list_ascii_of_string app]; rewrite <- app_assoc; reflexivity].
    split; [four_tac|]. split; [apply body_number; now apply r_digits|now apply r_digits].
  - exists (AsteroidMoonDes x (x2 ++ $" " ++ [x1] ++ letter_of None ++ x5) x0). split; [|cbn [prov_written letter_of lit list_ascii_of_string app]; rewrite <- !app_assoc; reflexivity].
    split; [four_tac|]. split; [|now apply r_digits]. apply body_designation; [four_tac|assumption|exact I|now apply r_digits].
  - exists (AsteroidMoonDes x (x2 ++ $" " ++ [x1] ++ letter_of (Some x4) ++ x5) x0). split; [|cbn [prov_written letter_of lit list_ascii_of_string app]; rewrite <- !app_assoc; reflexivity].
    split; [four_tac|]. split; [|now apply r_digits]. apply body_designation; [four_tac|assumption|assumption|now apply r_digits].
Qed.
Lemma lang_four y : four y -> lang (PRep (PSet false [("0", "9")]%char) 4 (Some 4)) y.
Proof. intros [H L]. apply lang_digs; [exact H| |]; rewrite L; apply le_n. Qed.
Ltac ch := apply lang_head.
Ltac hm := apply lang_first; [now rewrite r_hm|].
Lemma prov_lang_from i : prov_shaped i -> lang prov_pat (prov_written i).
Proof.
  unfold prov_pat. destruct i as [y h o w|y s1 s2|t y h o w f|y q w|y b w]; cbn [prov_shaped prov_written].
  - intros (Hy & Hh & Ho & Hw). apply lang_left, lang_split; [now apply lang_four|]. ch. hm.
    apply lang_first; [now rewrite r_or|]. apply lang_last, lang_digs; [assumption|lia|exact I].
  - intros (Hy & Hs). apply lang_right, lang_left, lang_split; [now apply lang_four|]. ch. apply lang_last.
    unfold is_survey in Hs. apply orb_prop in Hs as [Hs|Hs]; apply andb_prop in Hs as [H1 H2]; apply ceqb_eq in H1; subst s1.
    + apply ceqb_eq in H2. subst s2. apply lang_left. ch. ch. ch. apply lang_eps.
    + apply lang_right. ch. ch. apply lang_last, lang_one. apply (proj2 (in_points ["1"; "2"; "3"]%char s2)).
      apply orb_prop in H2 as [H2|H2]; [apply orb_prop in H2 as [H2|H2]|]; apply ceqb_eq in H2; subst s2; cbn [In]; tauto.
  - intros (Ht & Hy & Hh & Ho & Hw & Hf). do 2 apply lang_right. apply lang_left, lang_first; [now apply (proj2 (in_points ["A"; "D"; "C"; "P"; "X"]%char t))|].
    ch. apply lang_split; [now apply lang_four|]. ch.
    change ([h] ++ letter_of o ++ ?r) with (([h] ++ letter_of o) ++ r).
    apply lang_split; [apply lang_ups; destruct o; cbn [letter_of app forallb length capital] in *; [rewrite Hh, Ho; reflexivity|rewrite Hh; reflexivity|lia|lia|lia|lia]|].
    apply lang_split; [apply lang_digs; [assumption|lia|exact I]|]. apply lang_last. destruct f as [f|]; [|apply lang_none].
    apply lang_some. ch. apply lang_last, lang_one. now rewrite r_up.
  - intros (Hy & Hq & Hw). apply digits_len in Hw as [Hw Lw]. do 3 apply lang_right. ch. ch. apply lang_split; [now apply lang_four|]. ch.
    apply lang_split; [|ch; apply lang_last, lang_digs; [assumption|assumption|exact I]].
    apply lang_left, lang_last. destruct Hq as [<-|[<-|[<-|[<-|[<-|[]]]]]]; [apply lang_left|apply lang_right, lang_left|do 2 apply lang_right; apply lang_left|
        do 3 apply lang_right; apply lang_left|do 4 apply lang_right]; (ch; apply lang_eps).
  - intros (Hy & Hb & Hw). apply digits_len in Hw as [Hw Lw]. do 3 apply lang_right. ch. ch. apply lang_split; [now apply lang_four|]. ch.
    replace ("("%char :: b ++ $") " ++ w) with (("("%char :: b ++ [")"%char]) ++ " "%char :: w) by (cbn [app lit list_ascii_of_string]; rewrite <- app_assoc; reflexivity).
    apply lang_split; [|ch; apply lang_last, lang_digs; [assumption|assumption|exact I]].
    apply lang_right. ch. apply lang_split; [|ch; apply lang_eps].
    destruct Hb as [n Hn|y' h o n Hy' Hh Ho Hn]; apply digits_len in Hn as [Hn Ln].
    + apply lang_left, lang_last, lang_digs; [assumption|assumption|exact I].
    + apply lang_right, lang_split; [now apply lang_four|]. ch. hm. apply lang_split.
      * destruct o as [o|]; cbn [letter_of]; [apply lang_some, lang_one; now rewrite r_or|apply lang_none].
      * apply lang_last, lang_digs; [assumption|assumption|exact I].
Qed.

Definition old_prov_pat : pat := Eval vm_compute in pat_of old_prov_pattern.
Lemma old_prov_read : pattern old_prov_pattern = Some old_prov_pat. Proof. vm_compute. reflexivity. Qed.
Lemma old_prov_lang s : lang old_prov_pat s <-> old_designation s.
Proof.
  unfold old_prov_pat. split.
  - intro H. inv_lang. 
    match goal with H : 2 <= length ?z |- _ => rename z into w end. destruct w as [|d [|e [|]]]; cbn [length] in *; try lia. cbn [forallb] in *.
    match goal with H : isdig d && _ = true |- _ => rewrite andb_true_r in H; apply andb_prop in H as [? ?] end.
    match goal with |- old_designation ("A"%char :: [?c] ++ [_; _] ++ " "%char :: [?h] ++ [?o]) => exists c, d, e, h, o end.
    split; [reflexivity|]. repeat (split; [assumption|]). assumption.
  - intros (c & d & e & h & o & -> & Hc & Hd & He & Hh & Ho). ch. apply lang_first; [now apply (proj2 (in_points ["8"; "9"]%char c))|].
    apply (lang_split _ _ [d; e]); [apply lang_digs; [cbn [forallb]; rewrite Hd, He; reflexivity|cbn; lia|cbn; lia]|].
    ch. hm. apply lang_last, lang_one. now rewrite r_or.
Qed.
Lemma trk_lang s : matches trk_pattern s <-> forallb trk_schema_char s = true.
Proof.
  rewrite (matches_lang trk_pattern (pat_of trk_pattern) s ltac:(vm_compute; reflexivity)).
  let q := eval vm_compute in (pat_of trk_pattern) in change (pat_of trk_pattern) with q.
  rewrite lang_end, lang_rep_set. assert (forall a b : bool, a = b -> (a = true /\ 0 <= length s /\ True <-> b = true)) as K by (intros a b ->; intuition lia).
  apply K, forallb_eq, eqb_ascii. vm_compute. reflexivity.
Qed.
Lemma old_trk_lang s : matches old_trk_pattern s <-> forallb old_trk_char s = true.
Proof.
  rewrite (matches_lang old_trk_pattern (pat_of old_trk_pattern) s ltac:(vm_compute; reflexivity)).
  let q := eval vm_compute in (pat_of old_trk_pattern) in change (pat_of old_trk_pattern) with q.
  rewrite lang_end, lang_rep_set. assert (forall a b : bool, a = b -> (a = true /\ 0 <= length s /\ True <-> b = true)) as K by (intros a b ->; intuition lia).
  apply K, forallb_eq, eqb_ascii. vm_compute. reflexivity.
Qed.
