(** Lemmas about IdSpec, part 2: what packTupleID packs is written in the grammar. *)
From Verif Require Import PackUtil PackProofs12.
From Verif Require Import PackProofs3.
From Verif Require Import IdSpec IdProofs1.

Ltac no_nl N :=
  match goal with E : eos ?t |- _ => destruct E as [->| ->];
    [|exfalso; apply N; repeat (first [left; reflexivity | apply in_or_app; right | right])] end;
  clear N; rewrite ?app_nil_r.

Lemma pack_perm_match p st : pack_perm (Some p) = Ok st ->
  (exists g, re_match minorplanetPermIDRegex p = Some g) \/ (exists g, re_match cometPermIDRegex p = Some g) \/
  (exists g, re_match cometfragmentPermIDRegex p = Some g) \/ (exists g, re_match satellitePermIDRegex p = Some g).
Proof.
  unfold pack_perm, perm_minor, perm_comet, perm_cometfrag, perm_sat, perm_astsat.
  destruct (re_match minorplanetPermIDRegex p); [eauto|]. cbn [rbind].
  destruct (re_match cometPermIDRegex p); [eauto|]. cbn [rbind].
  destruct (re_match cometfragmentPermIDRegex p); [eauto 6|]. cbn [rbind].
  destruct (re_match satellitePermIDRegex p); [eauto 6|]. cbn [rbind].
  destruct (re_match asteroidsatellitePermIDRegex p); intro H; discriminate H.
Qed.
Lemma pack_prov_match p st : pack_prov (Some p) = Ok st ->
  (exists g, re_match minorplanetProvIDRegex p = Some g) \/ (exists g, re_match minorplanetSurveyProvIDRegex p = Some g) \/
  (exists g, re_match cometProvIDRegex p = Some g) \/ (exists g, re_match cometfragmentProvIDRegex p = Some g) \/
  (exists g, re_match satelliteProvIDRegex p = Some g).
Proof.
  unfold pack_prov, prov_minor, prov_survey, prov_comet, prov_cometfrag, prov_sat.
  destruct (re_match minorplanetProvIDRegex p); [eauto|]. cbn [rbind].
  destruct (re_match minorplanetSurveyProvIDRegex p); [eauto|]. cbn [rbind].
  destruct (re_match cometProvIDRegex p); [eauto 6|]. cbn [rbind].
  destruct (re_match cometfragmentProvIDRegex p); [eauto 6|]. cbn [rbind].
  destruct (re_match satelliteProvIDRegex p); [eauto 8|]. cbn [rbind]. intro H; discriminate H.
Qed.

Lemma ne1 (w : str) : (1 <= length w)%nat -> w <> [].
Proof. intros H ->. cbn in H. lia. Qed.
Lemma pdi_in t : incls k_pdi t = true -> In t ["I"; "P"; "D"]%char.
Proof. intro H. apply pdi_cases in H as [->|[->| ->]]; cbn; tauto. Qed.
Lemma pack_perm_grammar p st : ~ In nl p -> pack_perm (Some p) = Ok st -> exists i, perm_shaped i /\ perm_written i = p.
Proof.
  intros N E.
  apply pack_perm_match in E as [[g H]|[[g H]|[[g H]|[g H]]]].
  - unfold minorplanetPermIDRegex in H. invert_match H. no_nl N. apply forallb_cls_dig in H1. apply ne1 in H2.
    exists (Number x). split; [split; assumption|reflexivity].
  - unfold cometPermIDRegex in H. invert_match H. no_nl N.
    match goal with H1 : forallb _ ?x = true, H2 : (1 <= length ?x)%nat, H3 : incls _ ?t = true |- _ => apply forallb_cls_dig in H1; apply ne1 in H2; apply pdi_in in H3;
      exists (NumberedComet x t []) end. split; [|reflexivity]. cbn [perm_shaped]. split; [split; assumption|]. split; [assumption|]. split; [reflexivity|cbn; lia].
  - unfold cometfragmentPermIDRegex in H. invert_match H. no_nl N.
    match goal with H1 : forallb (incls (Cl false [("0", "9")]%char)) ?x = true, H2 : (1 <= length ?x)%nat, H3 : incls _ ?t = true, H4 : forallb _ ?f = true, H5 : (1 <= length ?f)%nat |- _ =>
       apply forallb_cls_dig in H1; apply ne1 in H2; apply pdi_in in H3; apply forallb_cls_up in H4; apply ne1 in H5;
      exists (NumberedComet x t f); split; [|destruct f; [now destruct H5|reflexivity]] end.
    cbn [perm_shaped]. split; [split; assumption|]. split; [assumption|]. split; [assumption|lia].
  - unfold satellitePermIDRegex in H. invert_match H; no_nl N;
    match goal with H1 : forallb _ ?x = true, H2 : (1 <= length ?x)%nat |- _ => apply forallb_cls_dig in H1; apply ne1 in H2; rename x into w end;
    [exists (Moon $"Jupiter" w)|exists (Moon $"Saturn" w)|exists (Moon $"Uranus" w)|exists (Moon $"Neptune" w)];
    (split; [split; [cbn [In]; tauto|split; assumption]|reflexivity]).
Qed.
Lemma perm_grammar p : ~ In nl p -> packs (packTupleID (Some p, None, None)) -> exists i, perm_shaped i /\ perm_written i = p.
Proof.
  intros N [c H]. unfold packTupleID in H. destruct (pack_perm (Some p)) as [st|e] eqn:E; [|discriminate H]. exact (pack_perm_grammar p st N E).
Qed.
Lemma perm_exact p : ~ In nl p -> (packs (packTupleID (Some p, None, None)) <-> exists i, perm_shaped i /\ perm_written i = p /\ perm_packable i).
Proof.
  intro N. split.
  - intro H. destruct (perm_grammar p N H) as (i & Hi & <-). exists i. split; [assumption|]. split; [reflexivity|]. now apply perm_packs.
  - intros (i & Hi & <- & P). now apply perm_packs.
Qed.

Lemma ct_in t : incls k_ct t = true -> In t ["A"; "D"; "C"; "P"; "X"]%char.
Proof. intro H. apply ct_cases in H as [->|[->|[->|[->| ->]]]]; cbn; tauto. Qed.
Lemma cf_in t : incls k_cf t = true -> In t ["A"; "D"; "C"; "P"; "X"]%char.
Proof.
  intro H. apply ct_in. assert (forall t, implb (incls k_cf t) (incls k_ct t) = true) as S by (apply forall_ascii; vm_compute; reflexivity).
  specialize (S t). now rewrite H in S.
Qed.
Lemma pl_in q : incls k_pl q = true -> In q ["M"; "J"; "S"; "U"; "N"]%char.
Proof.
  intro H. assert (forall t, implb (incls k_pl t) (ceqb t "M" || ceqb t "J" || ceqb t "S" || ceqb t "U" || ceqb t "N") = true) as S by (apply forall_ascii; vm_compute; reflexivity).
  specialize (S q). rewrite H in S. cbn [implb] in S. rewrite !orb_true_iff, !ceqb_eq in S. cbn [In]. intuition congruence.
Qed.
Ltac dig4 := match goal with |- four [?a; ?b; ?c; ?d] => split; [cbn [forallb]; repeat match goal with H : isdig _ = true |- _ => rewrite H end; reflexivity|reflexivity] end.
Lemma pack_prov_grammar p st : ~ In nl p -> pack_prov (Some p) = Ok st -> exists i, prov_shaped i /\ prov_written i = p.
Proof.
  intros N E.
  apply pack_prov_match in E as [[g H]|[[g H]|[[g H]|[[g H]|[g H]]]]].
  - unfold minorplanetProvIDRegex in H. invert_match H; no_nl N; classifyC;
    match goal with H : incls (Cl false [("A", "H"); ("J", "Z")]%char) ?c = true |- _ => change (incls k_or c = true) in H; rewrite k_or_eq in H end.
    + match goal with H : forallb _ _ = true |- _ => apply forallb_cls_dig in H end.
      match goal with |- exists i, _ /\ _ = ?a :: ?b :: ?c :: ?d :: _ :: ?h :: ?o :: ?w => exists (Designation [a; b; c; d] h o w) end.
      split; [|reflexivity]. split; [dig4|]. split; [assumption|]. split; assumption.
    + match goal with |- exists i, _ /\ _ = [?a; ?b; ?c; ?d; _; ?h; ?o] => exists (Designation [a; b; c; d] h o []) end.
      split; [|reflexivity]. split; [dig4|]. split; [assumption|]. split; [assumption|reflexivity].
  - unfold minorplanetSurveyProvIDRegex in H. invert_match H; no_nl N; classifyC;
    match goal with |- exists i, _ /\ _ = [?a; ?b; ?c; ?d; _; ?s1; _; ?s2] => exists (SurveyDes [a; b; c; d] s1 s2) end;
    (split; [|reflexivity]; split; [dig4|reflexivity]).
  - unfold cometProvIDRegex in H. invert_match H; no_nl N; classifyC;
    match goal with H : forallb _ _ = true |- _ => apply forallb_cls_dig in H end;
    match goal with H : incls _ _ = true |- _ => apply ct_in in H end.
    + match goal with |- exists i, _ /\ _ = ?t :: _ :: ?a :: ?b :: ?c :: ?d :: _ :: ?h :: ?o :: ?w => exists (CometDes t [a; b; c; d] h (Some o) w None) end.
      split; [|cbn [prov_written letter_of app lit list_ascii_of_string]; rewrite app_nil_r; reflexivity]. split; [assumption|]. split; [dig4|]. repeat (split; [assumption|]). exact I.
    + match goal with |- exists i, _ /\ _ = ?t :: _ :: ?a :: ?b :: ?c :: ?d :: _ :: ?h :: ?w => exists (CometDes t [a; b; c; d] h None w None) end.
      split; [|cbn [prov_written letter_of app lit list_ascii_of_string]; rewrite app_nil_r; reflexivity]. split; [assumption|]. split; [dig4|]. split; [assumption|]. split; [exact I|]. split; [assumption|exact I].
  - unfold cometfragmentProvIDRegex in H. invert_match H; no_nl N; classifyC;
    match goal with H : forallb _ _ = true |- _ => apply forallb_cls_dig in H end;
    match goal with H : incls _ _ = true |- _ => apply cf_in in H end.
    match goal with |- exists i, _ /\ _ = ?t :: _ :: ?a :: ?b :: ?c :: ?d :: _ :: ?h :: ?w ++ [_; ?f] => exists (CometDes t [a; b; c; d] h None w (Some f)) end.
    split; [|reflexivity]. split; [assumption|]. split; [dig4|]. split; [assumption|]. split; [exact I|]. split; assumption.
  - unfold satelliteProvIDRegex in H. invert_match H; no_nl N; classifyC;
    match goal with H : forallb _ _ = true |- _ => apply forallb_cls_dig in H end;
    match goal with H : (1 <= _)%nat |- _ => apply ne1 in H end;
    match goal with H : incls _ _ = true |- _ => apply pl_in in H end.
    match goal with |- exists i, _ /\ _ = _ :: _ :: ?a :: ?b :: ?c :: ?d :: _ :: ?q :: _ :: ?w => exists (MoonDes [a; b; c; d] q w) end.
    split; [|reflexivity]. split; [dig4|]. split; [assumption|]. split; assumption.
Qed.
Lemma prov_grammar p : ~ In nl p -> packs (packTupleID (None, Some p, None)) -> exists i, prov_shaped i /\ prov_written i = p.
Proof.
  intros N [c H]. unfold packTupleID in H. cbn [pack_perm rbind] in H. destruct (pack_prov (Some p)) as [st|e] eqn:E; [|discriminate H]. exact (pack_prov_grammar p st N E).
Qed.
Lemma prov_exact p : ~ In nl p -> (packs (packTupleID (None, Some p, None)) <-> exists i, prov_shaped i /\ prov_written i = p /\ prov_packable i).
Proof.
  intro N. split.
  - intro H. destruct (prov_grammar p N H) as (i & Hi & <-). exists i. split; [assumption|]. split; [reflexivity|]. now apply prov_packs.
  - intros (i & Hi & <- & P). now apply prov_packs.
Qed.
Lemma trk_exact p : ~ In nl p -> (packs (packTupleID (None, None, Some p)) <-> (1 <= length p <= 8)%nat /\ forallb trk_char p = true).
Proof.
  intro N. split.
  - intros [c H]. rewrite pack_trkonly in H. destruct (re_match trksubRegex p) as [g|] eqn:E; [|discriminate H].
    apply trk_inv in E as (w & W & L & T & ->). assert (w = p) as ->.
    { destruct W as [W|W]; [now symmetry|]. exfalso. apply N. rewrite W. apply in_or_app. right. now left. }
    split; [|exact T]. split; [|exact L]. destruct p; [discriminate H|cbn; lia].
  - intros [L T]. destruct (Nat.eq_dec (length p) 8) as [E|E].
    + destruct p as [|c t]; [discriminate E|]. injection E as E. rewrite (c08_pack8 c t T E). eexists; reflexivity.
    + rewrite (c08_pack p T) by lia. eexists; reflexivity.
Qed.
