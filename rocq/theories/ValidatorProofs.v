(** Lemmas of C46. *)
From Verif Require Import PyStrProofs PyReInv TablesProofs JsonProofs1 XmlProofs HumanProofs ValidatorSpec.
From Verif Require Import SchemaSpec SchemaProofs3.
Local Open Scope nat_scope.

Definition declared_here (t : str) : Prop := exists a b, t = $"<?xml" ++ a ++ $"?>" ++ b /\ ~ In nl a.
Lemma dot_ok w : forallb (incls {| c_neg := true; c_rs := [("010"%char, "010"%char)] |}) w = true <-> ~ In nl w.
Proof.
  rewrite forallb_forall. assert (forall c, incls {| c_neg := true; c_rs := [("010"%char, "010"%char)] |} c = negb (ceqb c nl)) as H.
  { assert (forall c, Bool.eqb (incls {| c_neg := true; c_rs := [("010"%char, "010"%char)] |} c) (negb (ceqb c nl)) = true) as H by (apply forall_ascii; vm_compute; reflexivity).
    intro c. apply Bool.eqb_prop. exact (H c). }
  split.
  - intros A I. specialize (A nl I). rewrite H in A. discriminate A.
  - intros N x I. rewrite H. apply negb_true_iff, ceqb_neq. intros ->. exact (N I).
Qed.
Lemma reprel_all k : forall w s, forallb k w = true -> RepRel k 0 None (w ++ s) s.
Proof. induction w as [|c w IH]; intros s H; [constructor|]. cbn in H. apply andb_prop in H as [H1 H2]. cbn [app]. apply rep_more; [discriminate|exact H1|]. exact (IH s H2). Qed.
Lemma decl_match t : re_match re_declaration t <> None <-> declared_here t.
Proof.
  split.
  - intro H. destruct (re_match re_declaration t) as [g|] eqn:E; [clear H|congruence]. apply re_match_inv in E. cbn [inv re_declaration] in E.
    destruct E as (c1 & s1 & -> & C1 & c2 & s2 & -> & C2 & c3 & s3 & -> & C3 & c4 & s4 & -> & C4 & c5 & s5 & -> & C5 & w & s6 & -> & W & _ & c6 & s7 & -> & C6 & c7 & s8 & -> & C7 & _).
    apply incls_one in C1, C2, C3, C4, C5, C6, C7. subst. exists w, s8. split; [reflexivity|]. now apply dot_ok.
  - intros (a & b & -> & N). apply re_match_iff. exists b, []. unfold re_declaration.
    do 5 (eapply m_seq; [apply m_cls; reflexivity|]). eapply m_seq; [apply m_rep; apply reprel_all; now apply dot_ok|].
    eapply m_seq; [apply m_cls; reflexivity|]. apply m_cls. reflexivity.
Qed.

Lemma space_line c s : pyspace c = true -> declaration_in (file_lines (c :: s)) = declaration_in (file_lines s).
Proof.
  intro P. cbn [file_lines]. destruct (ceqb c nl) eqn:E.
  - apply ceqb_eq in E. subst c. reflexivity.
  - destruct (file_lines s) as [|l ls]; cbn [declaration_in].
    + unfold strip. cbn [lstrip]. rewrite P. reflexivity.
    + assert (strip (c :: l) = strip l) as -> by (unfold strip; cbn [lstrip]; now rewrite P). reflexivity.
Qed.
Lemma lstrip_line s : declaration_in (file_lines s) = declaration_in (file_lines (lstrip s)).
Proof. induction s as [|c s IH]; [reflexivity|]. cbn [lstrip]. destruct (pyspace c) eqn:P; [|reflexivity]. rewrite space_line by exact P. exact IH. Qed.
Lemma file_lines_head c s : exists l ls, file_lines (c :: s) = (c :: l) :: ls /\ exists r, c :: s = (c :: l) ++ r.
Proof.
  revert c. induction s as [|d s IH]; intro c.
  - cbn. destruct (ceqb c nl); exists [], []; (split; [reflexivity|]); exists []; reflexivity.
  - cbn [file_lines]. destruct (ceqb c nl); [exists [], (file_lines (d :: s)); split; [reflexivity|]; exists (d :: s); reflexivity|].
    destruct (IH d) as (l & ls & E & r & R). change (if ceqb d nl then _ else _) with (file_lines (d :: s)). rewrite E. exists (d :: l), ls. split; [reflexivity|]. exists r. rewrite R. reflexivity.
Qed.
Lemma file_lines_prefix p q : p <> [] -> ~ In nl p -> exists l ls, file_lines (p ++ q) = (p ++ l) :: ls.
Proof.
  induction p as [|c p IH]; intros P N; [congruence|]. destruct p as [|d p].
  - destruct (file_lines_head c q) as (l & ls & E & _). exists l, ls. exact E.
  - destruct IH as (l & ls & E); [discriminate|intro I; apply N; now right|].
    cbn [app file_lines] in *. replace (ceqb c nl) with false by (symmetry; apply ceqb_neq; intros ->; apply N; now left).
    rewrite E. exists l, ls. reflexivity.
Qed.
Lemma rstrip_keep p c r : pyspace c = false -> rstrip (p ++ c :: r) = p ++ c :: rstrip r.
Proof.
  intro P. unfold rstrip. rewrite rev_app_distr. cbn [rev]. rewrite <- app_assoc. cbn [app].
  assert (forall u v, lstrip (u ++ c :: v) = lstrip u ++ c :: v) as L.
  { induction u as [|d u IH]; intro v; cbn [app lstrip]; [now rewrite P|]. destruct (pyspace d); [apply IH|reflexivity]. }
  rewrite L, rev_app_distr. cbn [rev]. rewrite rev_involutive, <- app_assoc. reflexivity.
Qed.
Lemma nonspace_line c s : pyspace c = false -> (declaration_in (file_lines (c :: s)) = true <-> declared_here (c :: s)).
Proof.
  intro P. destruct (file_lines_head c s) as (l & ls & E & r & R). rewrite E. cbn [declaration_in].
  assert (strip (c :: l) = rstrip (c :: l)) as -> by (unfold strip; cbn [lstrip]; now rewrite P).
  destruct (rstrip_prefix (c :: l)) as (sp & SP & _).
  assert (exists u, rstrip (c :: l) = c :: u) as (u & U) by (exists (rstrip l); exact (rstrip_keep [] c l P)).
  rewrite U. cbn [streqb]. transitivity (declared_here (c :: u)).
  - rewrite <- decl_match. destruct (re_match re_declaration (c :: u)); split; congruence.
  - rewrite <- U. split.
    + intros (a & b & D & N). exists a, (b ++ sp ++ r). split; [|exact N]. rewrite R, SP, D, <- !app_assoc. reflexivity.
    + intros (a & b & D & N). destruct (file_lines_prefix ($"<?xml" ++ a ++ $"?>") b) as (l' & ls' & E').
      * discriminate.
      * intro I. apply in_app_or in I as [I|I]; [|apply in_app_or in I as [I|I]]; [|exact (N I)|]; repeat (destruct I as [I|I]; [discriminate I|]); exact I.
      * rewrite <- !app_assoc, <- D, E in E'. assert (c :: l = $"<?xml" ++ a ++ $"?>" ++ l') as L by exact (f_equal (hd []) E').
        rewrite L. exists a, (rstrip l'). split; [|exact N].
        change ($"<?xml" ++ a ++ $"?>" ++ l') with ($"<?xml" ++ a ++ [("?")%char] ++ ">"%char :: l').
        rewrite (app_assoc a), (app_assoc ($"<?xml")), rstrip_keep by reflexivity. rewrite <- !app_assoc. reflexivity.
Qed.
Lemma declaration_lines s : declaration_in (file_lines s) = true <-> exists w t, s = w ++ t /\ forallb pyspace w = true /\ declared_here t.
Proof.
  rewrite lstrip_line. destruct (lstrip_suffix s) as (w & W & WS). pose proof (lstrip_head s) as H. split.
  - intro D. exists w, (lstrip s). split; [exact W|]. split; [exact WS|]. destruct (lstrip s) as [|c t]; [discriminate D|]. exact (proj1 (nonspace_line c t H) D).
  - intros (w' & t & E & WS' & a & b & T & N). rewrite E, lstrip_app by exact WS'. rewrite T. change (lstrip ($"<?xml" ++ a ++ $"?>" ++ b)) with ($"<?xml" ++ a ++ $"?>" ++ b).
    change ($"<?xml" ++ a ++ $"?>" ++ b) with ("<"%char :: $"?xml" ++ a ++ $"?>" ++ b). apply nonspace_line; [reflexivity|]. exists a, b. split; [reflexivity|exact N].
Qed.
(** newline translation *)
Lemma univ_prefix : forall t p q, univ_newlines t = p ++ q -> ~ In nl p -> exists q', t = p ++ q' /\ univ_newlines q' = q /\ ~ In cr p.
Proof.
  intros t p. revert t. induction p as [|c p IH]; intros t q E N; [exists t; auto|].
  destruct t as [|d t]; [discriminate E|]. cbn [univ_newlines] in E. destruct (ceqb d cr) eqn:C.
  - exfalso. apply N. left. destruct t as [|x t]; [|destruct (ceqb x nl)]; cbn [app] in E; injection E as E1 E2; now symmetry.
  - cbn [app] in E. injection E as -> E. destruct (IH t q E) as (q' & -> & Q & NC); [intro I; apply N; now right|]. exists q'. split; [reflexivity|]. split; [exact Q|].
    intros [->|I]; [|exact (NC I)]. apply ceqb_neq in C. exact (C eq_refl).
Qed.
Lemma univ_keep p q : ~ In cr p -> univ_newlines (p ++ q) = p ++ univ_newlines q.
Proof.
  induction p as [|c p IH]; intro N; [reflexivity|]. cbn [app univ_newlines]. replace (ceqb c cr) with false by (symmetry; apply ceqb_neq; intros ->; apply N; now left).
  rewrite IH; [reflexivity|]. intro I. apply N. now right.
Qed.
Lemma univ_space : forall n t, length t <= n -> (exists w s, univ_newlines t = w ++ s /\ forallb pyspace w = true /\ s = lstrip (univ_newlines t)) /\ lstrip (univ_newlines t) = univ_newlines (lstrip t).
Proof.
  intros n t L. split; [destruct (lstrip_suffix (univ_newlines t)) as (w & W & S); exists w, (lstrip (univ_newlines t)); auto|].
  revert t L. induction n as [|n IH]; intros [|c t] L; try reflexivity; [cbn in L; lia|]. cbn [univ_newlines lstrip].
  destruct (ceqb c cr) eqn:C.
  - apply ceqb_eq in C. subst c. change (pyspace cr) with true. cbv iota. destruct t as [|d t]; [reflexivity|]. cbn [length] in L. destruct (ceqb d nl) eqn:D.
    + apply ceqb_eq in D. subst d. change (lstrip (nl :: univ_newlines t)) with (lstrip (univ_newlines t)). change (lstrip (nl :: t)) with (lstrip t). apply IH. lia.
    + change (lstrip (nl :: univ_newlines (d :: t))) with (lstrip (univ_newlines (d :: t))). apply IH. cbn [length]. lia.
  - cbn [lstrip]. cbn [length] in L. destruct (pyspace c) eqn:P; [apply IH; lia|]. cbn [univ_newlines]. rewrite C. reflexivity.
Qed.
Lemma declaration_text text : declaration_in (file_lines (univ_newlines text)) = true <-> one_line_declaration text.
Proof.
  rewrite declaration_lines. split.
  - intros (w & t & E & WS & a & b & T & N).
    assert (lstrip (univ_newlines text) = t) as L.
    { rewrite E, lstrip_app by exact WS. rewrite T. reflexivity. }
    rewrite (proj2 (univ_space _ text (le_n _))), T in L. rewrite !app_assoc in L.
    apply univ_prefix in L as (q & Q & _ & C).
    + destruct (lstrip_suffix text) as (w' & W & WS'). exists w', a, q. rewrite W, Q, <- !app_assoc. split; [reflexivity|]. split; [exact WS'|]. split; [exact N|].
      intro I. apply C. rewrite <- app_assoc. apply in_or_app. right. apply in_or_app. now left.
    + rewrite <- app_assoc. intro I. apply in_app_or in I as [I|I]; [|apply in_app_or in I as [I|I]]; [|exact (N I)|]; repeat (destruct I as [I|I]; [discriminate I|]); exact I.
  - intros (w & a & b & T & WS & N & C). destruct (lstrip_suffix (univ_newlines text)) as (w' & W & WS'). exists w', (lstrip (univ_newlines text)). split; [exact W|]. split; [exact WS'|].
    rewrite (proj2 (univ_space _ text (le_n _))), T, lstrip_app by exact WS. change (lstrip ($"<?xml" ++ a ++ $"?>" ++ b)) with ($"<?xml" ++ a ++ $"?>" ++ b).
    exists a, (univ_newlines b). split; [|exact N]. rewrite !app_assoc. apply univ_keep. rewrite <- app_assoc. intro I.
    apply in_app_or in I as [I|I]; [|apply in_app_or in I as [I|I]]; [|exact (C I)|]; repeat (destruct I as [I|I]; [discriminate I|]); exact I.
Qed.
Lemma about xmlfile text : about_declaration xmlfile text (validate_xml_declaration xmlfile text).
Proof.
  unfold about_declaration, validate_xml_declaration. destruct (declaration_in _) eqn:D.
  - left. split; [now apply declaration_text|reflexivity].
  - right. split; [intro H; apply declaration_text in H; congruence|reflexivity].
Qed.
Lemma about_unique xmlfile text d d' : about_declaration xmlfile text d -> about_declaration xmlfile text d' -> d = d'.
Proof. intros [[A ->]|[A ->]] [[B ->]|[B ->]]; tauto. Qed.

Lemma unannotated_twice x : unannotated (unannotated x) = unannotated x.
Proof.
  induction x as [t a s ks IH] using xml_ind'. cbn [unannotated]. f_equal. rewrite Forall_forall in IH. induction ks as [|k ks IK]; [reflexivity|]. cbn [flat_map].
  rewrite flat_map_app, IK by (intros y I; apply IH; now right). f_equal. destruct (has_tag $"xsd:annotation" k) eqn:T; [reflexivity|]. cbn [flat_map]. rewrite (IH k (or_introl eq_refl)), app_nil_r.
  assert (has_tag $"xsd:annotation" (unannotated k) = false) as -> by (destruct k; exact T). reflexivity.
Qed.

Lemma report_lines ls : report ls = lines_file ls.
Proof. unfold report, lines_file. rewrite flat_map_concat_map. reflexivity. Qed.
Lemma schema_outcome F compile s name c : processor F compile s ->
  exists f v, compile s = Ok f /\ validate_schema name f c = name ++ v /\ outcome (valid F (unannotated s) c) v.
Proof.
  intros (f & C & A). unfold validate_schema. specialize (A c). destruct (f c) eqn:E.
  - exists f, $" is OK". split; [exact C|]. split; [now rewrite E|]. left. split; [now apply A|reflexivity].
  - exists f, $" has failed: ". split; [exact C|]. split; [now rewrite E|]. right. split; [intro V; apply A in V; discriminate V|reflexivity].
Qed.
Lemma xslt_outcome F compile master s name c : processor F compile (transformed s master) ->
  exists v, validate_xslt compile master name s c = Ok (name ++ v) /\ outcome (valid F (unannotated (transformed s master)) c) v.
Proof.
  intro P. destruct (schema_outcome F compile _ name c P) as (f & v & C & E & O). exists v. unfold validate_xslt. rewrite C. cbn [rbind]. rewrite E. auto.
Qed.
Lemma outcome_iff A B v w : (A <-> B) -> outcome A v -> outcome B w -> v = w.
Proof. intros H [[X ->]|[X ->]] [[Y ->]|[Y ->]]; tauto. Qed.
Lemma machine_bare m master : pair_master master = true -> unannotated (schema m master) = schema m master.
Proof.
  intro P. assert (exists h, machine h = m /\ h <> HumanDistrib) as (h & <- & N) by (destruct m; [exists HumanSubmit|exists HumanGeneral]; (split; [reflexivity|discriminate])).
  rewrite <- (schema_twin h master P) by (intro E; destruct (N E)). apply unannotated_twice.
Qed.
