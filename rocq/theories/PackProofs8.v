(** Lemmas about PackUtil.v, part 8: packTupleID on arbitrary strings. *)
From Verif Require Export PackProofs7.

Definition okind_of (k : kind) : okind :=
  match k with KA => MinorPlanet | KC => Comet | KF => CometFragment | KS => Satellite end.

Lemma forallb_cls_dig w : forallb (incls (Cl false [("0", "9")]%char)) w = true -> alldig w = true.
Proof.
  unfold alldig. rewrite !forallb_forall. intros H x Hx. apply k_digit_dig. auto.
Qed.
Lemma has_app c a b : has c (a ++ b) = has c a || has c b.
Proof. unfold has. apply existsb_app. Qed.
Lemma has_dig c w : isdig c = false -> alldig w = true -> has c w = false.
Proof.
  intros Hc Hw. unfold has. apply not_true_iff_false. rewrite existsb_exists. intros (x & Hx & E).
  apply ceqb_eq in E. subst x. unfold alldig in Hw. rewrite forallb_forall in Hw. rewrite (Hw _ Hx) in Hc. discriminate.
Qed.
Lemma has_eos c t : c <> nl -> eos t -> has c t = false.
Proof.
  intros Hc [->| ->]; [reflexivity|]. unfold has. cbn. rewrite orb_false_r. now apply ceqb_neq.
Qed.
Lemma eos_filter t : eos t -> filter (fun x => negb (ceqb x nl)) t = [].
Proof. intros [->| ->]; [reflexivity|]. cbn. now rewrite ceqb_refl. Qed.
Lemma after_dash_dig w t : alldig w = true -> after_dash (w ++ t) = after_dash t.
Proof.
  induction w as [|c w IH]; [reflexivity|]. intro H. apply alldig_cons in H as [Hc Hw]. cbn.
  assert (ceqb c "-" = false) as -> by (revert Hc; clear; revert c; apply implf_ascii; vm_compute; reflexivity). auto.
Qed.
Lemma zpad_len n : forall k, 0 <= n < 10 ^ Z.of_nat k -> length (zpad10 n (10 ^ Z.of_nat k)) = k.
Proof. intros k H. destruct (pad_digits k n H) as (w & E & Hl & _). unfold zpad10. rewrite E. exact Hl. Qed.
Lemma zpad_len4 n : 0 <= n < 10000 -> length (zpad10 n 10000) = 4%nat.
Proof. intro H. now apply (zpad_len n 4). Qed.
Lemma zpad_len3 n : 0 <= n < 1000 -> length (zpad10 n 1000) = 3%nat.
Proof. intro H. now apply (zpad_len n 3). Qed.
Lemma zpad_len1 n : 0 <= n < 10 -> length (zpad10 n 10) = 1%nat.
Proof. intro H. now apply (zpad_len n 1). Qed.
Lemma radix_len n : length (radix62_4 n) = 5%nat.
Proof. now rewrite radix62_4_eq. Qed.

Lemma has_cons c x s : has c (x :: s) = ceqb c x || has c s. Proof. reflexivity. Qed.
Lemma has_upper c w : isupper c = false -> forallb isupper w = true -> has c w = false.
Proof.
  intros Hc Hw. unfold has. apply not_true_iff_false. rewrite existsb_exists. intros (x & Hx & E).
  apply ceqb_eq in E. subst x. rewrite forallb_forall in Hw. rewrite (Hw _ Hx) in Hc. discriminate.
Qed.
Ltac has_tac := rewrite ?has_app, ?has_cons, ?has_eos, ?has_dig by (first [assumption | reflexivity | vm_compute; discriminate]).
(** what a step may produce *)
Definition GoodPerm (p : str) (st : pk) : Prop :=
  exists s k, pk_s st = Some s /\ pk_t st = Some k /\ length s = 5%nat /\ perm_kind p = okind_of k /\
    (k = KF -> pk_f st = Some (after_dash p) /\ (length (after_dash p) = 1 \/ length (after_dash p) = 2)%nat).
Definition GoodProv (p : str) (st : pk) : Prop :=
  exists s k, pk_s st = Some s /\ pk_t st = Some k /\ length s = 8%nat /\ prov_kind p = okind_of k /\
    (k = KF -> pk_f st = Some (after_dash p)).

Lemma gint_num g i w : grp g i = Some w -> alldig w = true -> (1 <= length w)%nat -> gint g i = Ok (decval w).
Proof. intros H Hd Hl. apply gint_lookup; auto. now intros ->. Qed.
Lemma dig_head w t : alldig w = true -> (1 <= length w)%nat -> exists c w', w ++ t = c :: w' /\ isdig c = true.
Proof.
  destruct w as [|c w]; cbn; [lia|]. intros H _. apply alldig_cons in H as [Hc _]. eauto.
Qed.
Lemma perm_kind_dig w t : alldig w = true -> (1 <= length w)%nat ->
  perm_kind (w ++ t) = if has "-" t then CometFragment else if has "P" t || has "D" t || has "I" t then Comet else MinorPlanet.
Proof.
  intros Hw Hl. destruct (dig_head w t Hw Hl) as (c & w' & E & Hc). unfold perm_kind. rewrite E, Hc, <- E.
  rewrite !has_app, !(has_dig _ w) by (auto). reflexivity.
Qed.

Lemma perm_minor_good p st st' : perm_minor p st = Ok st' -> st' = st \/ GoodPerm p st'.
Proof.
  unfold perm_minor. destruct (re_match minorplanetPermIDRegex p) as [g|] eqn:H; [|intros [= ->]; now left].
  unfold minorplanetPermIDRegex in H. invert_match H. intro HE. right.
  match goal with H : forallb _ _ = true |- _ => apply forallb_cls_dig in H as Hd end.
  erewrite gint_num in HE by (first [reflexivity | eassumption]). cbn [rbind] in HE.
  match goal with HE : context [decval ?x] |- _ => set (n := decval x) in * end.
  destruct ((n >? 0) && (n <? 15396336)) eqn:E; [|discriminate].
  destruct (Z.ltb_spec n 620000).
  - rewrite index_letter in HE by lia. cbn [rbind] in HE. injection HE as <-.
    eexists _, KA. split; [reflexivity|]. split; [reflexivity|]. split; [|split; [|discriminate]].
    + cbn [length]. rewrite zpad_len4 by lia. reflexivity.
    + rewrite perm_kind_dig by auto. rewrite !has_eos by (auto; vm_compute; discriminate). reflexivity.
  - injection HE as <-. eexists _, KA. split; [reflexivity|]. split; [reflexivity|]. split; [|split; [|discriminate]].
    + apply radix_len.
    + rewrite perm_kind_dig by auto. rewrite !has_eos by (auto; vm_compute; discriminate). reflexivity.
Qed.

Lemma pdi_cases t : incls (Cl false [("P", "P"); ("D", "D"); ("I", "I")]%char) t = true -> t = "P"%char \/ t = "D"%char \/ t = "I"%char.
Proof.
  intro H. assert (forall t, implb (incls k_pdi t) (ceqb t "P" || ceqb t "D" || ceqb t "I") = true) as S by (apply forall_ascii; vm_compute; reflexivity).
  specialize (S t). change (Cl _ _) with k_pdi in H. rewrite H in S. cbn in S. rewrite !orb_true_iff, !ceqb_eq in S. tauto.
Qed.
Lemma perm_comet_good p st st' : perm_comet p st = Ok st' -> st' = st \/ GoodPerm p st'.
Proof.
  unfold perm_comet. destruct (re_match cometPermIDRegex p) as [g|] eqn:H; [|intros [= ->]; now left].
  unfold cometPermIDRegex in H. invert_match H. intro HE. right.
  match goal with H : forallb _ _ = true |- _ => apply forallb_cls_dig in H as Hd end.
  erewrite gint_num in HE by (first [reflexivity | eassumption]). cbn [rbind gstr grp Nat.eqb] in HE.
  match goal with HE : context [decval ?x] |- _ => pose proof (decval_bound x Hd) as HB; set (n := decval x) in * end.
  destruct (Z.gtb_spec n 9999); [discriminate|]. destruct (Z.eqb_spec n 0); [discriminate|].
  injection HE as <-. eexists _, KC. split; [reflexivity|]. split; [reflexivity|]. split; [|split; [|discriminate]].
  - rewrite app_length, zpad_len4 by lia. reflexivity.
  - rewrite perm_kind_dig by auto.
    match goal with H : incls _ ?t = true |- _ => apply pdi_cases in H as [->|[->| ->]] end; has_tac; reflexivity.
Qed.

Lemma forallb_cls_up w : forallb (incls (Cl false [("A", "Z")]%char)) w = true -> forallb isupper w = true.
Proof.
  rewrite !forallb_forall. intros H x Hx. rewrite <- k_up_eq. exact (H x Hx).
Qed.
Lemma upper_nofilter w : forallb isupper w = true -> filter (fun x => negb (ceqb x nl)) w = w.
Proof.
  induction w as [|c w IH]; [reflexivity|]. cbn. intro H. apply andb_prop in H as [Hc Hw].
  assert (ceqb c nl = false) as -> by (revert Hc; clear; revert c; apply implf_ascii; vm_compute; reflexivity).
  cbn. now rewrite IH.
Qed.
Lemma after_dash_up f t : forallb isupper f = true -> eos t -> after_dash ("-"%char :: f ++ t) = f.
Proof.
  intros Hf Ht. cbn. rewrite filter_app, (eos_filter t Ht), app_nil_r. now apply upper_nofilter.
Qed.
Lemma perm_cometfrag_good p st st' : perm_cometfrag p st = Ok st' -> st' = st \/ GoodPerm p st'.
Proof.
  unfold perm_cometfrag. destruct (re_match cometfragmentPermIDRegex p) as [g|] eqn:H; [|intros [= ->]; now left].
  unfold cometfragmentPermIDRegex in H. invert_match H. intro HE. right.
  match goal with H : forallb (incls (Cl false [("0", "9")]%char)) _ = true |- _ => apply forallb_cls_dig in H as Hd end.
  match goal with H : forallb (incls (Cl false [("A", "Z")]%char)) _ = true |- _ => apply forallb_cls_up in H as Hf end.
  erewrite gint_num in HE by (first [reflexivity | eassumption]). cbn [rbind gstr grp Nat.eqb] in HE.
  match goal with HE : context [decval ?x] |- _ => pose proof (decval_bound x Hd) as HB; set (n := decval x) in * end.
  destruct (Z.gtb_spec n 9999); [discriminate|]. destruct (Z.eqb_spec n 0); [discriminate|].
  injection HE as <-. eexists _, KF. split; [reflexivity|]. split; [reflexivity|]. split; [|split].
  - rewrite app_length, zpad_len4 by lia. reflexivity.
  - rewrite perm_kind_dig by auto.
    match goal with H : incls _ ?t = true |- _ => apply pdi_cases in H as [->|[->| ->]] end; has_tac; reflexivity.
  - intros _. rewrite after_dash_dig by assumption.
    match goal with H : incls _ ?t = true |- _ => apply pdi_cases in H as H' end.
    match goal with |- context [after_dash (?t :: "-"%char :: ?f ++ ?e)] =>
      assert (after_dash (t :: "-"%char :: f ++ e) = f) as ->
        by (transitivity (after_dash ("-"%char :: f ++ e)); [destruct H' as [->|[->| ->]]; reflexivity|now apply after_dash_up]) end.
    split; [reflexivity|]. lia.
Qed.
Lemma perm_sat_good p st st' : perm_sat p st = Ok st' -> st' = st \/ GoodPerm p st'.
Proof.
  unfold perm_sat. destruct (re_match satellitePermIDRegex p) as [g|] eqn:H; [|intros [= ->]; now left].
  unfold satellitePermIDRegex in H. invert_match H; intro HE; right.
  all: match goal with H : forallb (incls (Cl false [("0", "9")]%char)) _ = true |- _ => apply forallb_cls_dig in H as Hd end.
  all: erewrite gint_num in HE by (first [reflexivity | eassumption]); cbn [rbind gstr grp Nat.eqb chat nth_error app] in HE.
  all: match goal with HE : context [decval ?x] |- _ => pose proof (decval_bound x Hd) as HB; set (n := decval x) in * end.
  all: destruct (Z.gtb_spec n 999); [discriminate|]; destruct (Z.eqb_spec n 0); [discriminate|].
  all: injection HE as <-; eexists _, KS; split; [reflexivity|]; split; [reflexivity|]; split; [|split; [reflexivity|discriminate]].
  all: cbn [length]; rewrite app_length, zpad_len3 by lia; reflexivity.
Qed.

Lemma pack_perm_good p st : pack_perm (Some p) = Ok st -> GoodPerm p st.
Proof.
  unfold pack_perm.
  destruct (perm_minor p pk0) as [a|] eqn:E1; [|discriminate]; cbn [rbind].
  destruct (perm_comet p a) as [a1|] eqn:E2; [|discriminate]; cbn [rbind].
  destruct (perm_cometfrag p a1) as [a2|] eqn:E3; [|discriminate]; cbn [rbind].
  destruct (perm_sat p a2) as [a3|] eqn:E4; [|discriminate]; cbn [rbind].
  unfold perm_astsat. destruct (re_match asteroidsatellitePermIDRegex p); [discriminate|]; cbn [rbind].
  destruct (otrue (pk_s a3)) eqn:E; [|discriminate]. intros [= <-].
  apply perm_sat_good in E4 as [->|E4]; [|exact E4].
  apply perm_cometfrag_good in E3 as [->|E3]; [|exact E3].
  apply perm_comet_good in E2 as [->|E2]; [|exact E2].
  apply perm_minor_good in E1 as [->|E1]; [|exact E1]. discriminate E.
Qed.

(** provisional designations *)
Lemma okletter_bind {B} d (f : ascii -> res B) r : 0 <= d -> (do c <- pyindex packLetters d; f c) = Ok r -> f (letter d) = Ok r.
Proof.
  intros Hd H. rewrite index_letter' in H by assumption. unfold okletter in H. destruct (d <? 62); [exact H|discriminate].
Qed.
Lemma decval_nn w : alldig w = true -> 0 <= decval w.
Proof. intro H. pose proof (decval_bound w H). lia. Qed.

Ltac gints HE :=
  repeat (cbn [rbind gstr grp Nat.eqb gtrue chat nth_error app] in HE;
    match type of HE with
    | context [gint ?g ?i] => erewrite (gint_lookup g i) in HE by (first [reflexivity | digs])
    end); cbn [rbind gstr grp Nat.eqb gtrue chat nth_error app] in HE.
Lemma dn1 a : isdig a = true -> 0 <= decval [a]. Proof. intro. apply decval_nn. digs. Qed.
Lemma dn2 a b : isdig a = true -> isdig b = true -> 0 <= decval [a; b]. Proof. intros. apply decval_nn. digs. Qed.
Lemma prov_minor_good p st st' : prov_minor p st = Ok st' -> st' = st \/ GoodProv p st'.
Proof.
  unfold prov_minor. destruct (re_match minorplanetProvIDRegex p) as [g|] eqn:H; [|intros [= ->]; now left].
  unfold minorplanetProvIDRegex in H. invert_match H; classify; intro HE; right.
  - match goal with H : forallb _ _ = true |- _ => apply forallb_cls_dig in H as Hd end.
    match type of HE with context [(5%nat, ?x)] => assert (x <> []) as Hne by (intros ->; cbn in *; lia);
       assert (exists c w, x = c :: w) as (c5 & w5 & Ew) by (destruct x; [congruence|eauto]); rewrite Ew in * end.
    gints HE.
    match type of HE with (if (?y <? 18) || _ then _ else _) = _ => assert (0 <= y) as Hy by (apply dn2; assumption);
       destruct ((y <? 18) || (y >? 61)); [discriminate|] end.
    pose proof (decval_nn _ Hd) as Hn.
    match type of HE with context [if ?n <=? 619 then _ else _] => destruct (Z.leb_spec n 619) as [L|L] end.
    + apply okletter_bind in HE; [|lia]. apply okletter_bind in HE; [|lia].
      match type of HE with context [zpad10 ?m 10] => pose proof (zpad_len1 m ltac:(clear - Hn; lia)) as Hz; set (zz := zpad10 m 10) in *; clearbody zz end.
      injection HE as <-.
      eexists _, KA. split; [reflexivity|]. split; [reflexivity|]. split; [|split; [|discriminate]].
      * cbn [app lit list_ascii_of_string length]. rewrite app_length, Hz. reflexivity.
      * unfold prov_kind. match goal with H : isdig ?a = true |- context [isdig ?a] => rewrite H end. reflexivity.
    + match type of HE with (if ?b then _ else _) = _ => destruct b; [discriminate|] end.
      apply okletter_bind in HE; [|apply dn2; assumption]. rewrite radix62_4_eq in HE.
      match type of HE with context [25 * ?a + ?b] => set (rk := 25 * a + b) in *; clearbody rk end. injection HE as <-.
      eexists _, KA. split; [reflexivity|]. split; [reflexivity|]. split; [|split; [|discriminate]].
      * reflexivity.
      * unfold prov_kind. match goal with H : isdig ?a = true |- context [isdig ?a] => rewrite H end. reflexivity.
  - gints HE.
    match type of HE with (if (?y <? 18) || _ then _ else _) = _ => assert (0 <= y) as Hy by (apply dn2; assumption);
       destruct ((y <? 18) || (y >? 61)); [discriminate|] end.
    change (0 <=? 619) with true in HE. cbn iota in HE.
    apply okletter_bind in HE; [|lia]. apply okletter_bind in HE; [|lia]. injection HE as <-.
    eexists _, KA. split; [reflexivity|]. split; [reflexivity|]. split; [|split; [|discriminate]].
    * reflexivity.
    * unfold prov_kind. match goal with H : isdig ?a = true |- context [isdig ?a] => rewrite H end. reflexivity.
Qed.
Lemma prov_survey_good p st st' : prov_survey p st = Ok st' -> st' = st \/ GoodProv p st'.
Proof.
  unfold prov_survey. destruct (re_match minorplanetSurveyProvIDRegex p) as [g|] eqn:H; [|intros [= ->]; now left].
  unfold minorplanetSurveyProvIDRegex in H. invert_match H; classify; intro HE; right; gints HE; injection HE as <-.
  all: match goal with |- context [zpad10 (decval ?x) _] => assert (0 <= decval x < 10000) as HB by (apply (decval_bound x); digs) end.
  all: eexists _, KA; split; [reflexivity|]; split; [reflexivity|]; split; [|split; [|discriminate]].
  all: try (cbn [app lit list_ascii_of_string length]; rewrite zpad_len4 by assumption; reflexivity).
  all: unfold prov_kind; match goal with H : isdig ?a = true |- context [isdig ?a] => rewrite H end; reflexivity.
Qed.
Lemma ct_cases t : incls (Cl false [("A", "A"); ("C", "C"); ("D", "D"); ("P", "P"); ("X", "X")]%char) t = true ->
  t = "A"%char \/ t = "C"%char \/ t = "D"%char \/ t = "P"%char \/ t = "X"%char.
Proof.
  intro H. assert (forall t, implb (incls k_ct t) (ceqb t "A" || ceqb t "C" || ceqb t "D" || ceqb t "P" || ceqb t "X") = true) as S by (apply forall_ascii; vm_compute; reflexivity).
  specialize (S t). change (Cl _ _) with k_ct in H. rewrite H in S. cbn in S. rewrite !orb_true_iff, !ceqb_eq in S. tauto.
Qed.
Lemma up_nodash c : incls (Cl false [("A", "Z")]%char) c = true -> ceqb "-" c = false.
Proof. revert c. apply implf_ascii. vm_compute. reflexivity. Qed.
Lemma dig_nodash c : isdig c = true -> ceqb "-" c = false.
Proof. revert c. apply implf_ascii. vm_compute. reflexivity. Qed.
Lemma py_int_0w w : alldig w = true -> py_int ("0"%char :: w) = Ok (decval w).
Proof.
  intro H. rewrite py_int_digits; [|apply alldig_cons; split; [reflexivity|assumption]|discriminate].
  rewrite decval_cons. reflexivity.
Qed.
Ltac nodash := repeat (rewrite has_cons || rewrite has_app); 
  repeat match goal with
  | H : incls (Cl false [("A", "Z")]%char) ?c = true |- context [ceqb "-" ?c] => rewrite (up_nodash c H)
  | H : isdig ?c = true |- context [ceqb "-" ?c] => rewrite (dig_nodash c H)
  | H : alldig ?w = true |- context [has "-" ?w] => rewrite (has_dig "-" w eq_refl H)
  | H : eos ?w |- context [has "-" ?w] => rewrite (has_eos "-" w ltac:(vm_compute; discriminate) H)
  end.
Lemma prov_comet_good p st st' : prov_comet p st = Ok st' -> st' = st \/ GoodProv p st'.
Proof.
  unfold prov_comet. destruct (re_match cometProvIDRegex p) as [g|] eqn:H; [|intros [= ->]; now left].
  unfold cometProvIDRegex in H. invert_match H; classify; intro HE; right.
  all: match goal with H : forallb (incls (Cl false [("0", "9")]%char)) _ = true |- _ => apply forallb_cls_dig in H as Hd end.
  all: pose proof (decval_nn _ Hd) as Hn.
  all: cbn [rbind gstr grp Nat.eqb gtrue app lit list_ascii_of_string] in HE.
  all: rewrite (py_int_0w _ Hd) in HE; cbn [rbind] in HE.
  all: match type of HE with (if ?n / 10 >? 61 then _ else _) = _ => set (nn := n) in *; clearbody nn;
         destruct (Z.gtb_spec (nn / 10) 61); [discriminate|] end.
  all: match type of HE with context [slice 0 2 [?a; ?b; ?c; ?d]] =>
         change (slice 0 2 [a; b; c; d]) with [a; b] in HE; change (slice 2 4 [a; b; c; d]) with [c; d] in HE;
         rewrite (py_int_digits [a; b]) in HE by digs; assert (0 <= decval [a; b]) by (apply dn2; assumption) end.
  all: cbn [rbind] in HE; apply okletter_bind in HE; [|assumption].
  all: apply okletter_bind in HE; [|lia]; apply okletter_bind in HE; [|lia].
  all: match type of HE with context [letter ?a :: ?s ++ _] => set (la := letter a) in *; clearbody la | _ => idtac end.
  all: injection HE as <-; eexists _, _; split; [reflexivity|]; split; [reflexivity|]; split; [reflexivity|].
  all: match goal with H : incls (Cl false (("A", "A") :: _)%char) ?t = true |- _ => apply ct_cases in H; rename H into Ht end.
  all: split; [|destruct Ht as [->|[->|[->|[->| ->]]]]; discriminate].
  all: assert (forall r, has "-" r = false -> forall t, (t = "A" \/ t = "C" \/ t = "D" \/ t = "P" \/ t = "X")%char ->
        prov_kind (t :: r) = okind_of (if ceqb t "A" && true then KA else KC)) as PK
      by (intros r Hr t Ht'; destruct Ht' as [->|[->|[->|[->| ->]]]]; unfold prov_kind; rewrite has_cons, Hr; reflexivity).
  all: rewrite PK; [reflexivity| |exact Ht].
  all: nodash; reflexivity.
Qed.
Lemma cf_cases t : incls (Cl false [("C", "C"); ("D", "D"); ("P", "P"); ("X", "X")]%char) t = true ->
  t = "C"%char \/ t = "D"%char \/ t = "P"%char \/ t = "X"%char.
Proof.
  intro H. assert (forall t, implb (incls k_cf t) (ceqb t "C" || ceqb t "D" || ceqb t "P" || ceqb t "X") = true) as S by (apply forall_ascii; vm_compute; reflexivity).
  specialize (S t). change (Cl _ _) with k_cf in H. rewrite H in S. cbn in S. rewrite !orb_true_iff, !ceqb_eq in S. tauto.
Qed.
Lemma gint_emp g i w r (f : Z -> res r) x : grp g i = Some w -> alldig w = true -> (do n <- gint g i; f n) = Ok x ->
  w <> [] /\ f (decval w) = Ok x.
Proof.
  intros Hg Hd. destruct w as [|c w].
  - unfold gint, gstr. rewrite Hg. discriminate.
  - rewrite (gint_lookup g i (c :: w) Hg Hd) by discriminate. intro H. split; [discriminate|exact H].
Qed.
Lemma after_dash_skip c s : ceqb "-" c = false -> after_dash (c :: s) = after_dash s.
Proof.
  intro H. cbn. assert (ceqb c "-" = false) as ->; [|reflexivity].
  apply ceqb_neq. apply ceqb_neq in H. congruence.
Qed.
Lemma prov_cometfrag_good p st st' : prov_cometfrag p st = Ok st' -> st' = st \/ GoodProv p st'.
Proof.
  unfold prov_cometfrag. destruct (re_match cometfragmentProvIDRegex p) as [g|] eqn:H; [|intros [= ->]; now left].
  unfold cometfragmentProvIDRegex in H. invert_match H; classify; intro HE; right.
  match goal with H : forallb (incls (Cl false [("0", "9")]%char)) _ = true |- _ => apply forallb_cls_dig in H as Hd end.
  pose proof (decval_nn _ Hd) as Hn.
  eapply gint_emp in HE; [|reflexivity|exact Hd]. destruct HE as [Hne HE].
  cbn [rbind gstr grp Nat.eqb gtrue app lit list_ascii_of_string] in HE.
  match type of HE with (if ?n / 10 >? 61 then _ else _) = _ => set (nn := n) in *; clearbody nn;
         destruct (Z.gtb_spec (nn / 10) 61); [discriminate|] end.
  match type of HE with context [slice 0 2 [?a; ?b; ?c; ?d]] =>
         change (slice 0 2 [a; b; c; d]) with [a; b] in HE; change (slice 2 4 [a; b; c; d]) with [c; d] in HE;
         rewrite (py_int_digits [a; b]) in HE by digs; assert (0 <= decval [a; b]) by (apply dn2; assumption) end.
  cbn [rbind] in HE; apply okletter_bind in HE; [|assumption].
  apply okletter_bind in HE; [|lia]; apply okletter_bind in HE; [|lia].
  injection HE as <-; eexists _, KF; split; [reflexivity|]; split; [reflexivity|]; split; [reflexivity|].
  match goal with H : incls (Cl false (("C", "C") :: _)%char) ?t = true |- _ => apply cf_cases in H; rename H into Ht end.
  split.
  - match goal with |- prov_kind (?t :: ?r) = _ => assert (has "-" r = true) as Hr by (nodash; rewrite ?orb_true_r; reflexivity) end.
    destruct Ht as [->|[->|[->| ->]]]; unfold prov_kind; rewrite has_cons, Hr; reflexivity.
  - intros _. cbn [pk_f]. f_equal.
    match goal with |- _ = after_dash (?t :: "/"%char :: ?a :: ?b :: ?c :: ?d :: " "%char :: ?h :: ?w ++ "-"%char :: ?f :: ?e) =>
      assert (ceqb "-" t = false) by (destruct Ht as [->|[->|[->| ->]]]; reflexivity) end.
    rewrite !after_dash_skip by (first [assumption | reflexivity | now apply dig_nodash | now apply up_nodash]).
    rewrite after_dash_dig by assumption. symmetry. apply (after_dash_up [_]); [|assumption].
    cbn. rewrite andb_true_r. rewrite <- k_up_eq. assumption.
Qed.
Lemma prov_sat_good p st st' : prov_sat p st = Ok st' -> st' = st \/ GoodProv p st'.
Proof.
  unfold prov_sat. destruct (re_match satelliteProvIDRegex p) as [g|] eqn:H; [|intros [= ->]; now left].
  unfold satelliteProvIDRegex in H. invert_match H; classify; intro HE; right.
  match goal with H : forallb (incls (Cl false [("0", "9")]%char)) _ = true |- _ => apply forallb_cls_dig in H as Hd end.
  pose proof (decval_nn _ Hd) as Hn.
  eapply gint_emp in HE; [|reflexivity|exact Hd]. destruct HE as [Hne HE].
  cbn [rbind gstr grp Nat.eqb gtrue app lit list_ascii_of_string] in HE.
  match type of HE with (if ?n / 10 >? 61 then _ else _) = _ => set (nn := n) in *; clearbody nn;
         destruct (Z.gtb_spec (nn / 10) 61); [discriminate|] end.
  destruct (nn =? 0); [discriminate|].
  match type of HE with context [slice 0 2 [?a; ?b; ?c; ?d]] =>
         change (slice 0 2 [a; b; c; d]) with [a; b] in HE; change (slice 2 4 [a; b; c; d]) with [c; d] in HE;
         rewrite (py_int_digits [a; b]) in HE by digs; assert (0 <= decval [a; b]) by (apply dn2; assumption) end.
  cbn [rbind] in HE; apply okletter_bind in HE; [|assumption].
  apply okletter_bind in HE; [|lia]; apply okletter_bind in HE; [|lia].
  injection HE as <-; eexists _, KS; split; [reflexivity|]; split; [reflexivity|]; split; [reflexivity|].
  split; [reflexivity|discriminate].
Qed.
Lemma pack_prov_good p st : pack_prov (Some p) = Ok st -> GoodProv p st.
Proof.
  unfold pack_prov.
  destruct (prov_minor p pk0) as [a|] eqn:E1; [|discriminate]; cbn [rbind].
  destruct (prov_survey p a) as [a1|] eqn:E2; [|discriminate]; cbn [rbind].
  destruct (prov_comet p a1) as [a2|] eqn:E3; [|discriminate]; cbn [rbind].
  destruct (prov_cometfrag p a2) as [a3|] eqn:E4; [|discriminate]; cbn [rbind].
  destruct (prov_sat p a3) as [a4|] eqn:E5; [|discriminate]; cbn [rbind].
  destruct (otrue (pk_s a4)) eqn:E; [|discriminate]. intros [= <-].
  apply prov_sat_good in E5 as [->|E5]; [|exact E5].
  apply prov_cometfrag_good in E4 as [->|E4]; [|exact E4].
  apply prov_comet_good in E3 as [->|E3]; [|exact E3].
  apply prov_survey_good in E2 as [->|E2]; [|exact E2].
  apply prov_minor_good in E1 as [->|E1]; [|exact E1]. discriminate E.
Qed.

(** C09 *)
Lemma Ok_inj (a b : str) : Ok a = Ok b -> b = a.
Proof. now intros [= ->]. Qed.
Lemma lower_length s : length (lower s) = length s.
Proof. apply map_length. Qed.
Lemma c09 t r : packTupleID t = Ok r -> length r = 12%nat.
Proof.
  destruct t as [[p q] k].
  destruct p as [p|]; [|destruct q as [q|]; [|destruct k as [k|]]].
  - rewrite pack_trk_ignored by (left; discriminate). unfold packTupleID.
    destruct (pack_perm (Some p)) as [a|] eqn:Ep; [|discriminate]. cbn [rbind].
    apply pack_perm_good in Ep as (s & kd & Es & Ek & Hl & _ & Hf).
    destruct (pack_prov q) as [b|] eqn:Eq; [|discriminate]. cbn [rbind].
    unfold pack_trk. cbn [rbind]. rewrite ?Es. cbn [rbind]. unfold pack_join. rewrite Es, Ek.
    destruct q as [q|].
    + apply pack_prov_good in Eq as (s2 & kd2 & Es2 & Ek2 & Hl2 & _). rewrite Es2, Ek2. cbn [okind_eqb].
      destruct (negb (kind_eqb kd kd2)); [discriminate|].
      match goal with |- (if ?b then _ else _) = _ -> _ => destruct b; [discriminate|] end.
      destruct s2 as [|e0 s2]; [discriminate|]. intros [= <-]. cbn in Hl2. rewrite app_length. lia.
    + cbn in Eq. injection Eq as <-. cbn [pk0 pk_s otrue].
      destruct (okind_eqb (Some kd) (Some KF)) eqn:E.
      * assert (kd = KF) as -> by (destruct kd; try discriminate; reflexivity).
        destruct (Hf eq_refl) as [-> Hlf]. 
        destruct s as [|c0 [|c1 [|c2 [|c3 [|c4 [|]]]]]]; try discriminate Hl. intros [= <-].
        cbn [length]. rewrite ?lower_length.
        destruct (Nat.eqb_spec (length (after_dash p)) 1) as [E1|E1].
        -- cbn [length]. lia.
        -- lia.
      * destruct s as [|c0 [|c1 [|c2 [|c3 [|c4 [|]]]]]]; try discriminate Hl. intros [= <-]. reflexivity.
  - rewrite pack_trk_ignored by (right; discriminate). unfold packTupleID. cbn [pack_perm rbind].
    destruct (pack_prov (Some q)) as [b|] eqn:Eq; [|discriminate]. cbn [rbind pack_trk].
    apply pack_prov_good in Eq as (s2 & kd2 & Es2 & Ek2 & Hl2 & _). unfold pack_join. cbn [pk_s pk0]. rewrite Es2.
    destruct s2 as [|e0 s2]; [discriminate|]. intros [= <-]. cbn in Hl2 |- *. lia.
  - rewrite pack_trkonly.
    destruct (re_match trksubRegex k) as [g|] eqn:E; [|discriminate].
    apply trk_inv in E as (w & _ & Hw & _ & ->). cbn [grp Nat.eqb].
    destruct (Nat.ltb_spec 7 (length w)) as [L|L].
    + destruct (from 1 w) as [|c w'] eqn:Ew; [discriminate|]. intro HH; apply Ok_inj in HH; subst r. unfold padr.
      rewrite app_length, spaces_length, app_length. rewrite <- Ew. unfold from.
      rewrite skipn_length, spaces_length. lia.
    + destruct w as [|c w']; [discriminate|]. intro HH; apply Ok_inj in HH; subst r. unfold padr.
      rewrite app_length, spaces_length, app_length, spaces_length. lia.
  - discriminate.
Qed.

(** C10 *)
Lemma kind_eqb_eq a b : kind_eqb a b = true <-> a = b.
Proof. destruct a, b; cbn; split; congruence. Qed.
Lemma okind_of_inj a b : okind_of a = okind_of b -> a = b.
Proof. destruct a, b; cbn; congruence. Qed.
Lemma c10_accept p q k r : packTupleID (Some p, Some q, k) = Ok r ->
  perm_kind p = prov_kind q /\ (perm_kind p = CometFragment -> after_dash p = after_dash q) /\
  exists r1 r2, packTupleID (Some p, None, None) = Ok r1 /\ packTupleID (None, Some q, None) = Ok r2 /\
    r = firstn 5 r1 ++ skipn 5 r2.
Proof.
  rewrite pack_trk_ignored by (left; discriminate). unfold packTupleID.
  destruct (pack_perm (Some p)) as [a|] eqn:Ep; [|discriminate]. cbn [rbind].
  apply pack_perm_good in Ep as (s & kd & Es & Ek & Hl & Hk & Hf).
  destruct (pack_prov (Some q)) as [b|] eqn:Eq; [|discriminate]. cbn [rbind].
  apply pack_prov_good in Eq as (s2 & kd2 & Es2 & Ek2 & Hl2 & Hk2 & Hf2).
  unfold pack_trk. rewrite ?Es. cbn [rbind pack_perm pack_prov pk0 pk_s]. unfold pack_join. rewrite Es, Ek, Es2, Ek2. cbn [okind_eqb pk_s].
  destruct (kind_eqb kd kd2) eqn:E; [|discriminate]. apply kind_eqb_eq in E. subst kd2. cbn [negb].
  match goal with |- (if ?b then _ else _) = _ -> _ => destruct b eqn:EF; [discriminate|] end.
  intros [= <-]. split; [congruence|]. split.
  - intro HF. rewrite Hk in HF. assert (kd = KF) as -> by (destruct kd; try discriminate; reflexivity).
    destruct (Hf eq_refl) as [Ef _]. rewrite Ef, (Hf2 eq_refl) in EF. cbn in EF.
    apply negb_false_iff, streqb_eq in EF. exact EF.
  - destruct s as [|c0 [|c1 [|c2 [|c3 [|c4 [|]]]]]]; try discriminate Hl.
    destruct s2 as [|e0 [|e1 [|e2 [|e3 [|e4 [|e5 [|e6 [|e7 [|]]]]]]]]]; try discriminate Hl2.
    destruct kd; cbn [kind_eqb].
    + eexists _, _. split; [reflexivity|]. split; [reflexivity|]. reflexivity.
    + eexists _, _. split; [reflexivity|]. split; [reflexivity|]. reflexivity.
    + destruct (Hf eq_refl) as [-> _]. eexists _, _. split; [reflexivity|]. split; [reflexivity|]. reflexivity.
    + eexists _, _. split; [reflexivity|]. split; [reflexivity|]. reflexivity.
Qed.
Lemma c10_reject p q k r1 r2 : packTupleID (Some p, None, None) = Ok r1 -> packTupleID (None, Some q, None) = Ok r2 ->
  (perm_kind p <> prov_kind q \/ (perm_kind p = CometFragment /\ after_dash p <> after_dash q)) ->
  packTupleID (Some p, Some q, k) = Err RuntimeError.
Proof.
  intros H1 H2 HD. rewrite pack_trk_ignored by (left; discriminate). unfold packTupleID in *.
  destruct (pack_perm (Some p)) as [a|] eqn:Ep; [|discriminate]. cbn [rbind] in *.
  apply pack_perm_good in Ep as (s & kd & Es & Ek & Hl & Hk & Hf).
  cbn [pack_perm rbind] in H2.
  destruct (pack_prov (Some q)) as [b|] eqn:Eq; [|discriminate]. cbn [rbind] in *.
  apply pack_prov_good in Eq as (s2 & kd2 & Es2 & Ek2 & Hl2 & Hk2 & Hf2).
  unfold pack_trk. rewrite ?Es. cbn [rbind]. unfold pack_join. rewrite Es, Ek, Es2, Ek2. cbn [okind_eqb].
  destruct (kind_eqb kd kd2) eqn:E; [|reflexivity]. apply kind_eqb_eq in E. subst kd2. cbn [negb].
  destruct HD as [HD|[HF HD]]; [congruence|].
  rewrite Hk in HF. assert (kd = KF) as -> by (destruct kd; try discriminate; reflexivity).
  destruct (Hf eq_refl) as [Ef _]. rewrite Ef, (Hf2 eq_refl). cbn [kind_eqb andb ostr_eqb].
  destruct (streqb (after_dash p) (after_dash q)) eqn:ES; [|reflexivity]. apply streqb_eq in ES. contradiction.
Qed.
Lemma c10_join p q k r1 r2 : packTupleID (Some p, None, None) = Ok r1 -> packTupleID (None, Some q, None) = Ok r2 ->
  perm_kind p = prov_kind q -> (perm_kind p = CometFragment -> after_dash p = after_dash q) ->
  packTupleID (Some p, Some q, k) = Ok (firstn 5 r1 ++ skipn 5 r2).
Proof.
  intros H1 H2 HK HA. destruct (packTupleID (Some p, Some q, k)) as [r|e] eqn:E.
  - apply c10_accept in E as (_ & _ & r1' & r2' & E1 & E2 & ->).
    pose proof (eq_trans (eq_sym E1) H1) as F1. pose proof (eq_trans (eq_sym E2) H2) as F2.
    apply Ok_inj in F1, F2. subst. reflexivity.
  - exfalso. revert E. rewrite pack_trk_ignored by (left; discriminate). unfold packTupleID in *.
    destruct (pack_perm (Some p)) as [a|] eqn:Ep; [|discriminate]. cbn [rbind] in *.
    apply pack_perm_good in Ep as (s & kd & Es & Ek & Hl & Hk & Hf).
    cbn [pack_perm rbind] in H2.
    destruct (pack_prov (Some q)) as [b|] eqn:Eq; [|discriminate]. cbn [rbind] in *.
    apply pack_prov_good in Eq as (s2 & kd2 & Es2 & Ek2 & Hl2 & Hk2 & Hf2).
    unfold pack_trk. rewrite ?Es. cbn [rbind]. unfold pack_join. rewrite Es, Ek, Es2, Ek2. cbn [okind_eqb].
    assert (kd = kd2) as <- by (apply okind_of_inj; congruence).
    assert (kind_eqb kd kd = true) as -> by (now apply kind_eqb_eq). cbn [negb].
    destruct (kind_eqb kd KF) eqn:EK; cbn [andb]; [|discriminate].
    apply kind_eqb_eq in EK. subst kd. destruct (Hf eq_refl) as [Ef _]. rewrite Ef, (Hf2 eq_refl).
    rewrite HA by (rewrite Hk; reflexivity). cbn [ostr_eqb]. rewrite streqb_refl. discriminate.
Qed.
