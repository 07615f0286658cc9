(** Lemmas about PackUtil.v, part 11: C12, the characterisation. *)
From Verif Require Export PackProofs10.

Lemma dig_noup c : isdig c = true -> isupper c = false.
Proof. revert c. apply implf_ascii. vm_compute. reflexivity. Qed.
Lemma up_nodig c : isupper c = true -> isdig c = false.
Proof. revert c. apply implf_ascii. vm_compute. reflexivity. Qed.
Lemma up_nosp c : isupper c = true -> ceqb " " c = false.
Proof. revert c. apply implf_ascii. vm_compute. reflexivity. Qed.
Lemma dig_nocI c : isdig c = true -> incls k_cI c = false.
Proof. revert c. apply implf_ascii. vm_compute. reflexivity. Qed.
Definition tb (c : ascii) : bool := trk_char c || ceqb c " ".
Lemma lossy_five five o c6 c7 c8 c9 c10 c11 c12 : Five five o ->
  lossy (five ++ [c6; c7; c8; c9; c10; c11; c12]) =
  let seven := [c6; c7; c8; c9; c10; c11; c12] in
  match o with
  | None => (ceqb c6 "I" || ceqb c6 "J" || ceqb c6 "K") && ceqb c12 "0" && looks_packed seven
  | Some _ => negb (forallb (ceqb " ") seven) && forallb tb seven && negb (looks_packed seven)
  end.
Proof.
  intro HF. destruct HF as [|l d1 d2 d3 d4 u Hu H1 H2 H3 H4|w x y z a b c d Ha Hb Hc Hd].
  - cbn -[looks_packed ceqb]. change (isupper " ") with false. change (ceqb " " " ") with true. cbn [andb negb orb].
    now rewrite !orb_false_r.
  - assert (forallb (ceqb " ") [l; d1; d2; d3; d4] = false) as B.
    { cbn. destruct (ceqb " " l) eqn:E; [|reflexivity]. apply ceqb_eq in E. subst l. discriminate Hu. }
    assert (isupper d4 = false) as U by (now apply dig_noup).
    unfold lossy. cbn [app]. rewrite B, H4, U. cbn [andb negb orb]. rewrite orb_false_r. reflexivity.
  - unfold lossy. cbn [app]. change (ceqb "~" "~") with true.
    assert (forallb (ceqb " ") ["~"%char; w; x; y; z] = false) as B by reflexivity. rewrite B.
    cbn [negb andb orb]. rewrite orb_true_r, andb_false_r. cbn [andb orb]. rewrite !orb_false_r. reflexivity.
Qed.
Lemma lossy_letter c1 c2 c3 c4 t c6 c7 c8 c9 c10 c11 c12 : isupper t = true -> c1 <> "~"%char ->
  lossy ([c1; c2; c3; c4; t] ++ [c6; c7; c8; c9; c10; c11; c12]) =
  (ceqb t "I" || isdig c6 || (ceqb c10 "0" && ceqb c11 "0" && (islower c12 || ceqb t "S")) || (ceqb t "A" && islower c12)).
Proof.
  intros Ht H1. apply ceqb_neq in H1. unfold lossy. cbn [app]. rewrite Ht, H1.
  rewrite (up_nodig t Ht).
  pose proof (up_nosp t Ht) as B.
  assert (forallb (ceqb " ") [c1; c2; c3; c4; t] = false) as ->.
  { cbn [forallb]. rewrite B. cbn [andb]. now rewrite !andb_false_r. }
  cbn [negb andb orb]. reflexivity.
Qed.
Lemma seven_of (s : str) : length s = 7%nat -> exists c6 c7 c8 c9 c10 c11 c12, s = [c6; c7; c8; c9; c10; c11; c12].
Proof.
  destruct s as [|a [|b [|c [|d [|e [|f [|g [|]]]]]]]]; try discriminate. intros _. do 7 eexists. reflexivity.
Qed.
Lemma looks_cases s : looks_packed s = true ->
  (exists c y1 y2 h cl cn o v u, s = [c; y1; y2; h; cl; cn; o] /\ incls k_ik c = true /\ digit62 c = Some u /\ 18 <= u <= 20 /\
     isdig y1 = true /\ isdig y2 = true /\ half_month h = true /\ digit62 cl = Some v /\ isdig cn = true /\ (order_letter o = true \/ o = "0"%char)) \/
  (exists s1 s2 d1 d2 d3 d4, s = [s1; s2; "S"%char; d1; d2; d3; d4] /\ is_survey s1 s2 = true /\ isdig d1 = true /\ isdig d2 = true /\
     isdig d3 = true /\ isdig d4 = true).
Proof.
  destruct s as [|a [|b [|c [|d [|e [|f [|g [|]]]]]]]]; try discriminate. cbn [looks_packed]. intro H.
  apply orb_prop in H as [H|H]; repeat (apply andb_prop in H as [H ?]).
  - left. assert (incls k_ik a = true) as Ha by (now rewrite <- ik_eq). destruct (ik_digit62 a Ha) as (u & Hu & Hr).
    assert (exists v, digit62 e = Some v) as [v Hv] by (apply an_digit62; now rewrite k_an_eq).
    exists a, b, c, d, e, f, g, v, u. repeat (split; [first [reflexivity|assumption]|]).
    match goal with H : _ || _ = true |- _ => apply orb_prop in H as [Hg|Hg] end; [now left|]. right. now apply ceqb_eq.
  - right. match goal with H : ceqb c "S" = true |- _ => apply ceqb_eq in H; subst c end.
    exists a, b, d, e, f, g. auto 7.
Qed.
Lemma survey_head s1 s2 : is_survey s1 s2 = true -> (ceqb s1 "I" || ceqb s1 "J" || ceqb s1 "K") = false.
Proof.
  unfold is_survey. intro H. apply orb_prop in H as [H|H]; apply andb_prop in H as [H _]; apply ceqb_eq in H; subst; reflexivity.
Qed.
Lemma order_not0 o : order_letter o = true -> ceqb o "0" = false.
Proof. revert o. apply implf_ascii. vm_compute. reflexivity. Qed.
Lemma okne (r p : str) : r <> p -> (Ok r = Ok p <-> true = false).
Proof. intro H. split; [intros [= E]; contradiction|discriminate]. Qed.
Lemma okeq (r p : str) : r = p -> (Ok r = Ok p <-> false = false).
Proof. intros ->. tauto. Qed.

(** minor-planet columns followed by a designation *)
Lemma c12_looks five o seven t : Five five o -> looks_packed seven = true -> unpackPackedID (five ++ seven) = Ok t ->
  (packTupleID t = Ok (five ++ seven) <-> lossy (five ++ seven) = false).
Proof.
  intros HF HL HU. assert (HL' := HL).
  apply looks_cases in HL' as [(c & y1 & y2 & h & cl & cn & l & v & u & -> & Hik & Hc & Hu & Hy1 & Hy2 & Hh & Hcl & Hcn & [Ho| ->])
     |(s1 & s2 & d1 & d2 & d3 & d4 & -> & Hs & H1 & H2 & H3 & H4)]; rewrite (lossy_five _ _ _ _ _ _ _ _ _ HF); cbn zeta; rewrite HL.
  - rewrite (unpack_prov five o c y1 y2 h cl cn l u v) in HU; auto; [|now rewrite k_hm_eq|now rewrite k_or_eq].
    injection HU as <-. rewrite (order_not0 _ Ho), !andb_false_r. cbn [andb].
    replace (match o with Some _ => false | None => false end) with false by (now destruct o).
    rewrite nstr_num. fold (prov_text (u * 100 + decval [y1; y2]) h l (v * 10 + decval [cn])).
    rewrite (five_pair five o _ _ [c; y1; y2; h; cl; cn; l] HF); [apply okeq; reflexivity|].
    apply (pack_back_std c y1 y2 h cl cn l u v); auto. lia.
  - rewrite (unpack_prov0 five o c y1 y2 h cl cn u v) in HU; auto; [|now rewrite k_hm_eq].
    injection HU as <-. rewrite nstr_num. rewrite andb_false_r. change (ceqb "0" "0") with true. rewrite ik_eq, Hik. cbn [andb].
    pose proof (pack_back_comet "A" c y1 y2 h None cl cn u v eq_refl Hc ltac:(lia) Hy1 Hy2 Hh I Hcl Hcn) as HP.
    change (ceqb "A" "A") with true in HP. unfold comet_text in HP.
    destruct o as [n|]; cbn [ptext option_map].
    + destruct (five_pack _ _ HF) as [Hp _]. rewrite (pack_both _ _ _ _ _ _ _ _ _ Hp HP). apply okeq. reflexivity.
    + rewrite (pack_provonly _ _ _ _ _ HP). rewrite (five_none _ _ HF eq_refl). apply okne. discriminate.
  - rewrite (unpack_survey five o) in HU by auto. injection HU as <-.
    rewrite (survey_head _ _ Hs), !andb_false_r. cbn [andb].
    replace (match o with Some _ => false | None => false end) with false by (now destruct o).
    rewrite (five_pair five o _ _ [s1; s2; "S"%char; d1; d2; d3; d4] HF); [apply okeq; reflexivity|]. now apply pack_prov_survey.
Qed.

(** comet and satellite patterns need a letter in column 5 *)
Lemma comet_col5 a b c d e r g : re_match cometPackedIDRegex (a :: b :: c :: d :: e :: r) = Some g -> incls k_cI e = true /\ a <> "~"%char.
Proof.
  intro H. unfold cometPackedIDRegex in H. apply re_match_inv in H. cbn [inv invn Nat.eqb] in H. destruct H as [H|H].
  - destruct H as (? & ? & E1 & H1 & ? & ? & E2 & _ & ? & ? & E3 & _ & ? & ? & E4 & _ & x & ? & E5 & H5 & _).
    injection E1 as <- <-. injection E2 as _ <-. injection E3 as _ <-. injection E4 as _ <-. injection E5 as <- _.
    split; [exact H5|]. intros ->. discriminate H1.
  - destruct H as (? & ? & E1 & H1 & ? & ? & E2 & _ & ? & ? & E3 & _ & ? & ? & E4 & _ & ? & _ & x & ? & E5 & H5 & _).
    injection E1 as <- <-. injection E2 as _ <-. injection E3 as _ <-. injection E4 as _ <-. injection E5 as <- _.
    split; [exact H5|]. intros ->. discriminate H1.
Qed.
Lemma sat_col5 a b c d e r g : re_match satellitePackedIDRegex (a :: b :: c :: d :: e :: r) = Some g -> e = "S"%char /\ a <> "~"%char.
Proof.
  intro H. unfold satellitePackedIDRegex in H. apply re_match_inv in H. cbn [inv invn Nat.eqb] in H. destruct H as [H|H].
  - destruct H as (? & ? & E1 & H1 & ? & ? & E2 & _ & ? & ? & E3 & _ & ? & ? & E4 & _ & x & ? & E5 & H5 & _).
    injection E1 as <- <-. injection E2 as _ <-. injection E3 as _ <-. injection E4 as _ <-. injection E5 as <- _.
    apply incls_one in H5. split; [exact H5|]. intros ->. discriminate H1.
  - destruct H as (? & ? & E1 & H1 & ? & _ & ? & ? & E2 & _ & ? & ? & E3 & _ & ? & ? & E4 & _ & ? & _ & x & ? & E5 & H5 & _).
    injection E1 as <- <-. injection E2 as _ <-. injection E3 as _ <-. injection E4 as _ <-. injection E5 as <- _.
    apply incls_one in H5. split; [exact H5|]. intros ->. discriminate H1.
Qed.
Lemma five_nolet five o r : Five five o -> re_match cometPackedIDRegex (five ++ r) = None /\ re_match satellitePackedIDRegex (five ++ r) = None.
Proof.
  intro HF. destruct HF as [|l d1 d2 d3 d4 u Hu H1 H2 H3 H4|w x y z a b c d Ha Hb Hc Hd]; cbn [app]; split;
  match goal with |- re_match ?R ?s = None => destruct (re_match R s) eqn:E; [exfalso|reflexivity] end.
  - apply comet_col5 in E as [E _]. discriminate E.
  - apply sat_col5 in E as [E _]. discriminate E.
  - apply comet_col5 in E as [E _]. rewrite (dig_nocI _ H4) in E. discriminate E.
  - apply sat_col5 in E as [E _]. subst. discriminate H4.
  - apply comet_col5 in E as [_ E]. now elim E.
  - apply sat_col5 in E as [_ E]. now elim E.
Qed.
Lemma blanks_forallb s : blanks s = forallb (ceqb " ") s.
Proof.
  unfold blanks. induction s as [|c s IH]; [reflexivity|]. cbn [forallb]. rewrite IH. apply (f_equal (fun b => b && _)).
  destruct (ceqb c " ") eqn:E; destruct (ceqb " " c) eqn:F; auto.
  - apply ceqb_eq in E. subst. discriminate F.
  - apply ceqb_eq in F. subst. discriminate E.
Qed.
Lemma cap5_num_c l d1 d2 d3 d4 u c5 : digit62 l = Some u -> Cap5 [l; d1; d2; d3; d4] c5 -> c5 = [(2%nat, [d1; d2; d3; d4]); (1%nat, [l])].
Proof. intros Hu H. inversion H; subst; try reflexivity; discriminate Hu. Qed.
Lemma cap5_tilde_c w x y z c5 : Cap5 ["~"%char; w; x; y; z] c5 -> c5 = [(3%nat, ["~"%char; w; x; y; z])].
Proof. intros H. inversion H as [|? ? ? ? ? ? Hu|]; subst; try reflexivity; discriminate Hu. Qed.
(** minor-planet columns followed by a tracklet *)
Lemma c12_trk five o c5 w pad t : Five five o -> Cap5 five c5 -> forallb trk_char w = true -> blanks pad = true -> length (w ++ pad) = 7%nat ->
  looks_packed (w ++ pad) = false -> re_match minorplanetPackedIDRegex (five ++ w ++ pad) = Some ((12%nat, w) :: c5) ->
  unpackPackedID (five ++ w ++ pad) = Ok t ->
  (packTupleID t = Ok (five ++ w ++ pad) <-> lossy (five ++ w ++ pad) = false).
Proof.
  intros HF H5 Hw Hp Hl HL HM HU.
  assert (pad = spaces (7 - length w)) as Epad.
  { rewrite (blanks_eq pad Hp). f_equal. rewrite app_length in Hl. lia. }
  assert (lossy (five ++ w ++ pad) = match o with None => false | Some _ => match w with [] => false | _ => true end end) as EL.
  { destruct (seven_of _ Hl) as (c6 & c7 & c8 & c9 & c10 & c11 & c12 & E). rewrite E. rewrite (lossy_five _ _ _ _ _ _ _ _ _ HF). cbn zeta.
    rewrite <- E. rewrite HL. rewrite andb_false_r, andb_true_r. destruct o as [n|]; [|reflexivity].
    assert (forallb tb (w ++ pad) = true) as ->.
    { rewrite forallb_app. apply andb_true_intro. split; apply forallb_forall; intros x Hx.
      - rewrite forallb_forall in Hw. unfold tb. now rewrite (Hw x Hx).
      - unfold blanks in Hp. rewrite forallb_forall in Hp. unfold tb. rewrite (Hp x Hx). apply orb_true_r. }
    rewrite andb_true_r. rewrite forallb_app, <- (blanks_forallb pad), Hp, andb_true_r.
    destruct w as [|x w]; [reflexivity|]. cbn [forallb]. cbn [forallb] in Hw. apply andb_prop in Hw as [Hx _].
    destruct (ceqb " " x) eqn:Ex; [|reflexivity]. apply ceqb_eq in Ex. subst x. discriminate Hx. }
  rewrite EL. destruct w as [|x w].
  - cbn [app length Nat.sub] in *. subst pad. rewrite (unpack_noprov five o HF) in HU. destruct o as [n|]; [|discriminate].
    injection HU as <-. destruct (five_pack _ _ HF) as [Hpp _]. rewrite (pack_permonly _ _ _ _ _ Hpp) by discriminate.
    apply okeq. reflexivity.
  - destruct o as [n|].
    + destruct (five_nolet five (Some n) ((x :: w) ++ pad) HF) as [HC HS].
      assert (exists pv, unpack_minor (five ++ (x :: w) ++ pad) = Ok (Some (dec n), pv, Some (x :: w)) /\ pv = None) as (pv & HM' & ->).
      { unfold unpack_minor. rewrite HM. pose proof (five_pos _ _ HF) as Hpos. cbn in Hpos.
        apply (fun H => five_fiven _ _ n H eq_refl) in HF.
        destruct HF as [l d1 d2 d3 d4 u n Hu H1 H2 H3 H4 En Hnz|w1 w2 w3 w4 a b c d n Ha Hb Hc Hd En].
        - rewrite (cap5_num_c _ _ _ _ _ _ _ Hu H5). eval_grp. 
          replace (decval [d1; d2; d3; d4] + 10000 * u) with n by assumption. 
          rewrite (proj2 (Z.eqb_neq n 0) Hnz). cbn [rbind]. rewrite (otrue_dec n) by lia. cbn [negb andb]. eauto.
        - rewrite (cap5_tilde_c _ _ _ _ _ H5). eval_grp.
          replace (620000 + val62 a b c d) with n by assumption.
          assert (n <> 0) as Hnz by lia.
          rewrite (proj2 (Z.eqb_neq n 0) Hnz). cbn [rbind]. rewrite (otrue_dec n) by lia. cbn [negb andb]. eauto. }
      unfold unpackPackedID in HU. rewrite HM' in HU. cbn [rbind] in HU. unfold unpack_comet in HU. rewrite HC in HU. cbn [rbind] in HU.
      unfold unpack_sat in HU. rewrite HS in HU. cbn [rbind] in HU. 
      pose proof (five_range _ _ HF) as R. rewrite (otrue_dec n) in HU by lia. cbn [negb andb] in HU. injection HU as <-.
      destruct (five_pack _ _ HF) as [Hpp _]. rewrite (pack_permonly _ _ _ _ _ Hpp) by discriminate.
      apply okne. intro E. apply app_inv_head in E. injection E as E _. rewrite <- E in Hw. discriminate Hw.
    + rewrite (five_none _ _ HF eq_refl) in *. rewrite Epad in HU, HL |- *.
      rewrite app_length in Hl. cbn [length] in Hl.
      assert (looks_packed (x :: w) = false) as HL2.
      { destruct (looks_packed (x :: w)) eqn:Q; [|reflexivity]. exfalso.
        assert (length (x :: w) = 7%nat) as L7.
        { apply looks_cases in Q as [(? & ? & ? & ? & ? & ? & ? & ? & ? & -> & _)|(? & ? & ? & ? & ? & ? & -> & _)]; reflexivity. }
        rewrite L7 in HL. cbn [Nat.sub spaces repeat] in HL. rewrite app_nil_r in HL. congruence. }
      change [" "; " "; " "; " "; " "]%char with (spaces 5) in HU |- *.
      rewrite c08_unpack in HU; [|assumption|cbn [length]; lia|assumption]. injection HU as <-.
      rewrite c08_pack; [|assumption|cbn [length]; lia]. apply okeq. reflexivity.
Qed.
Lemma pz_range yl u : incls k_pz yl = true -> digit62 yl = Some u -> 25 <= u <= 35.
Proof.
  intros H Hu. assert (forall c, implb (incls k_pz c) (match digit62 c with Some d => (25 <=? d) && (d <=? 35) | None => false end) = true) as S
    by (apply forall_ascii; vm_compute; reflexivity).
  specialize (S yl). rewrite H, Hu in S. cbn in S. lia.
Qed.
Lemma no_nl_tail a tail : ~ In nl (a ++ tail) -> eos tail -> tail = [].
Proof. intros H [->| ->]; [reflexivity|]. elim H. apply in_or_app. right. now left. Qed.
Lemma c12_minor p g t : length p = 12%nat -> ~ In nl p -> re_match minorplanetPackedIDRegex p = Some g -> unpackPackedID p = Ok t ->
  (packTupleID t = Ok p <-> lossy p = false).
Proof.
  intros Hlen Hnl HM HU. assert (HM' := HM).
  apply minor_inv in HM' as (five & seven & tail & c5 & c7 & -> & Ht & H5 & H7 & ->).
  rewrite app_assoc in Hnl. rewrite (no_nl_tail _ _ Hnl Ht), ?app_nil_r in *.
  assert (length five = 5%nat) as L5 by (destruct H5; reflexivity).
  assert (length seven = 7%nat) as L7. { rewrite !app_length in Hlen. cbn in Hlen. lia. }
  destruct (cap5_five _ _ H5) as [[o HF]|(l & d1 & d2 & d3 & d4 & u & -> & -> & Hu & H1 & H2 & H3 & H4 & Hz)].
  2:{ exfalso. apply unpack_split in HU as (st & _ & HU & _). unfold unpack_minor in HU. rewrite HM in HU.
      destruct (cap7_no1 _ _ H7) as (G1 & G2 & G3).
      assert (gtrue (c7 ++ [(2%nat, [d1; d2; d3; d4]); (1%nat, [l])]) 1 = true /\
              grp (c7 ++ [(2%nat, [d1; d2; d3; d4]); (1%nat, [l])]) 1 = Some [l] /\ 
              grp (c7 ++ [(2%nat, [d1; d2; d3; d4]); (1%nat, [l])]) 2 = Some [d1; d2; d3; d4]) as (E1 & E2 & E3)
        by (destruct H7; repeat split; reflexivity).
      rewrite E1 in HU. cbn [orb] in HU.
      erewrite gint_lookup in HU; [|exact E3|now apply alldig4'|discriminate]. cbn [rbind] in HU.
      erewrite gletter_lookup in HU; [|exact E2|exact Hu]. cbn [rbind] in HU.
      rewrite (proj2 (Z.eqb_eq _ _) Hz) in HU. discriminate HU. }
  destruct (looks_packed seven) eqn:HL; [now apply (c12_looks five o seven t)|].
  destruct H7 as
      [c y1 y2 h cl cn l v Hc Hy1 Hy2 Hh Hcl Hcn Ho | c y1 y2 h cl cn v Hc Hy1 Hy2 Hh Hcl Hcn
      | s1 s2 e1 e2 e3 e4 Hs H1 H2 H3 H4 | w pad Hw Hlw Hp | yl h w x y z a b c d Hyl Hh Ha Hb Hc Hd | pad Hp].
  - exfalso. cbn [looks_packed] in HL. rewrite ik_eq, Hc, Hy1, Hy2, Hh, Hcn, Ho in HL.
    rewrite <- (k_an_eq cl), (digit62_an _ _ Hcl) in HL. discriminate HL.
  - exfalso. cbn [looks_packed] in HL. rewrite ik_eq, Hc, Hy1, Hy2, Hh, Hcn in HL.
    rewrite <- (k_an_eq cl), (digit62_an _ _ Hcl) in HL. cbn in HL. rewrite orb_true_r in HL. discriminate HL.
  - exfalso. cbn [looks_packed] in HL. rewrite Hs, H1, H2, H3, H4, orb_true_r in HL. discriminate HL.
  - eapply c12_trk; eassumption.
  - destruct (k_pz_dig62 _ Hyl) as [u Hu]. rewrite <- k_hm_eq in Hh.
    destruct (unpack_ext five o yl h w x y z u a b c d HF Hyl Hu Hh Ha Hb Hc Hd) as (ol & Hol & HU'). rewrite HU' in HU. injection HU as <-.
    rewrite k_hm_eq in Hh.
    rewrite (five_pair five o _ _ ["_"%char; yl; h; w; x; y; z] HF).
    + rewrite (lossy_five _ _ _ _ _ _ _ _ _ HF). cbn zeta. cbn [forallb]. change (tb "_") with false.
      change (ceqb "_" "I" || ceqb "_" "J" || ceqb "_" "K") with false. rewrite !andb_false_r. cbn [andb].
      destruct o; apply okeq; reflexivity.
    + apply (pack_back_ext yl h w x y z u a b c d ol); auto. exact (pz_range _ _ Hyl Hu).
  - assert (pad = spaces 7) as -> by (rewrite <- L7; now apply blanks_eq).
    rewrite (unpack_noprov five o HF) in HU. destruct o as [n|]; [|discriminate]. injection HU as <-.
    destruct (five_pack _ _ HF) as [Hpp _]. rewrite (pack_permonly _ _ _ _ _ Hpp) by discriminate.
    change (spaces 7) with [" "; " "; " "; " "; " "; " "; " "]%char. rewrite (lossy_five _ _ _ _ _ _ _ _ _ HF). cbn zeta.
    apply okeq. reflexivity.
Qed.
