(** Lemmas about ValueSpec, part 7: the designations of the 12 columns, case by case. *)
From Verif Require Import PyStrProofs PackUtil PackSpec PackProofs12 PackProofs14.
From Verif Require Import IdSpec ValueSpec SexProofs1 ValueProofs6.
Local Open Scope Z_scope.

Definition verdict (p : str) (t : triple) : Prop := if refused_designation p then prov_bad t else parts_ok t.
Lemma five_accepted five o c6 c7 c8 c9 c10 c11 c12 : Five five o -> refused_designation (five ++ [c6; c7; c8; c9; c10; c11; c12]) = false.
Proof.
  intros [|l d1 d2 d3 d4 u Hu H1 H2 H3 H4 Hz|w x y z a b c d Ha Hb Hc Hd]; unfold refused_designation; cbn [app].
  - reflexivity.
  - assert (ceqb d4 "I" = false /\ isupper d4 = false /\ ceqb d4 "S" = false) as (-> & -> & ->).
    { clear Hz; repeat split; revert d4 H4; clear; apply implf_ascii; vm_compute; reflexivity. }
    rewrite andb_false_r. reflexivity.
  - reflexivity.
Qed.
Lemma five_numbers five o : Five five o -> match o with Some n => 1 <= n <= 15396335 | None => True end.
Proof. intro H. destruct o as [n|]; [exact (five_range _ _ H)|exact I]. Qed.
Lemma no_none {A} (P : A -> Prop) : forall s, None = Some s -> P s. Proof. intros s E. discriminate E. Qed.
Lemma some_is {A} (P : A -> Prop) x : P x -> forall s, Some x = Some s -> P s. Proof. intros H s E. injection E as <-. exact H. Qed.
Lemma dd_range y1 y2 : isdig y1 = true -> isdig y2 = true -> 0 <= decval [y1; y2] < 100.
Proof. intros H1 H2. pose proof (decval_bound _ (alldig2' _ _ H1 H2)) as B. exact B. Qed.
Lemma d_range y1 : isdig y1 = true -> 0 <= decval [y1] < 10.
Proof. intro H. rewrite decval1. pose proof (digval_range _ H). lia. Qed.
Lemma v_looks five o seven t : Five five o -> looks_packed seven = true -> unpackPackedID (five ++ seven) = Ok t -> verdict (five ++ seven) t.
Proof.
  intros HF HL HU. pose proof (five_numbers _ _ HF) as HN.
  apply looks_cases in HL as [(c & y1 & y2 & h & cl & cn & l & v & u & -> & Hik & Hc & Hu & Hy1 & Hy2 & Hh & Hcl & Hcn & [Ho| ->])
     |(s1 & s2 & d1 & d2 & d3 & d4 & -> & Hs & H1 & H2 & H3 & H4)]; unfold verdict; rewrite (five_accepted _ _ _ _ _ _ _ _ _ HF).
  - rewrite (unpack_prov five o c y1 y2 h cl cn l u v) in HU; auto; [|now rewrite k_hm_eq|now rewrite k_or_eq].
    assert (t = (ptext o, Some (dec (u * 100 + decval [y1; y2]) ++ $" " ++ [h; l] ++ nstr (v * 10 + decval [cn])), None)) as -> by (injection HU; auto).
    pose proof (dd_range _ _ Hy1 Hy2). pose proof (d_range _ Hcn). pose proof (digit62_range _ _ Hcl).
    split; [now apply ptext_ok|]. split; [|exact (no_none _)]. apply (some_is prov_ok), designation_ok; [lia|exact Hh|exact Ho|apply nstr_digs; lia|].
    pose proof (nstr_short (v * 10 + decval [cn]) ltac:(lia)). lia.
  - rewrite (unpack_prov0 five o c y1 y2 h cl cn u v) in HU; auto; [|now rewrite k_hm_eq].
    assert (t = (ptext o, Some ($"A/" ++ dec (u * 100 + decval [y1; y2]) ++ $" " ++ [h] ++ nstr (v * 10 + decval [cn])), None)) as -> by (injection HU; auto).
    pose proof (dd_range _ _ Hy1 Hy2). pose proof (d_range _ Hcn). pose proof (digit62_range _ _ Hcl).
    split; [now apply ptext_ok|]. split; [|exact (no_none _)]. apply (some_is prov_ok).
    pose proof (comet_ok "A" (u * 100 + decval [y1; y2]) h None (nstr (v * 10 + decval [cn])) None eq_refl ltac:(lia) Hh I ltac:(apply nstr_digs; lia)
      ltac:(pose proof (nstr_short (v * 10 + decval [cn]) ltac:(lia)); lia) I) as K. cbn [letter_of] in K. rewrite app_nil_r in K. exact K.
  - rewrite (unpack_survey five o) in HU by auto. assert (t = (ptext o, Some (survey_text d1 d2 d3 d4 s1 s2), None)) as -> by (injection HU; auto).
    split; [now apply ptext_ok|]. split; [|exact (no_none _)]. apply (some_is prov_ok). now apply survey_ok.
Qed.
Lemma v_trk five o c5 w pad t : Five five o -> Cap5 five c5 -> forallb trk_char w = true -> blanks pad = true -> length (w ++ pad) = 7%nat ->
  looks_packed (w ++ pad) = false -> re_match minorplanetPackedIDRegex (five ++ w ++ pad) = Some ((12%nat, w) :: c5) ->
  unpackPackedID (five ++ w ++ pad) = Ok t -> verdict (five ++ w ++ pad) t.
Proof.
  intros HF H5 Hw Hp Hl HL HM HU.
  assert (pad = spaces (7 - length w)) as Epad.
  { rewrite (blanks_eq pad Hp). f_equal. rewrite app_length in Hl. lia. }
  unfold verdict. destruct (seven_of _ Hl) as (c6 & c7 & c8 & c9 & c10 & c11 & c12 & E7).
  assert (refused_designation (five ++ w ++ pad) = false) as -> by (rewrite E7; exact (five_accepted _ _ _ _ _ _ _ _ _ HF)).
  clear E7 c6 c7 c8 c9 c10 c11 c12. destruct w as [|x w].
  - cbn [app length Nat.sub] in *. subst pad. rewrite (unpack_noprov five o HF) in HU. destruct o as [n|]; [|discriminate HU].
    assert (t = (Some (dec n), None, Some [])) as -> by (injection HU; auto). split; [apply (some_is perm_ok), number_ok; exact (five_range _ _ HF)|]. split; [exact (no_none _)|].
    apply (some_is (fun s => s <> [] -> trk_ok s)). intro N. now elim N.
  - destruct o as [n|].
    + destruct (five_nolet five (Some n) ((x :: w) ++ pad) HF) as [HC HS].
      assert (exists pv, unpack_minor (five ++ (x :: w) ++ pad) = Ok (Some (dec n), pv, Some (x :: w)) /\ pv = None) as (pv & HM' & ->).
      { unfold unpack_minor. rewrite HM. pose proof (five_pos _ _ HF) as Hpos. cbn in Hpos.
        apply (fun H => five_fiven _ _ n H eq_refl) in HF.
        destruct HF as [l d1 d2 d3 d4 u n Hu H1 H2 H3 H4 En Hnz|w1 w2 w3 w4 a b c d n Ha Hb Hc Hd En].
        - rewrite (cap5_num_c _ _ _ _ _ _ _ Hu H5). eval_grp.
          replace (decval [d1; d2; d3; d4] + 10000 * u) with n by assumption.
          rewrite (proj2 (Z.eqb_neq n 0) Hnz). cbn [rbind]. rewrite (otrue_dec n) by lia. cbn [negb andb]. eauto.
        - rewrite (cap5_tilde_c _ _ _ _ _ H5). eval_grp.
          replace (620000 + val62 a b c d) with n by assumption.
          assert (n <> 0) as Hnz by lia.
          rewrite (proj2 (Z.eqb_neq n 0) Hnz). cbn [rbind]. rewrite (otrue_dec n) by lia. cbn [negb andb]. eauto. }
      unfold unpackPackedID in HU. rewrite HM' in HU. cbn [rbind] in HU. unfold unpack_comet in HU. rewrite HC in HU. cbn [rbind] in HU.
      unfold unpack_sat in HU. rewrite HS in HU. cbn [rbind] in HU.
      pose proof (five_range _ _ HF) as R. rewrite (otrue_dec n) in HU by lia. cbn [negb andb] in HU.
      assert (t = (Some (dec n), None, Some (x :: w))) as -> by (injection HU; auto). split; [apply (some_is perm_ok), number_ok; exact R|]. split; [exact (no_none _)|].
      apply (some_is (fun s => s <> [] -> trk_ok s)). intros _. apply trk_ok_of; [|exact Hw]. rewrite app_length in Hl. cbn [length] in *. lia.
    + rewrite (five_none _ _ HF eq_refl) in *. rewrite Epad in HU, HL.
      rewrite app_length in Hl. cbn [length] in Hl.
      assert (looks_packed (x :: w) = false) as HL2.
      { destruct (looks_packed (x :: w)) eqn:Q; [|reflexivity]. exfalso.
        assert (length (x :: w) = 7%nat) as L7.
        { apply looks_cases in Q as [(? & ? & ? & ? & ? & ? & ? & ? & ? & -> & _)|(? & ? & ? & ? & ? & ? & -> & _)]; reflexivity. }
        rewrite L7 in HL. cbn [Nat.sub spaces repeat] in HL. rewrite app_nil_r in HL. congruence. }
      change [" "; " "; " "; " "; " "]%char with (spaces 5) in HU.
      rewrite c08_unpack in HU; [|assumption|cbn [length]; lia|assumption]. assert (t = (None, None, Some (x :: w))) as -> by (injection HU; auto).
      split; [exact (no_none _)|]. split; [exact (no_none _)|]. apply (some_is (fun s => s <> [] -> trk_ok s)). intros _. apply trk_ok_of; [|exact Hw]. cbn [length]. lia.
Qed.
Lemma order_index k l : pyindex order_letters k = Ok l -> 0 <= k -> order_letter l = true.
Proof.
  intros H K. assert (forallb order_letter order_letters = true) as A by (vm_compute; reflexivity). rewrite forallb_forall in A.
  apply A. unfold pyindex in H. cbv zeta in H. rewrite (proj2 (Z.ltb_ge k 0) K) in H. rewrite (proj2 (Z.ltb_ge k 0) K) in H.
  destruct (nth_error order_letters (Z.to_nat k)) as [c|] eqn:N; [|discriminate H]. injection H as <-. now apply nth_error_In in N.
Qed.
Lemma v_minor p g t : length p = 12%nat -> ~ In nl p -> re_match minorplanetPackedIDRegex p = Some g -> unpackPackedID p = Ok t -> verdict p t.
Proof.
  intros Hlen Hnl HM HU. assert (HM' := HM).
  apply minor_inv in HM' as (five & seven & tail & c5 & c7 & -> & Ht & H5 & H7 & ->).
  rewrite app_assoc in Hnl. rewrite (no_nl_tail _ _ Hnl Ht), ?app_nil_r in *.
  assert (length five = 5%nat) as L5 by (destruct H5; reflexivity).
  assert (length seven = 7%nat) as L7. { rewrite !app_length in Hlen. cbn in Hlen. lia. }
  destruct (cap5_five _ _ H5) as [[o HF]|(l & d1 & d2 & d3 & d4 & u & -> & -> & Hu & H1 & H2 & H3 & H4 & Hz)].
  2:{ exfalso. apply unpack_split in HU as (st & _ & HU & _). unfold unpack_minor in HU. rewrite HM in HU.
      destruct (cap7_no1 _ _ H7) as (G1 & G2 & G3).
      assert (gtrue (c7 ++ [(2%nat, [d1; d2; d3; d4]); (1%nat, [l])]) 1 = true /\
              grp (c7 ++ [(2%nat, [d1; d2; d3; d4]); (1%nat, [l])]) 1 = Some [l] /\
              grp (c7 ++ [(2%nat, [d1; d2; d3; d4]); (1%nat, [l])]) 2 = Some [d1; d2; d3; d4]) as (E1 & E2 & E3)
        by (destruct H7; repeat split; reflexivity).
      rewrite E1 in HU. cbn [orb] in HU.
      erewrite gint_lookup in HU; [|exact E3|now apply alldig4'|discriminate]. cbn [rbind] in HU.
      erewrite gletter_lookup in HU; [|exact E2|exact Hu]. cbn [rbind] in HU.
      rewrite (proj2 (Z.eqb_eq _ _) Hz) in HU. discriminate HU. }
  destruct (looks_packed seven) eqn:HL; [now apply (v_looks five o seven t)|].
  destruct H7 as
      [c y1 y2 h cl cn l v Hc Hy1 Hy2 Hh Hcl Hcn Ho | c y1 y2 h cl cn v Hc Hy1 Hy2 Hh Hcl Hcn
      | s1 s2 e1 e2 e3 e4 Hs H1 H2 H3 H4 | w pad Hw Hlw Hp | yl h w x y z a b c d Hyl Hh Ha Hb Hc Hd | pad Hp].
  - exfalso. cbn [looks_packed] in HL. rewrite ik_eq, Hc, Hy1, Hy2, Hh, Hcn, Ho in HL.
    rewrite <- (k_an_eq cl), (digit62_an _ _ Hcl) in HL. discriminate HL.
  - exfalso. cbn [looks_packed] in HL. rewrite ik_eq, Hc, Hy1, Hy2, Hh, Hcn in HL.
    rewrite <- (k_an_eq cl), (digit62_an _ _ Hcl) in HL. cbn in HL. rewrite orb_true_r in HL. discriminate HL.
  - exfalso. cbn [looks_packed] in HL. rewrite Hs, H1, H2, H3, H4, orb_true_r in HL. discriminate HL.
  - eapply v_trk; eassumption.
  - destruct (k_pz_dig62 _ Hyl) as [u Hu]. rewrite <- k_hm_eq in Hh.
    destruct (unpack_ext five o yl h w x y z u a b c d HF Hyl Hu Hh Ha Hb Hc Hd) as (ol & Hol & HU'). rewrite HU' in HU.
    rewrite k_hm_eq in Hh. unfold verdict. rewrite (five_accepted _ _ _ _ _ _ _ _ _ HF).
    match type of HU with Ok ?X = _ => assert (t = X) as -> by (injection HU; auto) end. clear HU HU' HM.
    split; [apply ptext_ok; exact (five_numbers _ _ HF)|]. split; [|exact (no_none _)]. apply (some_is prov_ok).
    pose proof (pz_range _ _ Hyl Hu).
    assert (0 <= val62 a b c d < 62 * 62 * 62 * 62) as R.
    { pose proof (digit62_range _ _ Ha). pose proof (digit62_range _ _ Hb). pose proof (digit62_range _ _ Hc). pose proof (digit62_range _ _ Hd). unfold val62. lia. }
    set (V := val62 a b c d) in *. clearbody V. pose proof (Z.mod_pos_bound (15500 + V) 25 ltac:(lia)) as M.
    assert (0 <= (15500 + V - (15500 + V) mod 25) / 25 < 10 ^ Z.of_nat 6) as Q.
    { change (10 ^ Z.of_nat 6) with 1000000. pose proof (Z.mod_le (15500 + V) 25 ltac:(lia) ltac:(lia)). split; [apply Z.div_pos; lia|apply Z.div_lt_upper_bound; lia]. }
    apply designation_ok; [lia|exact Hh|exact (order_index _ _ Hol ltac:(lia))|apply dec_alldig; lia|exact (dec_short _ 6 Q ltac:(lia))].
  - assert (pad = spaces 7) as -> by (rewrite <- L7; now apply blanks_eq).
    rewrite (unpack_noprov five o HF) in HU. destruct o as [n|]; [|discriminate HU].
    unfold verdict. change (spaces 7) with [" "; " "; " "; " "; " "; " "; " "]%char. rewrite (five_accepted _ _ _ _ _ _ _ _ _ HF).
    match type of HU with Ok ?X = _ => assert (t = X) as -> by (injection HU; auto) end.
    split; [apply (some_is perm_ok), number_ok; exact (five_range _ _ HF)|]. split; [exact (no_none _)|].
    apply (some_is (fun s => s <> [] -> trk_ok s)). intro N. now elim N.
Qed.
Lemma four_refused four num ty c6 c7 c8 c9 c10 c11 c12 : Four four num \/ (exists q d1 d2 d3, four = [q; d1; d2; d3] /\ incls k_pl q = true) ->
  refused_designation (four ++ ty :: [c6; c7; c8; c9; c10; c11; c12]) =
  (ceqb ty "I" || isupper ty && isdig c6 || ceqb ty "S" && ceqb c10 "0" && ceqb c11 "0").
Proof.
  intros [H|(q & d1 & d2 & d3 & -> & Hq)].
  - apply four_len in H as (a & b & c & d & -> & Ha). unfold refused_designation. cbn [app]. apply ceqb_neq in Ha. rewrite Ha. reflexivity.
  - unfold refused_designation. cbn [app]. assert (ceqb q "~" = false) as -> by (apply ceqb_neq; intros ->; discriminate Hq). reflexivity.
Qed.
Lemma v_comet p g t : length p = 12%nat -> ~ In nl p -> re_match cometPackedIDRegex p = Some g -> unpackPackedID p = Ok t -> verdict p t.
Proof.
  intros Hlen Hnl HM HU. assert (HM' := HM).
  apply comet_inv in HM' as (four & num & c4 & ty & rest & tail & -> & Htail & H4 & Hty & HC & G1 & G2).
  assert (tail = []) as ->. { destruct Htail as [->| ->]; [reflexivity|]. elim Hnl. apply in_or_app. right. right. apply in_or_app. right. now left. }
  rewrite app_nil_r in *. clear Hnl Htail.
  assert (Four four num /\ (if num then incls k_pd ty else incls k_cI ty) = true) as [HF Hty'].
  { pose proof (cap4_c _ _ _ H4) as HC4. destruct num as [n|].
    - destruct HC4 as (Hd & Hne & En). destruct (comet_num_type _ _ _ _ n _ HM HU G1 Hd Hne En G2) as [Hnz Hpd].
      destruct (cap4_four _ _ _ H4) as [E|HF]; [injection E as E; contradiction|]. auto.
    - destruct (cap4_four _ _ _ H4) as [E|HF]; [discriminate|]. auto. }
  clear HM G1 G2 H4 c4. pose proof (four_len _ _ HF) as (d1 & d2 & d3 & d4 & Ef & Hd1).
  assert (length rest = 7%nat) as L7. { rewrite app_length, Ef in Hlen. cbn in Hlen. lia. }
  assert (forall suf f, forallb isupper f = true -> (length f <= 2)%nat -> suf = match f with [] => [] | _ => $"-" ++ f end ->
    forall s, cnum num ty suf = Some s -> perm_ok s) as CN.
  { intros suf f Fu Fl E. apply (cnum_ok num ty suf f); auto. destruct num as [n|]; [|exact I]. split; [exact (proj1 (four_pack _ _ HF))|exact Hty']. }
  destruct HC as [c y1 y2 h cl cn o u v Hc Hy1 Hy2 Hh Hcl Hcn Ho _|e f _ He Hf|pad _ Hp].
  - pose proof (digit62_range _ _ Hc) as Ru. pose proof (digit62_range _ _ Hcl) as Rv.
    pose proof (dd_range _ _ Hy1 Hy2) as B. pose proof (d_range _ Hcn) as B1.
    assert (isupper ty = true) as Up by exact (cI_up _ Hty).
    unfold verdict. rewrite (four_refused _ _ _ _ _ _ _ _ _ _ (or_introl HF)), (cI_notS ty Hty), (digit62_dig _ _ Hc), Up. cbn [andb]. rewrite orb_false_r.
    assert (forallb isdig (nstr (v * 10 + decval [cn])) = true) as Nd by (apply nstr_digs; lia).
    assert (length (nstr (v * 10 + decval [cn])) <= 6)%nat as Nl by (pose proof (nstr_short (v * 10 + decval [cn]) ltac:(lia)); lia).
    set (Y := u * 100 + decval [y1; y2]) in *. set (N := nstr (v * 10 + decval [cn])) in *.
    assert (forall o f w, capital o -> capital f -> w = [h] ++ letter_of o ++ N ++ match f with Some c => $"-" ++ [c] | None => [] end ->
      forall pm, (forall s, pm = Some s -> perm_ok s) ->
      if ceqb ty "I" || (u <? 10) then prov_bad (pm, Some ([ty] ++ $"/" ++ dec Y ++ $" " ++ w), None) else parts_ok (pm, Some ([ty] ++ $"/" ++ dec Y ++ $" " ++ w), None)) as G.
    { intros o' f' w Co Cf -> pm HP. destruct (ceqb ty "I") eqn:EI.
      - apply ceqb_eq in EI. subst ty. cbn [orb]. apply interstellar_bad.
      - apply ceqb_neq in EI. cbn [orb]. destruct (Z.ltb_spec u 10).
        + apply short_year_bad; [exact Up|lia|exact (up_space _ (hm_up _ Hh))].
        + split; [exact HP|]. split; [|exact (no_none _)]. apply (some_is prov_ok). apply comet_ok; auto; [now apply cI_ct|lia]. }
    destruct Ho as [->|[Ho|Ho]].
    + rewrite (unpack_comet_0 four num ty c y1 y2 h cl cn u v) in HU; auto; [|now rewrite k_hm_eq].
      match type of HU with Ok ?X = _ => assert (t = X) as -> by (injection HU; auto) end.
      apply (G None None); [exact I|exact I|cbn [letter_of app]; now rewrite app_nil_r|]. exact (CN [] [] eq_refl ltac:(cbn; lia) eq_refl).
    + rewrite (unpack_comet_A four num ty c y1 y2 h cl cn o u v) in HU; auto; [|now rewrite k_hm_eq|now rewrite k_up_eq].
      match type of HU with Ok ?X = _ => assert (t = X) as -> by (injection HU; auto) end.
      apply (G (Some o) None); [exact Ho|exact I|cbn [letter_of app]; now rewrite app_nil_r|]. exact (CN [] [] eq_refl ltac:(cbn; lia) eq_refl).
    + destruct (lower_facts o Ho) as [Hup _]. rewrite (unpack_comet_frag four num ty c y1 y2 h cl cn o u v) in HU; auto; [|now rewrite k_hm_eq|now rewrite k_lo_eq].
      match type of HU with Ok ?X = _ => assert (t = X) as -> by (injection HU; auto) end.
      apply (G None (Some (upperc o))); [exact I|exact Hup|reflexivity|].
      exact (CN ($"-" ++ [upperc o]) [upperc o] ltac:(cbn; now rewrite Hup) ltac:(cbn; lia) eq_refl).
  - destruct num as [n|].
    2:{ exfalso. rewrite (four_none _ _ HF eq_refl) in HU.
        assert (forall k, (k = " "%char \/ islower k = true) -> unpackPackedID [" "; " "; " "; " "; ty; " "; " "; " "; " "; " "; k; f]%char = Err RuntimeError) as HE.
        { intros k [->|Hk].
          - rewrite <- k_lo_eq in Hf. unpack_eval [sp; sp; sp; sp; pc k_cI ty; sp; sp; sp; sp; sp; sp; pc k_lo f]. reflexivity.
          - rewrite <- k_lo_eq in Hf, Hk. unpack_eval [sp; sp; sp; sp; pc k_cI ty; sp; sp; sp; sp; sp; pc k_lo k; pc k_lo f]. reflexivity. }
        cbn [app] in HU. rewrite (HE e He) in HU. discriminate HU. }
    destruct (lower_facts f Hf) as [Hup _]. destruct (pd_notIAS ty Hty') as (NI & _ & NS). apply ceqb_neq in NI, NS.
    unfold verdict. rewrite (four_refused _ _ _ _ _ _ _ _ _ _ (or_introl HF)), NI, NS. change (isdig " ") with false. rewrite andb_false_r. cbn [orb andb].
    destruct (four_some _ _ _ HF eq_refl) as (f1 & f2 & f3 & f4 & Ff & K1 & K2 & K3 & K4 & En & Kz). rewrite Ff in HU. rewrite En in Kz.
    assert (1 <= n <= 9999) as Rn by exact (proj1 (four_pack _ _ HF)).
    destruct He as [->|He].
    + change ([f1; f2; f3; f4] ++ ty :: [" "; " "; " "; " "; " "; " "; f]%char) with ([f1; f2; f3; f4; ty] ++ spaces 6 ++ [f]) in HU.
      rewrite unpack_comet_numfrag1 in HU; auto; [|now rewrite k_lo_eq].
      match type of HU with Ok ?X = _ => assert (t = X) as -> by (injection HU; auto) end.
      split; [|split; exact (no_none _)]. rewrite <- En. exact (CN ($"-" ++ [upperc f]) [upperc f] ltac:(cbn; now rewrite Hup) ltac:(cbn; lia) eq_refl).
    + destruct (lower_facts e He) as [Hupe _].
      change ([f1; f2; f3; f4] ++ ty :: [" "; " "; " "; " "; " "; e; f]%char) with ([f1; f2; f3; f4; ty] ++ spaces 5 ++ [e; f]) in HU.
      rewrite unpack_comet_numfrag2 in HU; auto; try (now rewrite k_lo_eq).
      match type of HU with Ok ?X = _ => assert (t = X) as -> by (injection HU; auto) end.
      split; [|split; exact (no_none _)]. rewrite <- En. exact (CN ($"-" ++ [upperc e; upperc f]) [upperc e; upperc f] ltac:(cbn; now rewrite Hup, Hupe) ltac:(cbn; lia) eq_refl).
  - assert (pad = spaces 7) as -> by (rewrite <- L7; now apply blanks_eq).
    destruct num as [n|].
    2:{ exfalso. rewrite (four_none _ _ HF eq_refl) in HU. cbn [app] in HU. change (spaces 7) with [" "; " "; " "; " "; " "; " "; " "]%char in HU. revert HU.
        unpack_eval [sp; sp; sp; sp; pc k_cI ty; sp; sp; sp; sp; sp; sp; sp]. discriminate. }
    destruct (pd_notIAS ty Hty') as (NI & _ & NS). apply ceqb_neq in NI, NS.
    unfold verdict. change (spaces 7) with [" "; " "; " "; " "; " "; " "; " "]%char. rewrite (four_refused _ _ _ _ _ _ _ _ _ _ (or_introl HF)), NI, NS.
    change (isdig " ") with false. rewrite andb_false_r. cbn [orb andb].
    destruct (four_some _ _ _ HF eq_refl) as (f1 & f2 & f3 & f4 & Ff & K1 & K2 & K3 & K4 & En & Kz). rewrite Ff in HU. rewrite En in Kz.
    change ([f1; f2; f3; f4] ++ ty :: spaces 7) with ([f1; f2; f3; f4; ty] ++ spaces 7) in HU.
    rewrite unpack_comet_num in HU; auto. rewrite Hty' in HU.
    match type of HU with Ok ?X = _ => assert (t = X) as -> by (injection HU; auto) end.
    split; [|split; exact (no_none _)]. rewrite <- En. exact (CN [] [] eq_refl ltac:(cbn; lia) eq_refl).
Qed.
Lemma v_sat p g t : length p = 12%nat -> ~ In nl p -> re_match satellitePackedIDRegex p = Some g -> unpackPackedID p = Ok t -> verdict p t.
Proof.
  intros Hlen Hnl HM HU. assert (HM' := HM).
  apply sat_inv in HM' as (four & num & rest & tail & -> & Htail & H4 & HC & HG).
  assert (tail = []) as ->. { destruct Htail as [->| ->]; [reflexivity|]. elim Hnl. apply in_or_app. right. right. apply in_or_app. right. now left. }
  rewrite app_nil_r in *. clear Hnl Htail.
  assert (Four four None \/ (exists q d1 d2 d3, four = [q; d1; d2; d3] /\ incls k_pl q = true)) as HX.
  { destruct H4 as [|q d1 d2 d3 Hq]; [left; constructor|right; eauto 6]. }
  assert (length four = 4%nat) as L4 by (destruct H4; reflexivity).
  assert (length rest = 7%nat) as L7. { rewrite app_length in Hlen. cbn [length] in Hlen. lia. }
  assert (match num with Some (q, n) => n <> 0 | None => True end) as Hnz.
  { destruct num as [[q n]|]; [|trivial]. destruct HG as (e1 & e2 & e3 & _ & K1 & K2 & K3 & G1 & G2 & ->). intro Z.
    apply unpack_split in HU as (? & st' & _ & _ & HU). destruct st' as [[? ?] ?]. unfold unpack_sat in HU. rewrite HM in HU.
    unfold gtrue in HU at 1. rewrite G1 in HU. rewrite (gint_lookup g 2 _ G2) in HU by digs. cbn [rbind] in HU. rewrite Z in HU. discriminate HU. }
  clear HG HM.
  destruct HC as [c y1 y2 pl cl cn u v Hc Hy1 Hy2 Hpl Hcl Hcn|pad Hp].
  - pose proof (digit62_range _ _ Hc) as Ru. pose proof (digit62_range _ _ Hcl) as Rv.
    pose proof (dd_range _ _ Hy1 Hy2) as B. pose proof (d_range _ Hcn) as B1.
    unfold verdict. rewrite (four_refused _ _ _ _ _ _ _ _ _ _ HX). change (ceqb "S" "I") with false. change (ceqb "S" "S") with true. change (isupper "S") with true.
    cbn [andb orb]. rewrite (digit62_dig _ _ Hc), (zero_count _ _ _ Hcl Hcn).
    assert (exists perm, t = (perm, Some ($"S/" ++ dec (u * 100 + decval [y1; y2]) ++ $" " ++ [pl] ++ $" " ++ nstr (v * 10 + decval [cn])), None) /\
      forall s, perm = Some s -> perm_ok s) as (perm & -> & HP).
    { destruct H4 as [|q e1 e2 e3 Hq K1 K2 K3].
      - pose proof (unpack_satprov c y1 y2 pl cl cn u v Hc Hy1 Hy2 Hpl Hcn Hcl) as HU'. cbn [app] in HU, HU'.
        pose proof (eq_trans (eq_sym HU) HU') as E. injection E as E. exists None. split; [exact E|exact (no_none _)].
      - destruct (pl_planet q Hq) as (name & En & _).
        pose proof (unpack_satnumprov q e1 e2 e3 c y1 y2 pl cl cn u v name En K1 K2 K3 Hnz Hc Hy1 Hy2 Hpl Hcn Hcl) as HU'.
        cbn [app] in HU, HU'. pose proof (eq_trans (eq_sym HU) HU') as E. injection E as E.
        eexists. split; [exact E|]. apply (some_is perm_ok), (moon_ok q); [exact En|].
        pose proof (decval_bound _ (alldig3' _ _ _ K1 K2 K3)) as B3. change (10 ^ Z.of_nat (length [e1; e2; e3])) with 1000 in B3. lia. }
    destruct (Z.ltb_spec u 10); cbn [orb].
    { apply (short_year_bad "S"); [reflexivity|lia|]. clear -Hpl. revert pl Hpl. apply implf_ascii. vm_compute. reflexivity. }
    destruct (Z.eqb_spec (v * 10 + decval [cn]) 0) as [E0|E0].
    { rewrite E0. apply no_count_bad; [lia|exact Hpl]. }
    split; [exact HP|]. split; [|exact (no_none _)]. apply (some_is prov_ok), moonprov_ok; [lia|exact Hpl|lia].
  - assert (pad = spaces 7) as -> by (rewrite <- L7; now apply blanks_eq).
    destruct H4 as [|q e1 e2 e3 Hq K1 K2 K3].
    + exfalso. revert HU. vm_compute. discriminate.
    + destruct (pl_planet q Hq) as (name & En & Hq'). cbn [app] in HU.
      pose proof (unpack_satnum q e1 e2 e3 name En K1 K2 K3 Hnz) as HU'. cbn [app] in HU'.
      pose proof (eq_trans (eq_sym HU) HU') as E. injection E as E. subst t.
      unfold verdict. change (spaces 7) with [" "; " "; " "; " "; " "; " "; " "]%char. rewrite (four_refused _ _ _ _ _ _ _ _ _ _ HX).
      change (ceqb "S" "I" || isupper "S" && isdig " " || ceqb "S" "S" && ceqb " " "0" && ceqb " " "0") with false. cbn iota.
      split; [|split; exact (no_none _)]. apply (some_is perm_ok), (moon_ok q); [exact En|].
      pose proof (decval_bound _ (alldig3' _ _ _ K1 K2 K3)) as B3. change (10 ^ Z.of_nat (length [e1; e2; e3])) with 1000 in B3. lia.
Qed.
Lemma verdict_ok p t : length p = 12%nat -> ~ In nl p -> unpackPackedID p = Ok t -> verdict p t.
Proof.
  intros Hl Hn HU.
  destruct (re_match minorplanetPackedIDRegex p) as [g|] eqn:E1; [eapply v_minor; eassumption|].
  destruct (re_match cometPackedIDRegex p) as [g|] eqn:E2; [eapply v_comet; eassumption|].
  destruct (re_match satellitePackedIDRegex p) as [g|] eqn:E3; [eapply v_sat; eassumption|].
  exfalso. revert HU. unfold unpackPackedID, unpack_minor. rewrite E1. cbn [rbind]. unfold unpack_comet. rewrite E2. cbn [rbind].
  unfold unpack_sat. rewrite E3. discriminate.
Qed.
