(** Lemmas about PackUtil.v, part 12: C12, comets and satellites; the final statement. *)
From Verif Require Export PackProofs11.

Inductive Cap4 : str -> option Z -> caps -> Prop :=
| cap4_blank : Cap4 [" "; " "; " "; " "]%char None []
| cap4_num d1 d2 d3 d4 : isdig d1 = true -> isdig d2 = true -> isdig d3 = true -> isdig d4 = true ->
    Cap4 [d1; d2; d3; d4] (Some (decval [d1; d2; d3; d4])) [(1%nat, [d1; d2; d3; d4])].
Inductive CapC : str -> caps -> Prop :=
| capc_std c y1 y2 h cl cn o u v : digit62 c = Some u -> isdig y1 = true -> isdig y2 = true -> half_month h = true ->
    digit62 cl = Some v -> isdig cn = true -> (o = "0"%char \/ isupper o = true \/ islower o = true) ->
    forall cc, CapC [c; y1; y2; h; cl; cn; o] cc
| capc_frag e f cc : (e = " "%char \/ islower e = true) -> islower f = true -> CapC [" "; " "; " "; " "; " "; e; f]%char cc
| capc_blank pad cc : blanks pad = true -> CapC pad cc.

Lemma k_up_upper c : incls (Cl false [("A", "Z")]%char) c = true -> isupper c = true.
Proof. change (Cl _ _) with k_up. now rewrite k_up_eq. Qed.
Lemma k_lo_lower c : incls (Cl false [("a", "z")]%char) c = true -> islower c = true.
Proof. change (Cl _ _) with k_lo. now rewrite k_lo_eq. Qed.
Lemma k_losp c : incls (Cl false [("a", "z"); (" ", " ")]%char) c = true -> c = " "%char \/ islower c = true.
Proof.
  intro H. assert (forall c, implb (incls (Cl false [("a", "z"); (" ", " ")]%char) c) (ceqb c " " || islower c) = true) as S
    by (apply forall_ascii; vm_compute; reflexivity).
  specialize (S c). rewrite H in S. cbn in S. apply orb_prop in S as [S|S]; [apply ceqb_eq in S; now left|now right].
Qed.
Ltac classifyC :=
  repeat match goal with
  | H : incls (Cl false [("0", "9")]%char) ?c = true |- _ => apply k_digit_dig in H
  | H : incls (Cl false [("0", "9"); ("A", "Z"); ("a", "z")]%char) ?c = true |- _ => apply k_an_dig62 in H as [? H]
  | H : incls (Cl false [("a", "z"); ("A", "Z"); ("0", "9")]%char) ?c = true |- _ => apply k_an2_dig62 in H as [? H]
  | H : incls (Cl false [("A", "H"); ("J", "Y")]%char) ?c = true |- _ => change (incls k_hm c = true) in H; rewrite k_hm_eq in H
  | H : incls (Cl false [("A", "Z")]%char) ?c = true |- _ => apply k_up_upper in H
  | H : incls (Cl false [("a", "z")]%char) ?c = true |- _ => apply k_lo_lower in H
  | H : incls (Cl false [("a", "z"); (" ", " ")]%char) ?c = true |- _ => apply k_losp in H
  end.
(** the columns of a string the comet pattern accepts *)
Lemma comet_inv s g : re_match cometPackedIDRegex s = Some g ->
  exists four num c4 t rest tail, s = four ++ t :: rest ++ tail /\ eos tail /\ Cap4 four num c4 /\ incls k_cI t = true /\ CapC rest [] /\
    grp g 1 = match num with Some _ => Some four | None => None end /\ grp g 2 = Some [t].
Proof.
  intro H. unfold cometPackedIDRegex in H. invert_match H; classifyC;
  match goal with
  | |- exists four num c4 t rest tail, " "%char :: " "%char :: " "%char :: " "%char :: ?t0 :: ?r = _ /\ _ =>
      exists [" "; " "; " "; " "]%char, None, [], t0
  | |- exists four num c4 t rest tail, ?a :: ?b :: ?c :: ?d :: ?t0 :: ?r = _ /\ _ =>
      exists [a; b; c; d], (Some (decval [a; b; c; d])), [(1%nat, [a; b; c; d])], t0
  end;
  match goal with
  | |- exists rest tail, _ :: _ :: _ :: _ :: _ :: ?a :: ?b :: ?c :: ?d :: ?e :: ?f :: ?g :: ?t = _ /\ _ => exists [a; b; c; d; e; f; g], t
  | |- exists rest tail, _ :: _ :: _ :: _ :: _ :: ?w ++ ?t = _ /\ _ => exists w, t
  end;
  (split; [reflexivity|]); (split; [assumption|]); (split; [constructor; assumption|]); (split; [assumption|]);
  (split; [first [solve [apply capc_frag; assumption] | solve [apply capc_blank, blanks_cls; assumption] | solve [eapply capc_std; try eassumption; auto]]|split; reflexivity]).
Qed.

Lemma cap4_four four num c4 : Cap4 four num c4 -> num = Some 0 \/ Four four num.
Proof.
  intros [|d1 d2 d3 d4 H1 H2 H3 H4]; [right; constructor|].
  destruct (Z.eq_dec (decval [d1; d2; d3; d4]) 0) as [E|E]; [left; now rewrite E|right; now constructor].
Qed.
Lemma cap4_c four num c4 : Cap4 four num c4 -> match num with Some n => alldig four = true /\ four <> [] /\ n = decval four | None => True end.
Proof. intros [|d1 d2 d3 d4 H1 H2 H3 H4]; [trivial|]. split; [now apply alldig4'|]. split; [discriminate|reflexivity]. Qed.
Lemma four_len four num : Four four num -> exists a b c d, four = [a; b; c; d] /\ a <> "~"%char.
Proof.
  intros [|d1 d2 d3 d4 H1 H2 H3 H4 H5].
  - do 4 eexists. split; [reflexivity|discriminate].
  - do 4 eexists. split; [reflexivity|]. intros ->. discriminate H1.
Qed.
Lemma four_none four o : Four four o -> o = None -> four = [" "; " "; " "; " "]%char.
Proof. intros [] E; [reflexivity|discriminate]. Qed.
Lemma four_some four o n : Four four o -> o = Some n -> exists d1 d2 d3 d4, four = [d1; d2; d3; d4] /\ isdig d1 = true /\ isdig d2 = true /\
  isdig d3 = true /\ isdig d4 = true /\ n = decval [d1; d2; d3; d4] /\ n <> 0.
Proof.
  intros [|d1 d2 d3 d4 H1 H2 H3 H4 Hz] E; [discriminate|]. apply opt_inj in E. subst n. exists d1, d2, d3, d4. auto 8.
Qed.
Lemma four_pack four n : Four four (Some n) -> 1 <= n <= 9999 /\ zpad10 n 10000 = four.
Proof.
  intro H. assert (forall o, Four four o -> o = Some n -> 1 <= n <= 9999 /\ zpad10 n 10000 = four) as G; [|now apply (G _ H)].
  intros o [|d1 d2 d3 d4 H1 H2 H3 H4 Hz] E; [discriminate|]. apply opt_inj in E. subst n.
  pose proof (decval_bound _ (alldig4' _ _ _ _ H1 H2 H3 H4)) as B. change (10 ^ Z.of_nat (length [d1; d2; d3; d4])) with 10000 in B.
  split; [lia|].
  destruct (zpad_4 (decval [d1; d2; d3; d4])) as (a & b & c & d & E & Ha & Hb & Hc & Hd & Hv); [lia|].
  rewrite E. apply decval_inj; auto; apply alldig4'; auto.
Qed.
(** a number is readable only with type P or D *)
Lemma comet_num_type p g t four num ty : re_match cometPackedIDRegex p = Some g -> unpackPackedID p = Ok t ->
  grp g 1 = Some four -> alldig four = true -> four <> [] -> num = decval four -> grp g 2 = Some [ty] -> num <> 0 /\ incls k_pd ty = true.
Proof.
  intros HM HU G1 Hd Hne -> G2. apply unpack_split in HU as ([[a b] c] & st' & _ & HU & _).
  unfold unpack_comet in HU. rewrite HM in HU.
  assert (gtrue g 1 = true) as T1 by (unfold gtrue; rewrite G1; destruct four; [now elim Hne|reflexivity]).
  rewrite T1 in HU. rewrite (gint_lookup g 1 four G1 Hd Hne) in HU. cbn [rbind] in HU.
  destruct (Z.eqb_spec (decval four) 0); [discriminate HU|]. split; [assumption|].
  unfold gstr in HU. rewrite G2 in HU. cbn [rbind] in HU. destruct (incls k_pd ty) eqn:E; [reflexivity|].
  rewrite (pd_bad ty E) in HU. discriminate HU.
Qed.
Lemma cI_up t : incls k_cI t = true -> isupper t = true.
Proof. revert t. apply impl_ascii. vm_compute. reflexivity. Qed.
Lemma cI_ct t : incls k_cI t = true -> t <> "I"%char -> incls k_ct t = true.
Proof.
  intros H Hn. assert (forall c, implb (incls k_cI c) (ceqb c "I" || incls k_ct c) = true) as S by (apply forall_ascii; vm_compute; reflexivity).
  specialize (S t). rewrite H in S. cbn in S. apply orb_prop in S as [S|S]; [apply ceqb_eq in S; contradiction|exact S].
Qed.
Lemma ct_cf t : incls k_ct t = true -> t <> "A"%char -> incls k_cf t = true.
Proof.
  intros H Hn. assert (forall c, implb (incls k_ct c) (ceqb c "A" || incls k_cf c) = true) as S by (apply forall_ascii; vm_compute; reflexivity).
  specialize (S t). rewrite H in S. cbn in S. apply orb_prop in S as [S|S]; [apply ceqb_eq in S; contradiction|exact S].
Qed.
Lemma pd_cI t : incls k_pd t = true -> incls k_cI t = true.
Proof. revert t. apply impl_ascii. vm_compute. reflexivity. Qed.
Lemma pd_notIAS t : incls k_pd t = true -> t <> "I"%char /\ t <> "A"%char /\ t <> "S"%char.
Proof. intro H. repeat split; intros ->; discriminate H. Qed.
Lemma cI_notS t : incls k_cI t = true -> ceqb t "S" = false.
Proof. revert t. apply implf_ascii. vm_compute. reflexivity. Qed.
Lemma digit62_dig c u : digit62 c = Some u -> isdig c = (u <? 10).
Proof.
  intro H. assert (forall c, (match digit62 c with Some d => Bool.eqb (isdig c) (d <? 10) | None => true end) = true) as S
    by (apply forall_ascii; vm_compute; reflexivity).
  specialize (S c). rewrite H in S. now apply Bool.eqb_prop.
Qed.
Lemma zero_count cl cn v : digit62 cl = Some v -> isdig cn = true -> (ceqb cl "0" && ceqb cn "0" = (v * 10 + decval [cn] =? 0)).
Proof.
  intros Hv Hc. rewrite decval1. pose proof (digval_range _ Hc) as R. pose proof (digit62_range _ _ Hv).
  assert (ceqb cl "0" = (v =? 0)) as ->.
  { assert (forall c, (match digit62 c with Some d => Bool.eqb (ceqb c "0") (d =? 0) | None => true end) = true) as S
    by (apply forall_ascii; vm_compute; reflexivity).
    specialize (S cl). rewrite Hv in S. now apply Bool.eqb_prop. }
  destruct (ceqb cn "0") eqn:E.
  - apply ceqb_eq in E. subst cn. change (digval "0") with 0. rewrite andb_true_r.
    destruct (Z.eqb_spec v 0); destruct (Z.eqb_spec (v * 10 + 0) 0); lia.
  - apply ceqb_neq in E. rewrite andb_false_r. symmetry. apply Z.eqb_neq. intro Z. assert (digval cn = 0) as Z0 by lia.
    apply (digval_zero cn Hc) in Z0. contradiction.
Qed.
Lemma lower_facts f : islower f = true -> isupper (upperc f) = true /\ lowerc (upperc f) = f.
Proof.
  intro Hf. assert (forall f, implb (islower f) (isupper (upperc f) && ceqb (lowerc (upperc f)) f) = true) as S
      by (apply forall_ascii; vm_compute; reflexivity).
  specialize (S f). rewrite Hf in S. cbn [implb] in S. apply andb_prop in S as [S1 S2]. apply ceqb_eq in S2. auto.
Qed.
Lemma none_iff (t : triple) p : (forall r, packTupleID t <> Ok r) -> (packTupleID t = Ok p <-> true = false).
Proof. intro H. split; [intro E; now elim (H p)|discriminate]. Qed.
Lemma has_mid a b : has "-" (a ++ "-"%char :: b) = true.
Proof. rewrite has_app, has_cons. change (ceqb "-" "-") with true. cbn [orb]. apply orb_true_r. Qed.

Lemma pack_permfrag s pp f : pack_perm (Some s) = Ok (Pk (Some pp) (Some KF) (Some f)) ->
  packTupleID (Some s, None, None) = Ok (firstn 10 (pp ++ spaces 7) ++ lower (if Nat.eqb (length f) 1 then $" " ++ f else f)).
Proof. intro H. unfold packTupleID. rewrite H. reflexivity. Qed.
Ltac eq_use HB := match type of HB with _ = ?r =>
  match goal with |- packTupleID ?t = _ <-> _ => replace (packTupleID t) with r by (symmetry; exact HB) end end.
Lemma c12_comet p g t : length p = 12%nat -> ~ In nl p -> re_match cometPackedIDRegex p = Some g -> unpackPackedID p = Ok t ->
  (packTupleID t = Ok p <-> lossy p = false).
Proof.
  intros Hlen Hnl HM HU. assert (HM' := HM).
  apply comet_inv in HM' as (four & num & c4 & ty & rest & tail & -> & Htail & H4 & Hty & HC & G1 & G2).
  assert (tail = []) as ->. { destruct Htail as [->| ->]; [reflexivity|]. elim Hnl. apply in_or_app. right. right. apply in_or_app. right. now left. }
  rewrite app_nil_r in *. clear Hnl Htail.
  assert (Four four num /\ (if num then incls k_pd ty else incls k_cI ty) = true) as [HF Hty'].
  { pose proof (cap4_c _ _ _ H4) as HC4. destruct num as [n|].
    - destruct HC4 as (Hd & Hne & En). destruct (comet_num_type _ _ _ _ n _ HM HU G1 Hd Hne En G2) as [Hnz Hpd].
      destruct (cap4_four _ _ _ H4) as [E|HF]; [injection E as E; contradiction|]. auto.
    - destruct (cap4_four _ _ _ H4) as [E|HF]; [discriminate|]. auto. }
  clear HM G1 G2 H4 c4. pose proof (four_len _ _ HF) as (d1 & d2 & d3 & d4 & Ef & Hd1).
  assert (length rest = 7%nat) as L7. { rewrite app_length, Ef in Hlen. cbn in Hlen. lia. }
  assert (forall c6 c7 c8 c9 c10 c11 c12, lossy (four ++ ty :: [c6; c7; c8; c9; c10; c11; c12]) =
    (ceqb ty "I" || isdig c6 || (ceqb c10 "0" && ceqb c11 "0" && islower c12) || (ceqb ty "A" && islower c12))) as EL.
  { intros. rewrite Ef. 
    pose proof (lossy_letter d1 d2 d3 d4 ty c6 c7 c8 c9 c10 c11 c12 (cI_up _ Hty) Hd1) as LL.
    rewrite (cI_notS ty Hty), orb_false_r in LL. exact LL. }
  destruct HC as [c y1 y2 h cl cn o u v Hc Hy1 Hy2 Hh Hcl Hcn Ho _|e f _ He Hf|pad _ Hp].
  - (* a provisional designation *)
    pose proof (digit62_range _ _ Hc) as Ru. pose proof (digit62_range _ _ Hcl) as Rv.
    pose proof (decval_bound _ (alldig2' _ _ Hy1 Hy2)) as B. change (10 ^ Z.of_nat (length [y1; y2])) with 100 in B.
    rewrite EL. rewrite (digit62_dig _ _ Hc), (zero_count _ _ _ Hcl Hcn).
    destruct Ho as [->|[Ho|Ho]].
    + rewrite (unpack_comet_0 four num ty c y1 y2 h cl cn u v) in HU; auto; [|now rewrite k_hm_eq]. injection HU as <-.
      change (islower "0") with false. rewrite !andb_false_r, !orb_false_r.
      destruct (ceqb ty "I") eqn:EI; [apply ceqb_eq in EI; subst ty; apply none_iff, pack_noprov; intro; apply I_prov|].
      apply ceqb_neq in EI. cbn [orb]. destruct (Z.ltb_spec u 10); [apply none_iff, pack_noprov; intro; apply short_year; lia|].
      pose proof (pack_back_comet ty c y1 y2 h None cl cn u v (cI_ct _ Hty EI) Hc ltac:(lia) Hy1 Hy2 Hh I Hcl Hcn) as HP.
      unfold comet_text in HP. rewrite <- nstr_num in HP. destruct num as [n|]; cbn [cnum option_map].
      * destruct (four_pack _ _ HF) as [Rn En]. pose proof (pack_cometnum n ty Rn (pd_pdi _ Hty')) as HQ. rewrite En in HQ.
        unfold cometnum_text in HQ. pose proof (pack_both _ _ None _ _ _ _ _ _ HQ HP) as HB; eq_use HB.
        rewrite (cf_notA ty) by now apply cf_of_pd. apply okeq. now rewrite <- app_assoc.
      * pose proof (pack_provonly _ None _ _ _ HP) as HB; eq_use HB. apply okeq. rewrite (four_none _ _ HF eq_refl). reflexivity.
    + rewrite (unpack_comet_A four num ty c y1 y2 h cl cn o u v) in HU; auto; [|now rewrite k_hm_eq|now rewrite k_up_eq]. injection HU as <-.
      assert (islower o = false) as -> by (revert o Ho EL HU || idtac; revert Ho; clear; revert o; apply implf_ascii; vm_compute; reflexivity).
      rewrite !andb_false_r, !orb_false_r.
      destruct (ceqb ty "I") eqn:EI; [apply ceqb_eq in EI; subst ty; apply none_iff, pack_noprov; intro; apply I_prov|].
      apply ceqb_neq in EI. cbn [orb]. destruct (Z.ltb_spec u 10); [apply none_iff, pack_noprov; intro; apply short_year; lia|].
      pose proof (pack_back_comet ty c y1 y2 h (Some o) cl cn u v (cI_ct _ Hty EI) Hc ltac:(lia) Hy1 Hy2 Hh Ho Hcl Hcn) as HP.
      unfold comet_text in HP. rewrite <- nstr_num in HP. destruct num as [n|]; cbn [cnum option_map].
      * destruct (four_pack _ _ HF) as [Rn En]. pose proof (pack_cometnum n ty Rn (pd_pdi _ Hty')) as HQ. rewrite En in HQ.
        unfold cometnum_text in HQ. pose proof (pack_both _ _ None _ _ _ _ _ _ HQ HP) as HB; eq_use HB.
        rewrite (cf_notA ty) by now apply cf_of_pd. apply okeq. now rewrite <- app_assoc.
      * pose proof (pack_provonly _ None _ _ _ HP) as HB; eq_use HB. apply okeq. rewrite (four_none _ _ HF eq_refl). reflexivity.
    + rewrite (unpack_comet_frag four num ty c y1 y2 h cl cn o u v) in HU; auto; [|now rewrite k_hm_eq|now rewrite k_lo_eq]. injection HU as <-.
      rewrite Ho, !andb_true_r. destruct (lower_facts o Ho) as [Hup Hlo].
      destruct (ceqb ty "I") eqn:EI; [apply ceqb_eq in EI; subst ty; apply none_iff, pack_noprov; intro; apply I_prov|].
      apply ceqb_neq in EI. cbn [orb]. destruct (Z.ltb_spec u 10); [apply none_iff, pack_noprov; intro; apply short_year; lia|].
      destruct (ceqb ty "A") eqn:EA.
      { apply ceqb_eq in EA; subst ty. rewrite orb_true_r. apply none_iff, pack_noprov. intro. apply A_frag.
        repeat (rewrite has_app || rewrite has_cons). change (ceqb "-" "-") with true. cbn [orb]. now rewrite !orb_true_r. }
      apply ceqb_neq in EA. cbn [orb]. rewrite orb_false_r.
      destruct (year_is4 (u * 100 + decval [y1; y2]) ltac:(lia)) as (HY & _).
      destruct (Z.eqb_spec (v * 10 + decval [cn]) 0) as [E0|E0].
      { apply none_iff, pack_noprov. intros st.
        assert (isupper h = true) as Hhu.
        { unfold half_month in Hh. apply andb_prop in Hh as [Hh _]. apply andb_prop in Hh as [Hh _]. exact Hh. }
        pose proof (pack_prov_cometfrag ty _ h 0 (upperc o) (ct_cf _ (cI_ct _ Hty EI) EA) HY Hhu Hup ltac:(lia)) as HP.
        unfold cometfrag_text in HP. rewrite E0, nstr_num. intro HX. pose proof (eq_trans (eq_sym HP) HX) as HZ. discriminate HZ. }
      pose proof (pack_back_frag ty c y1 y2 h cl cn o u v (ct_cf _ (cI_ct _ Hty EI) EA) Hc ltac:(lia) Hy1 Hy2 Hh Ho Hcl Hcn E0) as HP.
      unfold cometfrag_text in HP. rewrite <- nstr_num in HP. destruct num as [n|]; cbn [cnum option_map].
      * destruct (four_pack _ _ HF) as [Rn En].
        assert (forallb isupper [upperc o] = true) as Hff by (cbn; now rewrite Hup).
        pose proof (pack_cometnumfrag n ty [upperc o] Rn (pd_pdi _ Hty') Hff (or_introl eq_refl)) as HQ. rewrite En in HQ.
        unfold cometnum_text in HQ. pose proof (pack_both _ _ None _ _ _ _ _ _ HQ HP) as HB; eq_use HB.
        cbn [kind_eqb ostr_eqb]. rewrite streqb_refl. cbn [negb andb]. apply okeq. now rewrite <- app_assoc.
      * pose proof (pack_provonly _ None _ _ _ HP) as HB; eq_use HB. apply okeq. rewrite (four_none _ _ HF eq_refl). reflexivity.
  - (* fragment letters without a provisional designation *)
    destruct num as [n|].
    2:{ exfalso. rewrite (four_none _ _ HF eq_refl) in HU.
        assert (forall k, (k = " "%char \/ islower k = true) -> unpackPackedID [" "; " "; " "; " "; ty; " "; " "; " "; " "; " "; k; f]%char = Err RuntimeError) as HE.
        { intros k [->|Hk].
          - rewrite <- k_lo_eq in Hf. unpack_eval [sp; sp; sp; sp; pc k_cI ty; sp; sp; sp; sp; sp; sp; pc k_lo f]. reflexivity.
          - rewrite <- k_lo_eq in Hf, Hk. unpack_eval [sp; sp; sp; sp; pc k_cI ty; sp; sp; sp; sp; sp; pc k_lo k; pc k_lo f]. reflexivity. }
        cbn [app] in HU. rewrite (HE e He) in HU. discriminate HU. }
    destruct (four_pack _ _ HF) as [Rn En]. destruct (lower_facts f Hf) as [Hup Hlo].
    rewrite EL. destruct (pd_notIAS ty Hty') as (NI & NA & _). apply ceqb_neq in NI, NA. rewrite NI, NA.
    change (isdig " ") with false. change (ceqb " " "0") with false. cbn [orb andb].
    destruct (four_some _ _ _ HF eq_refl) as (f1 & f2 & f3 & f4 & -> & K1 & K2 & K3 & K4 & -> & Kz).
    destruct He as [->|He].
    + match goal with H : unpackPackedID ([?a; ?b; ?c; ?d] ++ _) = _ |- _ =>
        change ([a; b; c; d] ++ ty :: [" "; " "; " "; " "; " "; " "; f]%char) with ([a; b; c; d; ty] ++ spaces 6 ++ [f]) in H |- * end.
      rewrite unpack_comet_numfrag1 in HU; auto; [|now rewrite k_lo_eq]. injection HU as <-.
      assert (forallb isupper [upperc f] = true) as Hff by (cbn; now rewrite Hup).
      pose proof (pack_cometnumfrag _ ty [upperc f] Rn (pd_pdi _ Hty') Hff (or_introl eq_refl)) as HQ. rewrite En in HQ. unfold cometnum_text in HQ.
      pose proof (pack_permfrag _ _ _ HQ) as HB; eq_use HB.
      apply okeq. cbn. now rewrite Hlo.
    + destruct (lower_facts e He) as [Hupe Hloe].
      match goal with H : unpackPackedID ([?a; ?b; ?c; ?d] ++ _) = _ |- _ =>
        change ([a; b; c; d] ++ ty :: [" "; " "; " "; " "; " "; e; f]%char) with ([a; b; c; d; ty] ++ spaces 5 ++ [e; f]) in H |- * end.
      rewrite unpack_comet_numfrag2 in HU; auto; try (now rewrite k_lo_eq). injection HU as <-.
      assert (forallb isupper [upperc e; upperc f] = true) as Hff by (cbn; now rewrite Hup, Hupe).
      pose proof (pack_cometnumfrag _ ty [upperc e; upperc f] Rn (pd_pdi _ Hty') Hff (or_intror eq_refl)) as HQ. rewrite En in HQ. unfold cometnum_text in HQ.
      pose proof (pack_permfrag _ _ _ HQ) as HB; eq_use HB.
      apply okeq. cbn. now rewrite Hlo, Hloe.
  - (* number alone *)
    assert (pad = spaces 7) as -> by (rewrite <- L7; now apply blanks_eq).
    destruct num as [n|].
    2:{ exfalso. rewrite (four_none _ _ HF eq_refl) in HU. cbn [app] in HU. change (spaces 7) with [" "; " "; " "; " "; " "; " "; " "]%char in HU. revert HU.
        unpack_eval [sp; sp; sp; sp; pc k_cI ty; sp; sp; sp; sp; sp; sp; sp]. discriminate. }
    destruct (four_pack _ _ HF) as [Rn En].
    change (spaces 7) with [" "; " "; " "; " "; " "; " "; " "]%char at 2. rewrite EL.
    destruct (pd_notIAS ty Hty') as (NI & NA & _). apply ceqb_neq in NI, NA. rewrite NI, NA.
    change (isdig " ") with false. change (ceqb " " "0") with false. cbn [orb andb].
    destruct (four_some _ _ _ HF eq_refl) as (f1 & f2 & f3 & f4 & -> & K1 & K2 & K3 & K4 & -> & Kz).
    match goal with H : unpackPackedID ([?a; ?b; ?c; ?d] ++ _) = _ |- _ =>
        change ([a; b; c; d] ++ ty :: spaces 7) with ([a; b; c; d; ty] ++ spaces 7) in H |- * end.
    rewrite unpack_comet_num in HU; auto. rewrite Hty' in HU. injection HU as <-.
    pose proof (pack_cometnum _ ty Rn (pd_pdi _ Hty')) as HQ. rewrite En in HQ. unfold cometnum_text in HQ. rewrite app_nil_r in HQ.
    pose proof (pack_permonly _ None _ _ _ HQ ltac:(discriminate)) as HB; eq_use HB. apply okeq. reflexivity.
Qed.

(** satellites *)
Inductive CapS : str -> option (ascii * Z) -> Prop :=
| caps_blank : CapS [" "; " "; " "; " "]%char None
| caps_num q d1 d2 d3 : incls k_pl q = true -> isdig d1 = true -> isdig d2 = true -> isdig d3 = true ->
    CapS [q; d1; d2; d3] (Some (q, decval [d1; d2; d3])).
Inductive CapSP : str -> Prop :=
| capsp_std c y1 y2 p cl cn u v : digit62 c = Some u -> isdig y1 = true -> isdig y2 = true -> incls k_pl p = true ->
    digit62 cl = Some v -> isdig cn = true -> CapSP [c; y1; y2; p; cl; cn; "0"%char]
| capsp_blank pad : blanks pad = true -> CapSP pad.
Lemma sat_inv s g : re_match satellitePackedIDRegex s = Some g ->
  exists four num rest tail, s = four ++ "S"%char :: rest ++ tail /\ eos tail /\ CapS four num /\ CapSP rest /\
    match num with Some (q, n) => exists d1 d2 d3, four = [q; d1; d2; d3] /\ isdig d1 = true /\ isdig d2 = true /\ isdig d3 = true /\
       grp g 1 = Some [q] /\ grp g 2 = Some [d1; d2; d3] /\ n = decval [d1; d2; d3] | None => True end.
Proof.
  intro H. unfold satellitePackedIDRegex in H. invert_match H; classifyC;
  match goal with
  | |- exists four num rest tail, " "%char :: " "%char :: " "%char :: " "%char :: "S"%char :: ?r = _ /\ _ =>
      exists [" "; " "; " "; " "]%char, None
  | |- exists four num rest tail, ?a :: ?b :: ?c :: ?d :: "S"%char :: ?r = _ /\ _ =>
      exists [a; b; c; d], (Some (a, decval [b; c; d]))
  end;
  match goal with
  | |- exists rest tail, _ :: _ :: _ :: _ :: _ :: ?a :: ?b :: ?c :: ?d :: ?e :: ?f :: ?g :: ?t = _ /\ _ => exists [a; b; c; d; e; f; g], t
  | |- exists rest tail, _ :: _ :: _ :: _ :: _ :: ?w ++ ?t = _ /\ _ => exists w, t
  end;
  (split; [reflexivity|]); (split; [assumption|]); (split; [constructor; assumption|]);
  (split; [first [solve [apply capsp_blank, blanks_cls; assumption] | solve [eapply capsp_std; try eassumption; auto]]|]);
  first [exact I | do 3 eexists; split; [reflexivity|]; repeat split; assumption].
Qed.
Lemma pl_planet q : incls k_pl q = true -> exists name, planet q = Some name /\ q <> "~"%char.
Proof.
  intro H. destruct (k_planet q H) as [name E]. exists name. split; [exact E|]. intros ->. discriminate H.
Qed.
Lemma c12_sat p g t : length p = 12%nat -> ~ In nl p -> re_match satellitePackedIDRegex p = Some g -> unpackPackedID p = Ok t ->
  (packTupleID t = Ok p <-> lossy p = false).
Proof.
  intros Hlen Hnl HM HU. assert (HM' := HM).
  apply sat_inv in HM' as (four & num & rest & tail & -> & Htail & H4 & HC & HG).
  assert (tail = []) as ->. { destruct Htail as [->| ->]; [reflexivity|]. elim Hnl. apply in_or_app. right. right. apply in_or_app. right. now left. }
  rewrite app_nil_r in *. clear Hnl Htail.
  assert (exists d1 d2 d3 d4, four = [d1; d2; d3; d4] /\ d1 <> "~"%char) as (d1 & d2 & d3 & d4 & Ef & Hd1).
  { destruct H4 as [|q d1 d2 d3 Hq].
    - do 4 eexists. split; [reflexivity|discriminate].
    - do 4 eexists. split; [reflexivity|]. intros ->. discriminate Hq. }
  assert (length rest = 7%nat) as L7. { rewrite app_length, Ef in Hlen. cbn in Hlen. lia. }
  assert (forall c6 c7 c8 c9 c10 c11, lossy (four ++ "S"%char :: [c6; c7; c8; c9; c10; c11; "0"%char]) =
    (isdig c6 || (ceqb c10 "0" && ceqb c11 "0"))) as EL.
  { intros. rewrite Ef.
    pose proof (lossy_letter d1 d2 d3 d4 "S" c6 c7 c8 c9 c10 c11 "0" eq_refl Hd1) as LL.
    change (ceqb "S" "I") with false in LL. change (ceqb "S" "A") with false in LL. change (ceqb "S" "S") with true in LL.
    cbn [orb andb] in LL. rewrite orb_true_r, andb_true_r, orb_false_r in LL. exact LL. }
  assert (match num with Some (q, n) => n <> 0 | None => True end) as Hnz.
  { destruct num as [[q n]|]; [|trivial]. destruct HG as (e1 & e2 & e3 & _ & K1 & K2 & K3 & G1 & G2 & ->). intro Z.
    apply unpack_split in HU as (? & st' & _ & _ & HU). destruct st' as [[? ?] ?]. unfold unpack_sat in HU. rewrite HM in HU.
    unfold gtrue in HU at 1. rewrite G1 in HU. rewrite (gint_lookup g 2 _ G2) in HU by digs. cbn [rbind] in HU. rewrite Z in HU. discriminate HU. }
  clear HG HM.
  destruct HC as [c y1 y2 pl cl cn u v Hc Hy1 Hy2 Hpl Hcl Hcn|pad Hp].
  - pose proof (digit62_range _ _ Hc) as Ru. pose proof (digit62_range _ _ Hcl) as Rv.
    pose proof (decval_bound _ (alldig2' _ _ Hy1 Hy2)) as B. change (10 ^ Z.of_nat (length [y1; y2])) with 100 in B.
    rewrite EL. rewrite (digit62_dig _ _ Hc), (zero_count _ _ _ Hcl Hcn).
    assert (exists perm, t = (perm, Some ($"S/" ++ dec (u * 100 + decval [y1; y2]) ++ $" " ++ [pl] ++ $" " ++ nstr (v * 10 + decval [cn])), None) /\
      match num with Some (q, n) => exists name, planet q = Some name /\ perm = Some (name ++ $" " ++ dec n) | None => perm = None end) as (perm & -> & HP).
    { destruct H4 as [|q e1 e2 e3 Hq K1 K2 K3].
      - pose proof (unpack_satprov c y1 y2 pl cl cn u v Hc Hy1 Hy2 Hpl Hcn Hcl) as HU'. cbn [app] in HU, HU'.
        pose proof (eq_trans (eq_sym HU) HU') as E. injection E as E. exists None. split; [exact E|reflexivity].
      - destruct (pl_planet q Hq) as (name & En & _).
        pose proof (unpack_satnumprov q e1 e2 e3 c y1 y2 pl cl cn u v name En K1 K2 K3 Hnz Hc Hy1 Hy2 Hpl Hcn Hcl) as HU'.
        cbn [app] in HU, HU'. pose proof (eq_trans (eq_sym HU) HU') as E. injection E as E.
        eexists. split; [exact E|]. eauto. }
    destruct (Z.ltb_spec u 10); cbn [orb].
    { apply none_iff, pack_noprov. intro. apply short_year. lia. }
    destruct (Z.eqb_spec (v * 10 + decval [cn]) 0) as [E0|E0].
    { rewrite E0. apply none_iff, pack_noprov. intro. apply sat_nonum. }
    pose proof (pack_back_sat pl c y1 y2 cl cn u v Hpl Hc ltac:(lia) Hy1 Hy2 Hcl Hcn E0) as HQ. unfold sat_text in HQ.
    assert (dec (v * 10 + decval [cn]) = nstr (v * 10 + decval [cn])) as ED.
    { unfold nstr. destruct (Z.eqb_spec (v * 10 + decval [cn]) 0); [contradiction|reflexivity]. }
    rewrite ED in HQ. destruct H4 as [|q e1 e2 e3 Hq K1 K2 K3].
    + subst perm. pose proof (pack_provonly _ None _ _ _ HQ) as HB. eq_use HB. apply okeq. reflexivity.
    + destruct HP as (name & En & ->). 
      pose proof (decval_bound _ (alldig3' _ _ _ K1 K2 K3)) as B3. change (10 ^ Z.of_nat (length [e1; e2; e3])) with 1000 in B3.
      pose proof (pack_satnum q name (decval [e1; e2; e3]) En ltac:(lia)) as HS.
      assert (zpad10 (decval [e1; e2; e3]) 1000 = [e1; e2; e3]) as Ez.
      { destruct (zpad_3 (decval [e1; e2; e3]) ltac:(lia)) as (x1 & x2 & x3 & E & X1 & X2 & X3 & Xv). rewrite E.
        apply decval_inj; auto; apply alldig3'; auto. }
      rewrite Ez in HS. pose proof (pack_both _ _ None _ _ _ _ _ _ HS HQ) as HB. eq_use HB. apply okeq. reflexivity.
  - assert (pad = spaces 7) as -> by (rewrite <- L7; now apply blanks_eq).
    destruct H4 as [|q e1 e2 e3 Hq K1 K2 K3].
    + exfalso. revert HU. vm_compute. discriminate.
    + destruct (pl_planet q Hq) as (name & En & Hq'). cbn [app] in HU.
      pose proof (unpack_satnum q e1 e2 e3 name En K1 K2 K3 Hnz) as HU'. cbn [app] in HU'.
      pose proof (eq_trans (eq_sym HU) HU') as E. injection E as ->.
      pose proof (decval_bound _ (alldig3' _ _ _ K1 K2 K3)) as B3. change (10 ^ Z.of_nat (length [e1; e2; e3])) with 1000 in B3.
      pose proof (pack_satnum q name (decval [e1; e2; e3]) En ltac:(lia)) as HS.
      assert (zpad10 (decval [e1; e2; e3]) 1000 = [e1; e2; e3]) as Ez.
      { destruct (zpad_3 (decval [e1; e2; e3]) ltac:(lia)) as (x1 & x2 & x3 & E & X1 & X2 & X3 & Xv). rewrite E.
        apply decval_inj; auto; apply alldig3'; auto. }
      rewrite Ez in HS. pose proof (pack_permonly _ None _ _ _ HS ltac:(discriminate)) as HB. eq_use HB.
      pose proof (lossy_letter q e1 e2 e3 "S" " " " " " " " " " " " " " " eq_refl Hq') as LL. cbn [app] in LL.
      change ([q; e1; e2; e3] ++ "S"%char :: spaces 7) with [q; e1; e2; e3; "S"; " "; " "; " "; " "; " "; " "; " "]%char at 2.
      rewrite LL. apply okeq. reflexivity.
Qed.

Lemma c12 p t : length p = 12%nat -> ~ In nl p -> unpackPackedID p = Ok t -> (packTupleID t = Ok p <-> lossy p = false).
Proof.
  intros Hl Hn HU.
  destruct (re_match minorplanetPackedIDRegex p) as [g|] eqn:E1; [eapply c12_minor; eassumption|].
  destruct (re_match cometPackedIDRegex p) as [g|] eqn:E2; [eapply c12_comet; eassumption|].
  destruct (re_match satellitePackedIDRegex p) as [g|] eqn:E3; [eapply c12_sat; eassumption|].
  exfalso. revert HU. unfold unpackPackedID, unpack_minor. rewrite E1. cbn [rbind]. unfold unpack_comet. rewrite E2. cbn [rbind].
  unfold unpack_sat. rewrite E3. discriminate.
Qed.
