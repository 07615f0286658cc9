(** Lemmas about PackUtil.v, part 5: comets and satellites, pack followed by unpack. *)
From Verif Require Export PackProofs4.

Ltac dside := first [assumption | apply dec_alldig; lia | apply dec_ne; lia].

Lemma four_of_num n : 1 <= n <= 9999 -> exists d1 d2 d3 d4, zpad10 n 10000 = [d1; d2; d3; d4] /\
  isdig d1 = true /\ isdig d2 = true /\ isdig d3 = true /\ isdig d4 = true /\ decval [d1; d2; d3; d4] = n.
Proof. intro H. apply zpad_4. lia. Qed.
Lemma pd_pdi t : incls k_pd t = true -> incls k_pdi t = true.
Proof. revert t. apply impl_ascii. vm_compute. reflexivity. Qed.

Lemma pack_cometnum n t : 1 <= n <= 9999 -> incls k_pdi t = true ->
  pack_perm (Some (cometnum_text n t None)) = Ok (Pk (Some (zpad10 n 10000 ++ [t])) (Some KC) None).
Proof.
  intros Hn Ht. unfold cometnum_text. rewrite app_nil_r.
  rewrite pack_perm_comet by dside. rewrite dec_val by lia.
  destruct (Z.gtb_spec n 9999); [lia|]. destruct (Z.eqb_spec n 0); [lia|]. reflexivity.
Qed.
Lemma pack_cometnumfrag n t f : 1 <= n <= 9999 -> incls k_pdi t = true ->
  forallb isupper f = true -> (length f = 1 \/ length f = 2)%nat ->
  pack_perm (Some (cometnum_text n t (Some f))) = Ok (Pk (Some (zpad10 n 10000 ++ [t])) (Some KF) (Some f)).
Proof.
  intros Hn Ht Hf Hl. unfold cometnum_text.
  rewrite pack_perm_cometfrag by dside. rewrite dec_val by lia.
  destruct (Z.gtb_spec n 9999); [lia|]. destruct (Z.eqb_spec n 0); [lia|]. reflexivity.
Qed.

(** comet number alone *)
Lemma c06_num n t trk : 1 <= n <= 9999 -> incls k_pd t = true ->
  exists p, packTupleID (Some (cometnum_text n t None), None, trk) = Ok p /\ length p = 12%nat /\
    unpackPackedID p = Ok (Some (cometnum_text n t None), None, None).
Proof.
  intros Hn Ht. pose proof (pack_cometnum n t Hn (pd_pdi _ Ht)) as Hp.
  destruct (four_of_num n Hn) as (d1 & d2 & d3 & d4 & E & H1 & H2 & H3 & H4 & Hv). rewrite E in Hp.
  exists ([d1; d2; d3; d4; t] ++ spaces 7). split; [|split; [reflexivity|]].
  - rewrite (pack_permonly _ trk _ _ _ Hp) by discriminate. reflexivity.
  - rewrite unpack_comet_num; auto; [|lia|].
    + rewrite Ht, Hv. unfold cometnum_text. now rewrite app_nil_r.
    + revert t Ht Hp. intros t Ht _. revert t Ht. apply impl_ascii. vm_compute. reflexivity.
Qed.
(** interstellar numbers: pack, never unpack *)
Lemma c06_inum n trk : 1 <= n <= 9999 ->
  exists p, packTupleID (Some (cometnum_text n "I" None), None, trk) = Ok p /\ length p = 12%nat /\
    unpackPackedID p = Err RuntimeError.
Proof.
  intros Hn. pose proof (pack_cometnum n "I" Hn eq_refl) as Hp.
  destruct (four_of_num n Hn) as (d1 & d2 & d3 & d4 & E & H1 & H2 & H3 & H4 & Hv). rewrite E in Hp.
  exists ([d1; d2; d3; d4; "I"%char] ++ spaces 7). split; [|split; [reflexivity|]].
  - rewrite (pack_permonly _ trk _ _ _ Hp) by discriminate. reflexivity.
  - rewrite unpack_comet_num; auto. lia.
Qed.
Lemma lower_lo f : isupper f = true -> incls k_lo (lowerc f) = true /\ upperc (lowerc f) = f.
Proof.
  intro H.
  assert (forall f, implb (isupper f) (incls k_lo (lowerc f) && ceqb (upperc (lowerc f)) f) = true) as S
    by (apply forall_ascii; vm_compute; reflexivity).
  specialize (S f). rewrite H in S. cbn [implb] in S. apply andb_prop in S as [S1 S2]. apply ceqb_eq in S2. auto.
Qed.
(** numbered comet with fragment *)
Lemma c06_numfrag n t f trk : 1 <= n <= 9999 -> incls k_pd t = true ->
  forallb isupper f = true -> (length f = 1 \/ length f = 2)%nat ->
  exists p, packTupleID (Some (cometnum_text n t (Some f)), None, trk) = Ok p /\ length p = 12%nat /\
    unpackPackedID p = Ok (Some (cometnum_text n t (Some f)), None, None).
Proof.
  intros Hn Ht Hf Hl. pose proof (pack_cometnumfrag n t f Hn (pd_pdi _ Ht) Hf Hl) as Hp.
  destruct (four_of_num n Hn) as (d1 & d2 & d3 & d4 & E & H1 & H2 & H3 & H4 & Hv). rewrite E in Hp.
  destruct f as [|f1 [|f2 [|]]]; cbn in Hl; try lia.
  - cbn in Hf. rewrite andb_true_r in Hf. apply lower_lo in Hf as [Hlo Hup].
    exists ([d1; d2; d3; d4; t] ++ spaces 6 ++ [lowerc f1]). split; [|split; [reflexivity|]].
    + rewrite pack_trk_ignored by (left; discriminate). unfold packTupleID. rewrite Hp. reflexivity.
    + rewrite unpack_comet_numfrag1; auto; [|lia]. rewrite Hup, Hv. reflexivity.
  - cbn in Hf. rewrite andb_true_r in Hf. apply andb_prop in Hf as [Hf1 Hf2].
    apply lower_lo in Hf1 as [Hlo Hup]. apply lower_lo in Hf2 as [Hlo2 Hup2].
    exists ([d1; d2; d3; d4; t] ++ spaces 5 ++ [lowerc f1; lowerc f2]). split; [|split; [reflexivity|]].
    + rewrite pack_trk_ignored by (left; discriminate). unfold packTupleID. rewrite Hp. reflexivity.
    + rewrite unpack_comet_numfrag2; auto; [|lia]. rewrite Hup, Hup2, Hv. reflexivity.
Qed.

(** a provisional comet designation *)
Lemma year_is4 y : 1000 <= y <= 9999 -> is4 (dec y) /\ century (dec y) = y / 100 /\
  exists c d, skipn 2 (dec y) = [c; d] /\ isdig c = true /\ isdig d = true /\ decval [c; d] = y mod 100.
Proof.
  intro H. destruct (year4 y H) as (a & b & c & d & E & Ha & Hb & Hc & Hd & Hv1 & Hv2). rewrite E.
  split; [exists a, b, c, d; auto|]. split; [exact Hv1|]. exists c, d. auto.
Qed.
Lemma digit_of d : 0 <= d < 10 -> isdig (letter d) = true /\ decval [letter d] = d.
Proof.
  intro H. assert (d=0\/d=1\/d=2\/d=3\/d=4\/d=5\/d=6\/d=7\/d=8\/d=9) as D by lia.
  repeat destruct D as [->|D]; try (split; reflexivity). subst; split; reflexivity.
Qed.
Lemma cI_of_ct t : incls k_ct t = true -> incls k_cI t = true.
Proof. revert t. apply impl_ascii. vm_compute. reflexivity. Qed.
Lemma ct_of_cf t : incls k_cf t = true -> incls k_ct t = true.
Proof. revert t. apply impl_ascii. vm_compute. reflexivity. Qed.
Lemma cf_of_pd t : incls k_pd t = true -> incls k_cf t = true.
Proof. revert t. apply impl_ascii. vm_compute. reflexivity. Qed.
Lemma cf_notA t : incls k_cf t = true -> ceqb t "A" = false.
Proof. revert t. apply implf_ascii. vm_compute. reflexivity. Qed.

Lemma isupper_an c : isupper c = true -> incls k_up c = true.
Proof. now rewrite k_up_eq. Qed.

Lemma comet_type_k num t : comet_type num t = (if num then incls k_pd t else incls k_ct t).
Proof. destruct num; revert t; apply eq_ascii; vm_compute; reflexivity. Qed.

Lemma c06_prov num t y h o n trk : cometnum num -> comet_type num t = true -> 1000 <= y <= 6199 ->
  half_month h = true -> match o with Some c => isupper c = true | None => True end -> 0 <= n <= 619 ->
  exists p, packTupleID (num_opt_text num t None, Some (comet_text t (dec y) h o n), trk) = Ok p /\ length p = 12%nat /\
    unpackPackedID p = Ok (num_opt_text num t None, Some (comet_text t (dec y) h o n), None).
Proof.
  intros Hnum Ht Hy Hh Ho Hn. rewrite comet_type_k in Ht.
  destruct (year_is4 y ltac:(lia)) as (H4 & Hcen & c & d & Hsk & Hc & Hd & Hcd).
  assert (incls k_ct t = true) as Hct by (destruct num; [now apply ct_of_cf, cf_of_pd|exact Ht]).
  assert (isupper h = true) as Hhu.
  { unfold half_month in Hh. apply andb_prop in Hh as [Hh _]. apply andb_prop in Hh as [Hh _]. exact Hh. }
  pose proof (pack_prov_comet t (dec y) h o n Hct H4 Hhu Ho ltac:(lia)) as Hp.
  rewrite Hcen, Hsk in Hp. destruct (Z.gtb_spec (n / 10) 61); [lia|]. destruct (Z.ltb_spec (y / 100) 62); [|lia].
  destruct (digit_of (n mod 10) ltac:(lia)) as [Hdn Hdv].
  rewrite <- k_hm_eq in Hh.
  pose proof (letter_digit62 (y / 100) ltac:(lia)) as Hu. pose proof (letter_digit62 (n / 10) ltac:(lia)) as Hv.
  assert (forall four, Four four num ->
    unpackPackedID (four ++ [t; letter (y / 100); c; d; h; letter (n / 10); letter (n mod 10); match o with Some x => x | None => "0"%char end])
    = Ok (num_opt_text num t None, Some (comet_text t (dec y) h o n), None)) as HU.
  { intros four HF. unfold comet_text.
    assert ((if num then incls k_pd t else incls k_cI t) = true) as Ht'
      by (destruct num; [exact Ht|now apply cI_of_ct]).
    destruct o as [x|].
    - rewrite (unpack_comet_A four num t _ c d h _ _ x (y / 100) (n / 10)); auto.
      + rewrite Hcd, Hdv, nstr_num. replace (y / 100 * 100 + y mod 100) with y by lia.
        replace (n / 10 * 10 + n mod 10) with n by lia. reflexivity.
      + now apply isupper_an.
    - rewrite (unpack_comet_0 four num t _ c d h _ _ (y / 100) (n / 10)); auto.
      rewrite Hcd, Hdv, nstr_num. replace (y / 100 * 100 + y mod 100) with y by lia.
        replace (n / 10 * 10 + n mod 10) with n by lia. reflexivity. }
  destruct num as [m|]; cbn [cometnum num_opt_text option_map] in *.
  - pose proof (pack_cometnum m t Hnum (pd_pdi _ Ht)) as Hq.
    destruct (four_of_num m Hnum) as (d1 & d2 & d3 & d4 & E & H1 & H2 & H3 & H5 & Hm). rewrite E in Hq.
    eexists. rewrite (pack_both _ _ trk _ _ _ _ _ _ Hq Hp).
    assert (ceqb t "A" = false) as -> by now apply cf_notA, cf_of_pd.
    cbn [kind_eqb negb andb from skipn app]. split; [reflexivity|]. split; [reflexivity|].
    rewrite <- Hm in HU |- *. apply (HU [d1; d2; d3; d4]). constructor; auto. lia.
  - eexists. rewrite (pack_provonly _ trk _ _ _ Hp). split; [reflexivity|]. split; [reflexivity|].
    apply (HU [" "; " "; " "; " "]%char). constructor.
Qed.

(** a numbered object with an A/ designation is written like a minor planet *)
Lemma c06_A_num m y h n trk : 1 <= m <= 15396335 -> 1800 <= y <= 2099 -> half_month h = true -> 0 <= n <= 619 ->
  exists p, packTupleID (Some (dec m), Some (comet_text "A" (dec y) h None n), trk) = Ok p /\ length p = 12%nat /\
    unpackPackedID p = Ok (Some (dec m), Some (comet_text "A" (dec y) h None n), None).
Proof.
  intros Hm Hy Hh Hn.
  destruct (year_is4 y ltac:(lia)) as (H4 & Hcen & c & d & Hsk & Hc & Hd & Hcd).
  assert (isupper h = true) as Hhu.
  { unfold half_month in Hh. apply andb_prop in Hh as [Hh _]. apply andb_prop in Hh as [Hh _]. exact Hh. }
  pose proof (pack_prov_comet "A" (dec y) h None n eq_refl H4 Hhu I ltac:(lia)) as Hp.
  rewrite Hcen, Hsk in Hp. destruct (Z.gtb_spec (n / 10) 61); [lia|]. destruct (Z.ltb_spec (y / 100) 62); [|lia].
  destruct (digit_of (n mod 10) ltac:(lia)) as [Hdn Hdv].
  rewrite <- k_hm_eq in Hh.
  destruct (five_of_num m Hm) as (five & HF & Hlen & Hq).
  specialize (Hq (dec m) (dec_alldig m ltac:(lia)) (dec_ne m ltac:(lia)) (dec_val m ltac:(lia))).
  eexists. rewrite (pack_both _ _ trk _ _ _ _ _ _ Hq Hp). change (ceqb "A" "A") with true.
  cbn [kind_eqb negb andb from skipn app]. split; [reflexivity|]. split; [rewrite app_length, Hlen; reflexivity|].
  rewrite (unpack_prov0 five (Some m) _ c d h _ _ (y / 100) (n / 10) HF); auto.
  - unfold comet_text. rewrite Hcd, Hdv, nstr_num. replace (y / 100 * 100 + y mod 100) with y by lia.
    replace (n / 10 * 10 + n mod 10) with n by lia. reflexivity.
  - apply letter_ik; lia.
  - apply letter_digit62; lia.
  - apply letter_digit62; lia.
Qed.

Lemma frag_type_k num t : frag_type num t = (if num then incls k_pd t else incls k_cf t).
Proof. destruct num; revert t; apply eq_ascii; vm_compute; reflexivity. Qed.
Lemma c06_fragprov num t y h n f trk : cometnum num -> frag_type num t = true -> 1000 <= y <= 6199 ->
  half_month h = true -> isupper f = true -> 1 <= n <= 619 ->
  exists p, packTupleID (num_opt_text num t (Some [f]), Some (cometfrag_text t (dec y) h n f), trk) = Ok p /\ length p = 12%nat /\
    unpackPackedID p = Ok (num_opt_text num t (Some [f]), Some (cometfrag_text t (dec y) h n f), None).
Proof.
  intros Hnum Ht Hy Hh Hf Hn. rewrite frag_type_k in Ht.
  destruct (year_is4 y ltac:(lia)) as (H4 & Hcen & c & d & Hsk & Hc & Hd & Hcd).
  assert (incls k_cf t = true) as Hct by (destruct num; [now apply cf_of_pd|exact Ht]).
  assert (isupper h = true) as Hhu.
  { unfold half_month in Hh. apply andb_prop in Hh as [Hh _]. apply andb_prop in Hh as [Hh _]. exact Hh. }
  pose proof (pack_prov_cometfrag t (dec y) h n f Hct H4 Hhu Hf ltac:(lia)) as Hp.
  rewrite Hcen, Hsk in Hp. destruct (Z.eqb_spec n 0); [lia|].
  destruct (Z.gtb_spec (n / 10) 61); [lia|]. destruct (Z.ltb_spec (y / 100) 62); [|lia].
  destruct (digit_of (n mod 10) ltac:(lia)) as [Hdn Hdv].
  destruct (lower_lo f Hf) as [Hlo Hup].
  rewrite <- k_hm_eq in Hh.
  pose proof (letter_digit62 (y / 100) ltac:(lia)) as Hu. pose proof (letter_digit62 (n / 10) ltac:(lia)) as Hv.
  assert (forall four, Four four num ->
    unpackPackedID (four ++ [t; letter (y / 100); c; d; h; letter (n / 10); letter (n mod 10); lowerc f])
    = Ok (num_opt_text num t (Some [f]), Some (cometfrag_text t (dec y) h n f), None)) as HU.
  { intros four HF. unfold cometfrag_text.
    assert ((if num then incls k_pd t else incls k_cI t) = true) as Ht'
      by (destruct num; [exact Ht|now apply cI_of_ct, ct_of_cf]).
    rewrite (unpack_comet_frag four num t _ c d h _ _ _ (y / 100) (n / 10)); auto.
    rewrite Hcd, Hdv, nstr_num, Hup. replace (y / 100 * 100 + y mod 100) with y by lia.
        replace (n / 10 * 10 + n mod 10) with n by lia. reflexivity. }
  destruct num as [m|]; cbn [cometnum num_opt_text option_map] in *.
  - assert (forallb isupper [f] = true) as Hff by (cbn; now rewrite Hf).
    pose proof (pack_cometnumfrag m t [f] Hnum (pd_pdi _ Ht) Hff (or_introl eq_refl)) as Hq.
    destruct (four_of_num m Hnum) as (d1 & d2 & d3 & d4 & E & H1 & H2 & H3 & H5 & Hm). rewrite E in Hq.
    eexists. rewrite (pack_both _ _ trk _ _ _ _ _ _ Hq Hp).
    cbn [kind_eqb ostr_eqb]. rewrite streqb_refl. cbn [negb andb from skipn app]. split; [reflexivity|]. split; [reflexivity|].
    rewrite <- Hm in HU |- *. apply (HU [d1; d2; d3; d4]). constructor; auto. lia.
  - eexists. rewrite (pack_provonly _ trk _ _ _ Hp). split; [reflexivity|]. split; [reflexivity|].
    apply (HU [" "; " "; " "; " "]%char). constructor.
Qed.

(** rejections *)
Lemma c06_reject_num s t prov trk : alldig s = true -> s <> [] -> ceqb t "P" || ceqb t "D" || ceqb t "I" = true ->
  ~ (1 <= decval s <= 9999) -> packTupleID (Some (s ++ [t]), prov, trk) = Err RuntimeError.
Proof.
  intros Hd Hn Ht Hr. apply pack_perm_err.
  assert (incls k_pdi t = true) as Hk.
  { rewrite <- Ht. revert t Ht. intros t _. revert t. apply eq_ascii. vm_compute. reflexivity. }
  rewrite pack_perm_comet by assumption. pose proof (decval_bound s Hd).
  destruct (Z.gtb_spec (decval s) 9999); [reflexivity|]. destruct (Z.eqb_spec (decval s) 0); [reflexivity|]. lia.
Qed.
Lemma c06_reject_prov t y h o n trk : comet_type None t = true -> 1000 <= y <= 9999 ->
  half_month h = true -> match o with Some c => isupper c = true | None => True end -> 620 <= n ->
  packTupleID (None, Some (comet_text t (dec y) h o n), trk) = Err RuntimeError.
Proof.
  intros Ht Hy Hh Ho Hn. rewrite comet_type_k in Ht. apply pack_prov_err.
  destruct (year_is4 y ltac:(lia)) as (H4 & _).
  assert (isupper h = true) as Hhu.
  { unfold half_month in Hh. apply andb_prop in Hh as [Hh _]. apply andb_prop in Hh as [Hh _]. exact Hh. }
  rewrite pack_prov_comet by (auto; lia). destruct (Z.gtb_spec (n / 10) 61); [reflexivity|lia].
Qed.
Lemma c06_reject_frag t y h n f trk : frag_type None t = true -> 1000 <= y <= 9999 ->
  half_month h = true -> isupper f = true -> 620 <= n ->
  packTupleID (None, Some (cometfrag_text t (dec y) h n f), trk) = Err RuntimeError.
Proof.
  intros Ht Hy Hh Hf Hn. rewrite frag_type_k in Ht. apply pack_prov_err.
  destruct (year_is4 y ltac:(lia)) as (H4 & _).
  assert (isupper h = true) as Hhu.
  { unfold half_month in Hh. apply andb_prop in Hh as [Hh _]. apply andb_prop in Hh as [Hh _]. exact Hh. }
  rewrite pack_prov_cometfrag by (auto; lia). destruct (Z.eqb_spec n 0); [lia|]. destruct (Z.gtb_spec (n / 10) 61); [reflexivity|lia].
Qed.

(** * C07 satellites *)
Lemma planet_k q name : planet q = Some name -> incls k_pl q = true.
Proof.
  intro Hq. assert (forall q, (match planet q with Some _ => incls k_pl q | None => true end) = true) as S
      by (apply forall_ascii; vm_compute; reflexivity). specialize (S q). now rewrite Hq in S.
Qed.
Lemma k_planet q : incls k_pl q = true -> exists name, planet q = Some name.
Proof.
  intro Hq. assert (forall q, implb (incls k_pl q) (match planet q with Some _ => true | None => false end) = true) as S
      by (apply forall_ascii; vm_compute; reflexivity). specialize (S q). rewrite Hq in S. destruct (planet q); [eauto|discriminate].
Qed.
Lemma pack_satnum q name n : planet q = Some name -> 1 <= n <= 999 ->
  pack_perm (Some (name ++ $" " ++ dec n)) = Ok (Pk (Some (q :: zpad10 n 1000 ++ ["S"%char])) (Some KS) None).
Proof.
  intros Hq Hn. rewrite (pack_perm_sat _ q name) by dside. rewrite dec_val by lia.
  destruct (Z.gtb_spec n 999); [lia|]. destruct (Z.eqb_spec n 0); [lia|]. reflexivity.
Qed.
Lemma c07_num q name n trk : planet q = Some name -> 1 <= n <= 999 ->
  exists p, packTupleID (Some (name ++ $" " ++ dec n), None, trk) = Ok p /\ length p = 12%nat /\
    unpackPackedID p = Ok (Some (name ++ $" " ++ dec n), None, None).
Proof.
  intros Hq Hn. pose proof (pack_satnum q name n Hq Hn) as Hp.
  destruct (zpad_3 n ltac:(lia)) as (a & b & c & E & Ha & Hb & Hc & Hv). rewrite E in Hp.
  exists ([q; a; b; c; "S"%char] ++ spaces 7). split; [|split; [reflexivity|]].
  - exact (pack_permonly _ trk _ _ _ Hp ltac:(discriminate)).
  - rewrite (unpack_satnum q a b c name) by (auto; lia). now rewrite Hv.
Qed.
Lemma c07_prov o y p n trk : satnum o -> planet p <> None -> 1000 <= y <= 6199 -> 1 <= n <= 619 ->
  exists r, packTupleID (satnum_text o, Some (sat_text (dec y) p n), trk) = Ok r /\ length r = 12%nat /\
    unpackPackedID r = Ok (satnum_text o, Some (sat_text (dec y) p n), None).
Proof.
  intros Ho Hpl Hy Hn. destruct (planet p) as [pn|] eqn:Epl; [|now elim Hpl].
  apply planet_k in Epl. clear Hpl.
  destruct (year_is4 y ltac:(lia)) as (H4 & Hcen & c & d & Hsk & Hc & Hd & Hcd).
  pose proof (pack_prov_sat (dec y) p n H4 Epl ltac:(lia)) as Hp.
  rewrite Hcen, Hsk in Hp. destruct (Z.gtb_spec (n / 10) 61); [lia|]. destruct (Z.eqb_spec n 0); [lia|].
  destruct (Z.ltb_spec (y / 100) 62); [|lia].
  destruct (digit_of (n mod 10) ltac:(lia)) as [Hdn Hdv].
  pose proof (letter_digit62 (y / 100) ltac:(lia)) as Hu. pose proof (letter_digit62 (n / 10) ltac:(lia)) as Hv.
  assert (nstr (n / 10 * 10 + n mod 10) = dec n) as Ens.
  { rewrite nstr_num. unfold num_text. replace (n / 10 * 10 + n mod 10) with n by lia. destruct (Z.eqb_spec n 0); [lia|reflexivity]. }
  destruct o as [[q m]|]; cbn [satnum satnum_text] in *.
  - destruct Ho as [Hq Hm]. destruct (planet q) as [name|] eqn:Eq; [|now elim Hq].
    pose proof (pack_satnum q name m Eq Hm) as Hpp.
    destruct (zpad_3 m ltac:(lia)) as (a1 & b1 & c1 & E & Ha1 & Hb1 & Hc1 & Hv1). rewrite E in Hpp.
    pose proof (pack_both _ _ trk _ _ _ _ _ _ Hpp Hp) as HB. cbn [kind_eqb negb andb from skipn app] in HB.
    eexists. split; [exact HB|]. split; [reflexivity|].
    pose proof (unpack_satnumprov q a1 b1 c1 _ c d p _ _ _ _ name Eq Ha1 Hb1 Hc1 ltac:(lia) Hu Hc Hd Epl Hdn Hv) as HU.
    cbn [app] in HU. rewrite HU. rewrite Hv1, Hcd, Hdv, Ens.
    replace (y / 100 * 100 + y mod 100) with y by lia. reflexivity.
  - eexists. rewrite (pack_provonly _ trk _ _ _ Hp). split; [reflexivity|]. split; [reflexivity|].
    pose proof (unpack_satprov _ c d p _ _ _ _ Hu Hc Hd Epl Hdn Hv) as HU. cbn [app] in HU.
    change (spaces 4) with [" "; " "; " "; " "]%char. cbn [app]. rewrite HU. rewrite Hcd, Hdv, Ens.
    replace (y / 100 * 100 + y mod 100) with y by lia. reflexivity.
Qed.
Lemma c07_reject_num s q name prov trk : alldig s = true -> s <> [] -> planet q = Some name -> ~ (1 <= decval s <= 999) ->
  packTupleID (Some (name ++ $" " ++ s), prov, trk) = Err RuntimeError.
Proof.
  intros Hd Hn Hq Hr. apply pack_perm_err. rewrite (pack_perm_sat _ q name) by assumption.
  pose proof (decval_bound s Hd).
  destruct (Z.gtb_spec (decval s) 999); [reflexivity|]. destruct (Z.eqb_spec (decval s) 0); [reflexivity|]. lia.
Qed.
Lemma c07_reject_prov y p n trk : planet p <> None -> 1000 <= y <= 9999 -> 0 <= n -> ~ (1 <= n <= 619) ->
  packTupleID (None, Some (sat_text (dec y) p n), trk) = Err RuntimeError.
Proof.
  intros Hp Hy Hn Hr. apply pack_prov_err. destruct (planet p) eqn:E; [|now elim Hp]. apply planet_k in E.
  destruct (year_is4 y ltac:(lia)) as (H4 & _).
  rewrite pack_prov_sat by (auto; lia).
  destruct (Z.gtb_spec (n / 10) 61); [reflexivity|]. destruct (Z.eqb_spec n 0); [reflexivity|]. lia.
Qed.
