(** Lemmas about PackUtil.v, part 4: pack followed by unpack. *)
From Verif Require Export PackProofs3.

(** the tracklet argument is not consulted when another identification is present *)
Lemma pack_trk_ignored permID provID trk : (permID <> None \/ provID <> None) ->
  packTupleID (permID, provID, trk) = packTupleID (permID, provID, None).
Proof.
  intro H. unfold packTupleID.
  destruct (pack_perm permID) as [pm|e] eqn:Ep; [|reflexivity].
  destruct (pack_prov provID) as [pv|e] eqn:Ev; [|reflexivity]. cbn [rbind].
  assert (pk_s pm = None -> otrue (pk_s pv) = true) as K.
  { intro N. destruct provID as [v|].
    - revert Ev. unfold pack_prov.
      destruct (prov_minor v pk0) as [a|]; [|discriminate]; cbn [rbind].
      destruct (prov_survey v a) as [a1|]; [|discriminate]; cbn [rbind].
      destruct (prov_comet v a1) as [a2|]; [|discriminate]; cbn [rbind].
      destruct (prov_cometfrag v a2) as [a3|]; [|discriminate]; cbn [rbind].
      destruct (prov_sat v a3) as [a4|]; [|discriminate]; cbn [rbind].
      destruct (otrue (pk_s a4)) eqn:E; [|discriminate]. now intros [= <-].
    - destruct permID as [p|]; [|destruct H as [H|H]; now elim H].
      exfalso. revert Ep. unfold pack_perm.
      destruct (perm_minor p pk0) as [a|]; [|discriminate]; cbn [rbind].
      destruct (perm_comet p a) as [a1|]; [|discriminate]; cbn [rbind].
      destruct (perm_cometfrag p a1) as [a2|]; [|discriminate]; cbn [rbind].
      destruct (perm_sat p a2) as [a3|]; [|discriminate]; cbn [rbind].
      destruct (perm_astsat p a3) as [a4|]; [|discriminate]; cbn [rbind].
      destruct (otrue (pk_s a4)) eqn:E; [|discriminate]. intros [= <-]. now rewrite N in E. }
  unfold pack_trk. destruct trk as [t|]; [|destruct (pk_s pm); reflexivity].
  destruct (pk_s pm) as [s|] eqn:Es; [reflexivity|]. specialize (K eq_refl). rewrite K.
  set (x := match re_match trksubRegex t with None => None | Some _ => _ end).
  assert (pack_join pm pv x = pack_join pm pv None) as Q.
  { unfold pack_join. rewrite Es. destruct (pk_s pv); [reflexivity|discriminate]. }
  destruct (otrue x); exact Q.
Qed.

Lemma pack_both s v trk pp kp fp pv kv fv :
  pack_perm (Some s) = Ok (Pk (Some pp) (Some kp) fp) -> pack_prov (Some v) = Ok (Pk (Some pv) (Some kv) fv) ->
  packTupleID (Some s, Some v, trk) =
    if negb (kind_eqb kp kv) then Err RuntimeError
    else if kind_eqb kp KF && negb (ostr_eqb fp fv) then Err RuntimeError
    else Ok (pp ++ from 1 pv).
Proof.
  intros Hp Hv. rewrite pack_trk_ignored by (left; discriminate).
  unfold packTupleID. rewrite Hp, Hv. cbn [rbind pack_trk pk_s pk_t pk_f pack_join okind_eqb]. reflexivity.
Qed.
Lemma pack_permonly s trk pp kp fp : pack_perm (Some s) = Ok (Pk (Some pp) (Some kp) fp) -> kp <> KF ->
  packTupleID (Some s, None, trk) = Ok (pp ++ spaces 7).
Proof.
  intros Hp Hk. rewrite pack_trk_ignored by (left; discriminate).
  unfold packTupleID. rewrite Hp. cbn [rbind pack_prov pack_trk pk_s pk_t pk_f pack_join okind_eqb otrue pk0].
  destruct kp; try reflexivity. now elim Hk.
Qed.
Lemma pack_provonly v trk pv kv fv : pack_prov (Some v) = Ok (Pk (Some pv) (Some kv) fv) ->
  packTupleID (None, Some v, trk) = Ok (spaces 4 ++ pv).
Proof.
  intros Hv. rewrite pack_trk_ignored by (right; discriminate).
  unfold packTupleID. rewrite Hv. reflexivity.
Qed.
Lemma pack_perm_err s v trk e : pack_perm (Some s) = Err e -> packTupleID (Some s, v, trk) = Err e.
Proof. intro H. unfold packTupleID. now rewrite H. Qed.
Lemma pack_prov_err v trk e : pack_prov (Some v) = Err e -> packTupleID (None, Some v, trk) = Err e.
Proof. intro H. unfold packTupleID. cbn [pack_perm rbind]. now rewrite H. Qed.


(** a minor-planet provisional designation packed as " " ++ seven columns,
    with or without a number in front *)
Lemma pack_minor_pair o v trk seven : mpnum o ->
  pack_prov (Some v) = Ok (Pk (Some (" "%char :: seven)) (Some KA) None) ->
  exists five, Five five o /\ length five = 5%nat /\ packTupleID (ptext o, Some v, trk) = Ok (five ++ seven).
Proof.
  intros Ho Hv. destruct o as [n|]; cbn [mpnum ptext option_map] in *.
  - destruct (five_of_num n Ho) as (five & HF & Hl & Hp). exists five. split; [exact HF|]. split; [exact Hl|].
    specialize (Hp (dec n) (dec_alldig n ltac:(lia)) (dec_ne n ltac:(lia)) (dec_val n ltac:(lia))).
    rewrite (pack_both _ _ _ _ _ _ _ _ _ Hp Hv). reflexivity.
  - exists [" "; " "; " "; " "; " "]%char. split; [constructor|]. split; [reflexivity|].
    rewrite (pack_provonly _ _ _ _ _ Hv). reflexivity.
Qed.

(** C02 *)
Lemma c02_rt n trk : 1 <= n <= 15396335 ->
  exists p, packTupleID (Some (dec n), None, trk) = Ok p /\ length p = 12%nat /\
            unpackPackedID p = Ok (Some (dec n), None, Some []).
Proof.
  intro Hn. destruct (five_of_num n Hn) as (five & HF & Hl & Hp).
  exists (five ++ spaces 7). split.
  - apply (pack_permonly _ _ _ KA None); [|discriminate].
    apply Hp; [apply dec_alldig|apply dec_ne|apply dec_val]; lia.
  - split; [rewrite app_length, Hl; reflexivity|]. exact (unpack_noprov five (Some n) HF).
Qed.
Lemma c02_numeral s trk : alldig s = true -> s <> [] -> 1 <= decval s <= 15396335 ->
  packTupleID (Some s, None, trk) = packTupleID (Some (dec (decval s)), None, trk).
Proof.
  intros Hd Hn Hr. destruct (five_of_num _ Hr) as (five & HF & Hl & Hp).
  rewrite !(pack_permonly _ _ five KA None); try discriminate; try reflexivity.
  - apply Hp; [apply dec_alldig|apply dec_ne|apply dec_val]; lia.
  - now apply Hp.
Qed.
Lemma c02_reject s prov trk : alldig s = true -> s <> [] -> ~ (1 <= decval s <= 15396335) ->
  packTupleID (Some s, prov, trk) = Err RuntimeError.
Proof.
  intros Hd Hn Hr. apply pack_perm_err. rewrite pack_perm_num by assumption.
  destruct (Z.gtb_spec (decval s) 0); [|reflexivity]. destruct (Z.ltb_spec (decval s) 15396336); [lia|reflexivity].
Qed.
Lemma c02_inj m n : 1 <= m <= 15396335 -> 1 <= n <= 15396335 ->
  packTupleID (Some (dec m), None, None) = packTupleID (Some (dec n), None, None) -> m = n.
Proof.
  intros Hm Hn E. destruct (c02_rt m None Hm) as (p & Ep & _ & Up). destruct (c02_rt n None Hn) as (q & Eq & _ & Uq).
  rewrite E, Eq in Ep. injection Ep as ->. rewrite Up in Uq. injection Uq as E'. apply dec_inj in E'; lia.
Qed.

(** C03 *)
Lemma nstr_num n : nstr n = num_text n. Proof. reflexivity. Qed.
Lemma letter_ik u : 18 <= u <= 20 -> incls k_ik (letter u) = true.
Proof. intro H. assert (u = 18 \/ u = 19 \/ u = 20) as [->|[->| ->]] by lia; reflexivity. Qed.
Lemma c03_rt o y h l n trk : mpnum o -> 1800 <= y <= 2099 -> half_month h = true -> order_letter l = true -> 0 <= n <= 619 ->
  exists five a b c,
     packTupleID (ptext o, Some (prov_text y h l n), trk) = Ok (five ++ [letter (y / 100); a; b; h; letter (n / 10); c; l])
     /\ length five = 5%nat /\ isdig a = true /\ isdig b = true /\ isdig c = true
     /\ decval [a; b] = y mod 100 /\ decval [c] = n mod 10 /\ Five five o /\
     unpackPackedID (five ++ [letter (y / 100); a; b; h; letter (n / 10); c; l]) = Ok (ptext o, Some (prov_text y h l n), None).
Proof.
  intros Ho Hy Hh Hl Hn.
  destruct (pack_prov_std y h l n ltac:(lia) Hh Hl Hn) as (a & b & c & Ha & Hb & Hc & Hv & Hv' & Hp).
  destruct (Z.ltb_spec (y / 100) 18); [lia|]. destruct (Z.gtb_spec (y / 100) 61); [lia|]. cbn [orb] in Hp.
  destruct (pack_minor_pair o _ trk _ Ho Hp) as (five & HF & Hlen & HP).
  exists five, a, b, c. repeat (split; [assumption|]).
  rewrite <- k_hm_eq in Hh. rewrite <- k_or_eq in Hl.
  rewrite (unpack_prov five o (letter (y / 100)) a b h (letter (n / 10)) c l (y / 100) (n / 10) HF); auto.
  - rewrite Hv, Hv', nstr_num. unfold prov_text.
    replace (y / 100 * 100 + y mod 100) with y by lia. replace (n / 10 * 10 + n mod 10) with n by lia. reflexivity.
  - apply letter_ik; lia.
  - apply letter_digit62; lia.
  - apply letter_digit62; lia.
Qed.
Lemma c03_reject y h l n trk : 1000 <= y <= 9999 -> half_month h = true -> order_letter l = true -> 0 <= n ->
  (y < 1800 \/ 6200 <= y) -> packTupleID (None, Some (prov_text y h l n), trk) = Err RuntimeError.
Proof.
  intros Hy Hh Hl Hn Hr. apply pack_prov_err.
  assert (((y / 100 <? 18) || (y / 100 >? 61)) = true) as E.
  { destruct (Z.ltb_spec (y / 100) 18); [reflexivity|]. destruct (Z.gtb_spec (y / 100) 61); [reflexivity|]. lia. }
  destruct (Z.leb_spec n 619).
  - destruct (pack_prov_std y h l n Hy Hh Hl ltac:(lia)) as (a & b & c & _ & _ & _ & _ & _ & ->). now rewrite E.
  - rewrite pack_prov_ext by (auto; lia). now rewrite E.
Qed.

(** C04 *)
Lemma letter_pz u : 25 <= u <= 35 -> incls k_pz (letter u) = true.
Proof.
  intro H. assert (u=25\/u=26\/u=27\/u=28\/u=29\/u=30\/u=31\/u=32\/u=33\/u=34\/u=35) as D by lia.
  repeat destruct D as [->|D]; try reflexivity. now subst.
Qed.
Lemma order_index o : order_letter o = true -> pyindex order_letters (order_rank o) = Ok o.
Proof.
  intro H.
  assert (forall o, implb (order_letter o) (match pyindex order_letters (order_rank o) with Ok x => ceqb x o | Err _ => false end) = true) as S
    by (apply forall_ascii; vm_compute; reflexivity).
  specialize (S o). rewrite H in S. cbn [implb] in S. destruct (pyindex order_letters (order_rank o)); [|discriminate].
  apply ceqb_eq in S. now subst.
Qed.
Lemma c04_rt o y h l n trk : mpnum o -> 2025 <= y <= 2035 -> half_month h = true -> order_letter l = true ->
  620 <= n -> ext_limit l n ->
  exists five a b c d,
     packTupleID (ptext o, Some (prov_text y h l n), trk) =
        Ok (five ++ ["_"%char; letter (y mod 100); h; letter a; letter b; letter c; letter d])
     /\ length five = 5%nat /\ 0 <= a < 62 /\ 0 <= b < 62 /\ 0 <= c < 62 /\ 0 <= d < 62
     /\ val62 a b c d = 25 * (n - 620) + order_rank l /\
     unpackPackedID (five ++ ["_"%char; letter (y mod 100); h; letter a; letter b; letter c; letter d])
        = Ok (ptext o, Some (prov_text y h l n), None).
Proof.
  intros Ho Hy Hh Hl Hn Hlim. pose proof (order_find l Hl) as [_ Hr].
  pose proof (pack_prov_ext y h l n ltac:(lia) Hh Hl Hn) as Hp.
  destruct (Z.ltb_spec (y / 100) 18); [lia|]. destruct (Z.gtb_spec (y / 100) 61); [lia|]. cbn [orb] in Hp.
  assert (((n >? 591673) || ((n =? 591673) && (order_rank l >? 10))) = false) as E.
  { unfold ext_limit in Hlim. destruct (Z.gtb_spec n 591673); [lia|]. destruct (Z.eqb_spec n 591673); [|reflexivity].
    destruct (Z.gtb_spec (order_rank l) 10); [lia|reflexivity]. }
  rewrite E in Hp. destruct (Z.ltb_spec (y mod 100) 62); [|lia].
  set (r := 25 * n + order_rank l - 15500) in *.
  rewrite radix62_4_eq in Hp. cbn [from skipn app] in Hp.
  destruct (pack_minor_pair o _ trk _ Ho Hp) as (five & HF & Hlen & HP).
  exists five, (r / 62 / 62 / 62 mod 62), (r / 62 / 62 mod 62), (r / 62 mod 62), (r mod 62).
  split; [exact HP|]. split; [exact Hlen|]. repeat (split; [apply mod62|]).
  assert (val62 (r / 62 / 62 / 62 mod 62) (r / 62 / 62 mod 62) (r / 62 mod 62) (r mod 62) = r) as Hval.
  { rewrite val62_digits. change (62 ^ 4) with 14776336. apply Z.mod_small. unfold ext_limit in Hlim. lia. }
  split; [rewrite Hval; lia|].
  rewrite <- k_hm_eq in Hh.
  destruct (unpack_ext five o (letter (y mod 100)) h _ _ _ _ (y mod 100) _ _ _ _ HF (letter_pz (y mod 100) ltac:(lia))
     (letter_digit62 (y mod 100) ltac:(lia)) Hh (letter_digit62 _ (mod62 (r / 62 / 62 / 62))) (letter_digit62 _ (mod62 (r / 62 / 62)))
     (letter_digit62 _ (mod62 (r / 62))) (letter_digit62 _ (mod62 r))) as (ol & Hol & HU).
  rewrite Hval in *.
  replace ((15500 + r) mod 25) with (order_rank l) in * by lia.
  rewrite order_index in Hol by assumption. injection Hol as <-.
  rewrite HU. unfold prov_text, num_text. destruct (Z.eqb_spec n 0); [lia|].
  replace (2000 + y mod 100) with y by lia.
  replace ((15500 + r - order_rank l) / 25) with n by lia. reflexivity.
Qed.
Lemma c04_reject y h l n trk : 1000 <= y <= 9999 -> half_month h = true -> order_letter l = true -> 620 <= n ->
  ~ ext_limit l n -> packTupleID (None, Some (prov_text y h l n), trk) = Err RuntimeError.
Proof.
  intros Hy Hh Hl Hn Hlim. apply pack_prov_err. rewrite pack_prov_ext by assumption.
  destruct ((y / 100 <? 18) || (y / 100 >? 61)); [reflexivity|].
  assert (((n >? 591673) || ((n =? 591673) && (order_rank l >? 10))) = true) as ->; [|reflexivity].
  unfold ext_limit in Hlim. destruct (Z.gtb_spec n 591673); [reflexivity|]. destruct (Z.eqb_spec n 591673); [|lia].
  destruct (Z.gtb_spec (order_rank l) 10); [reflexivity|lia].
Qed.

(** C05 *)
Lemma c05_rt o d1 d2 d3 d4 s1 s2 trk : mpnum o -> isdig d1 = true -> isdig d2 = true -> isdig d3 = true -> isdig d4 = true ->
  is_survey s1 s2 = true ->
  exists five, packTupleID (ptext o, Some (survey_text d1 d2 d3 d4 s1 s2), trk) = Ok (five ++ [s1; s2; "S"%char; d1; d2; d3; d4])
    /\ length five = 5%nat
    /\ unpackPackedID (five ++ [s1; s2; "S"%char; d1; d2; d3; d4]) = Ok (ptext o, Some (survey_text d1 d2 d3 d4 s1 s2), None).
Proof.
  intros Ho H1 H2 H3 H4 Hs.
  destruct (pack_minor_pair o _ trk _ Ho (pack_prov_survey d1 d2 d3 d4 s1 s2 H1 H2 H3 H4 Hs)) as (five & HF & Hlen & HP).
  exists five. split; [exact HP|]. split; [exact Hlen|]. now apply unpack_survey.
Qed.
