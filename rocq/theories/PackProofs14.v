(** Column layouts and failures of the identifier packer. *)
From Verif Require Import PackProofs12 PackProofs13.
From Verif Require Export PackProofs9.

Lemma c02_layout n trk : 1 <= n <= 15396335 ->
  exists five, packTupleID (Some (dec n), None, trk) = Ok (five ++ spaces 7) /\ Five five (Some n) /\
     unpackPackedID (five ++ spaces 7) = Ok (Some (dec n), None, Some []).
Proof.
  intro Hn. destruct (five_of_num n Hn) as (five & HF & Hl & Hp).
  exists five. split; [|split; [exact HF|exact (unpack_noprov five (Some n) HF)]].
  apply (pack_permonly _ _ _ KA None); [|discriminate].
  apply Hp; [apply dec_alldig|apply dec_ne|apply dec_val]; lia.
Qed.
Lemma c03_columns u c y1 y2 h cl cn o v trk : digit62 c = Some u -> 18 <= u <= 61 -> isdig y1 = true -> isdig y2 = true ->
  half_month h = true -> order_letter o = true -> digit62 cl = Some v -> isdig cn = true ->
  packTupleID (None, Some (prov_text (u * 100 + decval [y1; y2]) h o (v * 10 + decval [cn])), trk) = Ok (spaces 5 ++ [c; y1; y2; h; cl; cn; o]).
Proof.
  intros. pose proof (pack_back_std c y1 y2 h cl cn o u v) as P. specialize (P ltac:(assumption) ltac:(lia)).
  rewrite (pack_provonly _ trk _ _ _ (P ltac:(assumption) ltac:(assumption) ltac:(assumption) ltac:(assumption) ltac:(assumption) ltac:(assumption))). reflexivity.
Qed.
Lemma far_letter u c : digit62 c = Some u -> 21 <= u -> isalnum c = true /\ ceqb c "I" = false /\ ceqb c "J" = false /\ ceqb c "K" = false.
Proof.
  intros H U. assert (forall c, match digit62 c with Some u => implb (21 <=? u) (isalnum c && negb (ceqb c "I") && negb (ceqb c "J") && negb (ceqb c "K")) | None => true end = true) as S
    by (apply forall_ascii; vm_compute; reflexivity).
  specialize (S c). rewrite H in S. destruct (Z.leb_spec 21 u); [|lia]. cbn [implb] in S. rewrite !andb_true_iff, !negb_true_iff in S. tauto.
Qed.
Lemma dig_alnum c : isdig c = true -> trk_char c = true /\ ceqb c "S" = false.
Proof.
  intro H. split.
  - revert c H. apply (impl_ascii isdig trk_char). vm_compute. reflexivity.
  - revert c H. apply (implf_ascii isdig (fun c => ceqb c "S")). vm_compute. reflexivity.
Qed.
Lemma hm_trk c : half_month c = true -> trk_char c = true.
Proof. revert c. apply (impl_ascii half_month trk_char). vm_compute. reflexivity. Qed.
Lemma ol_trk c : order_letter c = true -> trk_char c = true.
Proof. revert c. apply (impl_ascii order_letter trk_char). vm_compute. reflexivity. Qed.
Lemma d62_trk c u : digit62 c = Some u -> trk_char c = true.
Proof.
  intro H. assert (forall c, match digit62 c with Some _ => trk_char c | None => true end = true) as S by (apply forall_ascii; vm_compute; reflexivity).
  specialize (S c). rewrite H in S. exact S.
Qed.
(** centuries 21..61: written, but the reader takes the columns for a tracklet *)
Lemma c03_far u c y1 y2 h cl cn o v : digit62 c = Some u -> 21 <= u <= 61 -> isdig y1 = true -> isdig y2 = true ->
  half_month h = true -> order_letter o = true -> digit62 cl = Some v -> isdig cn = true ->
  unpackPackedID (spaces 5 ++ [c; y1; y2; h; cl; cn; o]) = Ok (None, None, Some [c; y1; y2; h; cl; cn; o]).
Proof.
  intros Hc Hu Y1 Y2 Hh Ho Hl Hn. destruct (far_letter u c Hc ltac:(lia)) as (_ & I1 & I2 & I3).
  pose proof (c08_unpack [c; y1; y2; h; cl; cn; o]) as U. cbn [length] in U. change (spaces (7 - 7)) with (@nil ascii) in U. rewrite app_nil_r in U.
  apply U.
  - cbn [forallb]. rewrite (d62_trk _ _ Hc), (proj1 (dig_alnum _ Y1)), (proj1 (dig_alnum _ Y2)), (hm_trk _ Hh), (d62_trk _ _ Hl), (proj1 (dig_alnum _ Hn)), (ol_trk _ Ho). reflexivity.
  - lia.
  - unfold looks_packed. rewrite I1, I2, I3, (proj2 (dig_alnum _ Y2)). cbn [orb andb]. rewrite andb_false_r. reflexivity.
Qed.

Lemma c06_columns t c y1 y2 h o cl cn u v trk : comet_type None t = true -> digit62 c = Some u -> 10 <= u -> isdig y1 = true -> isdig y2 = true ->
  half_month h = true -> match o with Some x => isupper x = true | None => True end -> digit62 cl = Some v -> isdig cn = true ->
  packTupleID (None, Some (comet_text t (dec (u * 100 + decval [y1; y2])) h o (v * 10 + decval [cn])), trk) =
    Ok (spaces 4 ++ [t; c; y1; y2; h; cl; cn; match o with Some x => x | None => "0"%char end]).
Proof.
  intros Ht. intros. rewrite comet_type_k in Ht.
  pose proof (pack_back_comet t c y1 y2 h o cl cn u v Ht) as P.
  rewrite (pack_provonly _ trk _ _ _ (P ltac:(assumption) ltac:(assumption) ltac:(assumption) ltac:(assumption) ltac:(assumption) ltac:(assumption) ltac:(assumption) ltac:(assumption))). reflexivity.
Qed.
Lemma c06_frag_columns t c y1 y2 h cl cn f u v trk : frag_type None t = true -> digit62 c = Some u -> 10 <= u -> isdig y1 = true -> isdig y2 = true ->
  half_month h = true -> islower f = true -> digit62 cl = Some v -> isdig cn = true -> v * 10 + decval [cn] <> 0 ->
  packTupleID (None, Some (cometfrag_text t (dec (u * 100 + decval [y1; y2])) h (v * 10 + decval [cn]) (upperc f)), trk) =
    Ok (spaces 4 ++ [t; c; y1; y2; h; cl; cn; f]).
Proof.
  intros Ht. intros. rewrite frag_type_k in Ht.
  pose proof (pack_back_frag t c y1 y2 h cl cn f u v Ht) as P.
  rewrite (pack_provonly _ trk _ _ _ (P ltac:(assumption) ltac:(assumption) ltac:(assumption) ltac:(assumption) ltac:(assumption) ltac:(assumption) ltac:(assumption) ltac:(assumption) ltac:(assumption))). reflexivity.
Qed.
Lemma c07_columns p c y1 y2 cl cn u v trk : planet p <> None -> digit62 c = Some u -> 10 <= u -> isdig y1 = true -> isdig y2 = true ->
  digit62 cl = Some v -> isdig cn = true -> v * 10 + decval [cn] <> 0 ->
  packTupleID (None, Some (sat_text (dec (u * 100 + decval [y1; y2])) p (v * 10 + decval [cn])), trk) =
    Ok (spaces 4 ++ ["S"%char; c; y1; y2; p; cl; cn; "0"%char]).
Proof.
  intros Hp. intros. destruct (planet p) as [nm|] eqn:E; [|congruence]. apply planet_k in E.
  pose proof (pack_back_sat p c y1 y2 cl cn u v E) as P.
  rewrite (pack_provonly _ trk _ _ _ (P ltac:(assumption) ltac:(assumption) ltac:(assumption) ltac:(assumption) ltac:(assumption) ltac:(assumption) ltac:(assumption))). reflexivity.
Qed.
Lemma c06_num_columns n t trk : 1 <= n <= 9999 -> ceqb t "P" || ceqb t "D" || ceqb t "I" = true ->
  exists four, packTupleID (Some (cometnum_text n t None), None, trk) = Ok (four ++ [t] ++ spaces 7) /\ Four four (Some n).
Proof.
  intros Hn Ht. assert (incls k_pdi t = true) as Hk.
  { revert t Ht. apply (impl_ascii (fun t => ceqb t "P" || ceqb t "D" || ceqb t "I") (incls k_pdi)). vm_compute. reflexivity. }
  destruct (four_of_num n Hn) as (d1 & d2 & d3 & d4 & E & D1 & D2 & D3 & D4 & V).
  exists [d1; d2; d3; d4]. split.
  - pose proof (pack_cometnum n t Hn Hk) as P. rewrite E in P. rewrite (pack_permonly _ _ _ KC None P) by discriminate. reflexivity.
  - rewrite <- V. constructor; auto. lia.
Qed.
Lemma c07_num_columns q name n trk : planet q = Some name -> 1 <= n <= 999 ->
  exists a b c, packTupleID (Some (name ++ $" " ++ dec n), None, trk) = Ok ([q; a; b; c] ++ $"S" ++ spaces 7) /\
    isdig a = true /\ isdig b = true /\ isdig c = true /\ decval [a; b; c] = n.
Proof.
  intros Hq Hn. pose proof (pack_satnum q name n Hq Hn) as P. destruct (zpad_3 n ltac:(lia)) as (a & b & c & E & A & B & C & V).
  exists a, b, c. split; [|auto]. rewrite E in P. rewrite (pack_permonly _ _ _ KS None P) by discriminate. reflexivity.
Qed.
