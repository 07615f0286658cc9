(** Lemmas about PackUtil.v, part 9: reading followed by writing (C12). *)
From Verif Require Export PackProofs8.

Definition opt_inj {A} (a b : A) : Some a = Some b -> a = b := fun H => f_equal (fun o => match o with Some x => x | None => a end) H.
Inductive Fiven : str -> Z -> Prop :=
| fiven_num l d1 d2 d3 d4 u n : digit62 l = Some u -> isdig d1 = true -> isdig d2 = true -> isdig d3 = true ->
    isdig d4 = true -> n = decval [d1; d2; d3; d4] + 10000 * u -> n <> 0 -> Fiven [l; d1; d2; d3; d4] n
| fiven_tilde w x y z a b c d n : digit62 w = Some a -> digit62 x = Some b -> digit62 y = Some c ->
    digit62 z = Some d -> n = 620000 + val62 a b c d -> Fiven ["~"%char; w; x; y; z] n.
Lemma five_fiven s o n : Five s o -> o = Some n -> Fiven s n.
Proof.
  intros [|l d1 d2 d3 d4 u Hu H1 H2 H3 H4 Hz|w x y z a b c d Ha Hb Hc Hd] E; [discriminate| |];
  apply opt_inj in E; symmetry in E.
  - eapply fiven_num; eauto. now rewrite E.
  - eapply fiven_tilde; eauto.
Qed.
Lemma five_none s o : Five s o -> o = None -> s = [" "; " "; " "; " "; " "]%char.
Proof. intros [] E; [reflexivity|discriminate|discriminate]. Qed.
Lemma five_inj a b n : Five a (Some n) -> Five b (Some n) -> a = b.
Proof.
  intros Ha Hb. apply (fun H => five_fiven _ _ n H eq_refl) in Ha, Hb.
  destruct Ha as [l d1 d2 d3 d4 u n Hl H1 H2 H3 H4 En Hnz|w x y z a1 b1 c1 e1 n Ha1 Hb1 Hc1 Hd1 En];
  destruct Hb as [l' d1' d2' d3' d4' u' n' Hl' H1' H2' H3' H4' En' Hnz'|w' x' y' z' a1' b1' c1' e1' n' Ha1' Hb1' Hc1' Hd1' En'].
  - pose proof (decval_bound _ (alldig4' _ _ _ _ H1 H2 H3 H4)) as B. pose proof (decval_bound _ (alldig4' _ _ _ _ H1' H2' H3' H4')) as B'.
    change (10 ^ Z.of_nat (length [d1; d2; d3; d4])) with 10000 in B. change (10 ^ Z.of_nat (length [d1'; d2'; d3'; d4'])) with 10000 in B'.
    assert (u = u') as <- by lia. assert (decval [d1; d2; d3; d4] = decval [d1'; d2'; d3'; d4']) as Ev by lia.
    apply decval_inj in Ev; try (apply alldig4'; assumption); [|reflexivity].
    rewrite (digit62_letter _ _ Hl), (digit62_letter _ _ Hl'). now rewrite Ev.
  - exfalso. pose proof (decval_bound _ (alldig4' _ _ _ _ H1 H2 H3 H4)) as B. apply digit62_range in Hl, Ha1', Hb1', Hc1', Hd1'.
    change (10 ^ Z.of_nat (length [d1; d2; d3; d4])) with 10000 in B.
    pose proof (val62_nonneg a1' b1' c1' e1' Ha1' Hb1' Hc1' Hd1'). lia.
  - exfalso. pose proof (decval_bound _ (alldig4' _ _ _ _ H1' H2' H3' H4')) as B. apply digit62_range in Hl', Ha1, Hb1, Hc1, Hd1.
    change (10 ^ Z.of_nat (length [d1'; d2'; d3'; d4'])) with 10000 in B.
    pose proof (val62_nonneg a1 b1 c1 e1 Ha1 Hb1 Hc1 Hd1). lia.
  - rewrite (digit62_letter _ _ Ha1), (digit62_letter _ _ Hb1), (digit62_letter _ _ Hc1), (digit62_letter _ _ Hd1).
    rewrite (digit62_letter _ _ Ha1'), (digit62_letter _ _ Hb1'), (digit62_letter _ _ Hc1'), (digit62_letter _ _ Hd1').
    apply digit62_range in Ha1, Hb1, Hc1, Hd1, Ha1', Hb1', Hc1', Hd1'. unfold val62 in *.
    assert (a1 = a1') as -> by lia. assert (b1 = b1') as -> by lia. assert (c1 = c1') as -> by lia.
    assert (e1 = e1') as -> by lia. reflexivity.
Qed.
Lemma five_range five n : Five five (Some n) -> 1 <= n <= 15396335.
Proof.
  intro H. pose proof (five_pos _ _ H) as P. cbn in P. split; [lia|].
  apply (fun H => five_fiven _ _ n H eq_refl) in H.
  destruct H as [l d1 d2 d3 d4 u n Hl H1 H2 H3 H4 En Hnz|w x y z a1 b1 c1 e1 n Ha1 Hb1 Hc1 Hd1 En].
  - pose proof (decval_bound _ (alldig4' _ _ _ _ H1 H2 H3 H4)) as B. change (10 ^ Z.of_nat (length [d1; d2; d3; d4])) with 10000 in B.
    apply digit62_range in Hl. lia.
  - apply digit62_range in Ha1, Hb1, Hc1, Hd1. pose proof (val62_nonneg a1 b1 c1 e1 Ha1 Hb1 Hc1 Hd1) as V.
    change (62 ^ 4) with 14776336 in V. lia.
Qed.
(** writing the number of five columns gives the columns back *)
Lemma five_pack five n : Five five (Some n) -> pack_perm (Some (dec n)) = Ok (Pk (Some five) (Some KA) None) /\ length five = 5%nat.
Proof.
  intro H. pose proof (five_range _ _ H) as R. destruct (five_of_num n R) as (f & Hf & Hl & Hp).
  rewrite (five_inj _ _ _ H Hf). split; [|exact Hl].
  apply Hp; [apply dec_alldig|apply dec_ne|apply dec_val]; lia.
Qed.
(** a provisional part behind optional minor-planet columns *)
Lemma five_pair five o v trk seven : Five five o ->
  pack_prov (Some v) = Ok (Pk (Some (" "%char :: seven)) (Some KA) None) ->
  packTupleID (ptext o, Some v, trk) = Ok (five ++ seven).
Proof.
  intros HF Hv. destruct o as [n|]; cbn [ptext option_map].
  - destruct (five_pack _ _ HF) as [Hp _]. rewrite (pack_both _ _ _ _ _ _ _ _ _ Hp Hv). reflexivity.
  - rewrite (five_none _ _ HF eq_refl). rewrite (pack_provonly _ _ _ _ _ Hv). reflexivity.
Qed.
Lemma cap5_five five c5 : Cap5 five c5 -> (exists o, Five five o) \/
  (exists l d1 d2 d3 d4 u, five = [l; d1; d2; d3; d4] /\ c5 = [(2%nat, [d1; d2; d3; d4]); (1%nat, [l])] /\ digit62 l = Some u /\
     isdig d1 = true /\ isdig d2 = true /\ isdig d3 = true /\ isdig d4 = true /\ decval [d1; d2; d3; d4] + 10000 * u = 0).
Proof.
  intros [|l d1 d2 d3 d4 u Hu H1 H2 H3 H4|w x y z a b c d Ha Hb Hc Hd].
  - left. eexists. constructor.
  - destruct (Z.eq_dec (decval [d1; d2; d3; d4] + 10000 * u) 0) as [E|E].
    + right. exists l, d1, d2, d3, d4, u. repeat split; auto.
    + left. eexists. exact (five_num l d1 d2 d3 d4 u Hu H1 H2 H3 H4 E).
  - left. eexists. exact (five_tilde w x y z a b c d Ha Hb Hc Hd).
Qed.
Lemma five_blank_iff five o : Five five o -> (forallb (ceqb " ") five = true <-> o = None).
Proof.
  intro H. destruct H as [|l d1 d2 d3 d4 u Hu H1 H2 H3 H4|w x y z a b c d Ha Hb Hc Hd].
  - split; reflexivity.
  - split; [|discriminate]. cbn [forallb]. intro E. apply andb_prop in E as [E _]. apply ceqb_eq in E. subst l. discriminate.
  - split; [|discriminate]. cbn. discriminate.
Qed.
Lemma cap7_no1 seven c7 : Cap7 seven c7 -> grp c7 1 = None /\ grp c7 2 = None /\ grp c7 3 = None.
Proof. intros []; repeat split; reflexivity. Qed.

(** the last seven columns as the reader sees them, with the priority of the alternatives *)
Lemma std_year u y1 y2 : 18 <= u <= 20 -> isdig y1 = true -> isdig y2 = true ->
  1800 <= u * 100 + decval [y1; y2] <= 2099 /\ (u * 100 + decval [y1; y2]) / 100 = u /\ (u * 100 + decval [y1; y2]) mod 100 = decval [y1; y2].
Proof.
  intros Hu H1 H2. pose proof (decval_bound _ (alldig2' _ _ H1 H2)) as B. change (10 ^ Z.of_nat (length [y1; y2])) with 100 in B.
  generalize dependent (decval [y1; y2]). intros. lia.
Qed.
Lemma two_inj a b c d : isdig a = true -> isdig b = true -> isdig c = true -> isdig d = true ->
  decval [a; b] = decval [c; d] -> [a; b] = [c; d].
Proof. intros. apply decval_inj; auto; apply alldig2'; auto. Qed.
Lemma one_inj a c : isdig a = true -> isdig c = true -> decval [a] = decval [c] -> a = c.
Proof. intros. rewrite !decval1 in *. now apply digval_inj. Qed.
Lemma count_split v cn : 0 <= v < 62 -> isdig cn = true -> 0 <= v * 10 + decval [cn] <= 619 /\ (v * 10 + decval [cn]) / 10 = v /\
  (v * 10 + decval [cn]) mod 10 = decval [cn].
Proof. intros Hv Hc. rewrite decval1. pose proof (digval_range _ Hc). lia. Qed.
Lemma pack_back_std c y1 y2 h cl cn o u v : digit62 c = Some u -> 18 <= u <= 61 -> isdig y1 = true -> isdig y2 = true ->
  half_month h = true -> order_letter o = true -> digit62 cl = Some v -> isdig cn = true ->
  pack_prov (Some (prov_text (u * 100 + decval [y1; y2]) h o (v * 10 + decval [cn]))) =
    Ok (Pk (Some (" "%char :: [c; y1; y2; h; cl; cn; o])) (Some KA) None).
Proof.
  intros Hc Hu H1 H2 Hh Ho Hcl Hcn. pose proof (digit62_range _ _ Hcl) as Hv.
  pose proof (decval_bound _ (alldig2' _ _ H1 H2)) as B. change (10 ^ Z.of_nat (length [y1; y2])) with 100 in B.
  pose proof (count_split v cn Hv Hcn) as (R & Q1 & Q2).
  destruct (pack_prov_std (u * 100 + decval [y1; y2]) h o (v * 10 + decval [cn]) ltac:(lia) Hh Ho R)
    as (a & b & e & Ha & Hb & He & Hab & Hee & ->).
  replace ((u * 100 + decval [y1; y2]) / 100) with u by lia.
  replace ((u * 100 + decval [y1; y2]) mod 100) with (decval [y1; y2]) in Hab by lia.
  rewrite Q1. rewrite Q2 in Hee. apply two_inj in Hab; auto. injection Hab as -> ->. apply one_inj in Hee; auto. subst e.
  destruct (Z.ltb_spec u 18); [lia|]. destruct (Z.gtb_spec u 61); [lia|]. cbn [orb].
  rewrite <- (digit62_letter _ _ Hc), <- (digit62_letter _ _ Hcl). reflexivity.
Qed.
Lemma pack_back_comet t c y1 y2 h o cl cn u v : incls k_ct t = true -> digit62 c = Some u -> 10 <= u -> isdig y1 = true -> isdig y2 = true ->
  half_month h = true -> match o with Some x => isupper x = true | None => True end -> digit62 cl = Some v -> isdig cn = true ->
  pack_prov (Some (comet_text t (dec (u * 100 + decval [y1; y2])) h o (v * 10 + decval [cn]))) =
    Ok (Pk (Some (t :: [c; y1; y2; h; cl; cn; match o with Some x => x | None => "0"%char end])) (Some (if ceqb t "A" then KA else KC)) None).
Proof.
  intros Ht Hc Hu H1 H2 Hh Ho Hcl Hcn. pose proof (digit62_range _ _ Hcl) as Hv. pose proof (digit62_range _ _ Hc) as Hu'.
  pose proof (decval_bound _ (alldig2' _ _ H1 H2)) as B. change (10 ^ Z.of_nat (length [y1; y2])) with 100 in B.
  pose proof (count_split v cn Hv Hcn) as (R & Q1 & Q2).
  assert (isupper h = true) as Hhu.
  { unfold half_month in Hh. apply andb_prop in Hh as [Hh _]. apply andb_prop in Hh as [Hh _]. exact Hh. }
  destruct (year_is4 (u * 100 + decval [y1; y2]) ltac:(lia)) as (H4 & Hcen & a & b & Hsk & Ha & Hb & Hab).
  rewrite (pack_prov_comet t _ h o _ Ht H4 Hhu Ho) by lia. rewrite Hcen, Hsk.
  replace ((u * 100 + decval [y1; y2]) / 100) with u by lia.
  replace ((u * 100 + decval [y1; y2]) mod 100) with (decval [y1; y2]) in Hab by lia.
  apply two_inj in Hab; auto. injection Hab as -> ->. rewrite Q1, Q2.
  destruct (Z.gtb_spec v 61); [lia|]. destruct (Z.ltb_spec u 62); [|lia].
  rewrite <- (digit62_letter _ _ Hc), <- (digit62_letter _ _ Hcl). rewrite (digit_letter cn _ Hcn eq_refl). reflexivity.
Qed.
Lemma pack_back_frag t c y1 y2 h cl cn f u v : incls k_cf t = true -> digit62 c = Some u -> 10 <= u -> isdig y1 = true -> isdig y2 = true ->
  half_month h = true -> islower f = true -> digit62 cl = Some v -> isdig cn = true -> v * 10 + decval [cn] <> 0 ->
  pack_prov (Some (cometfrag_text t (dec (u * 100 + decval [y1; y2])) h (v * 10 + decval [cn]) (upperc f))) =
    Ok (Pk (Some (t :: [c; y1; y2; h; cl; cn; f])) (Some KF) (Some [upperc f])).
Proof.
  intros Ht Hc Hu H1 H2 Hh Hf Hcl Hcn Hnz. pose proof (digit62_range _ _ Hcl) as Hv. pose proof (digit62_range _ _ Hc) as Hu'.
  pose proof (decval_bound _ (alldig2' _ _ H1 H2)) as B. change (10 ^ Z.of_nat (length [y1; y2])) with 100 in B.
  pose proof (count_split v cn Hv Hcn) as (R & Q1 & Q2).
  assert (isupper h = true) as Hhu.
  { unfold half_month in Hh. apply andb_prop in Hh as [Hh _]. apply andb_prop in Hh as [Hh _]. exact Hh. }
  assert (isupper (upperc f) = true /\ lowerc (upperc f) = f) as [Hup Hlo].
  { assert (forall f, implb (islower f) (isupper (upperc f) && ceqb (lowerc (upperc f)) f) = true) as S
      by (apply forall_ascii; vm_compute; reflexivity).
    specialize (S f). rewrite Hf in S. cbn [implb] in S. apply andb_prop in S as [S1 S2]. apply ceqb_eq in S2. auto. }
  destruct (year_is4 (u * 100 + decval [y1; y2]) ltac:(lia)) as (H4 & Hcen & a & b & Hsk & Ha & Hb & Hab).
  rewrite (pack_prov_cometfrag t _ h _ _ Ht H4 Hhu Hup) by lia. rewrite Hcen, Hsk.
  replace ((u * 100 + decval [y1; y2]) / 100) with u by lia.
  replace ((u * 100 + decval [y1; y2]) mod 100) with (decval [y1; y2]) in Hab by lia.
  apply two_inj in Hab; auto. injection Hab as -> ->. rewrite Q1, Q2.
  destruct (Z.eqb_spec (v * 10 + decval [cn]) 0); [contradiction|].
  destruct (Z.gtb_spec v 61); [lia|]. destruct (Z.ltb_spec u 62); [|lia].
  rewrite <- (digit62_letter _ _ Hc), <- (digit62_letter _ _ Hcl), Hlo. rewrite (digit_letter cn _ Hcn eq_refl). reflexivity.
Qed.
Lemma pack_back_sat p c y1 y2 cl cn u v : incls k_pl p = true -> digit62 c = Some u -> 10 <= u -> isdig y1 = true -> isdig y2 = true ->
  digit62 cl = Some v -> isdig cn = true -> v * 10 + decval [cn] <> 0 ->
  pack_prov (Some (sat_text (dec (u * 100 + decval [y1; y2])) p (v * 10 + decval [cn]))) =
    Ok (Pk (Some ("S"%char :: [c; y1; y2; p; cl; cn; "0"%char])) (Some KS) None).
Proof.
  intros Hp Hc Hu H1 H2 Hcl Hcn Hnz. pose proof (digit62_range _ _ Hcl) as Hv. pose proof (digit62_range _ _ Hc) as Hu'.
  pose proof (decval_bound _ (alldig2' _ _ H1 H2)) as B. change (10 ^ Z.of_nat (length [y1; y2])) with 100 in B.
  pose proof (count_split v cn Hv Hcn) as (R & Q1 & Q2).
  destruct (year_is4 (u * 100 + decval [y1; y2]) ltac:(lia)) as (H4 & Hcen & a & b & Hsk & Ha & Hb & Hab).
  rewrite (pack_prov_sat _ p _ H4 Hp) by lia. rewrite Hcen, Hsk.
  replace ((u * 100 + decval [y1; y2]) / 100) with u by lia.
  replace ((u * 100 + decval [y1; y2]) mod 100) with (decval [y1; y2]) in Hab by lia.
  apply two_inj in Hab; auto. injection Hab as -> ->. rewrite Q1, Q2.
  destruct (Z.eqb_spec (v * 10 + decval [cn]) 0); [contradiction|].
  destruct (Z.gtb_spec v 61); [lia|]. destruct (Z.ltb_spec u 62); [|lia].
  rewrite <- (digit62_letter _ _ Hc), <- (digit62_letter _ _ Hcl). rewrite (digit_letter cn _ Hcn eq_refl). reflexivity.
Qed.
Lemma order_of_index k ol : pyindex order_letters k = Ok ol -> 0 <= k < 25 -> order_letter ol = true /\ order_rank ol = k.
Proof.
  intros H Hk.
  assert (forallb (fun n => match pyindex order_letters (Z.of_nat n) with Ok o => order_letter o && (order_rank o =? Z.of_nat n) | Err _ => false end) (seq 0 25) = true) as S
    by (vm_compute; reflexivity).
  rewrite forallb_forall in S. specialize (S (Z.to_nat k)). rewrite Z2Nat.id in S by lia.
  rewrite H in S. specialize (S ltac:(apply in_seq; lia)). apply andb_prop in S as [S1 S2]. split; [exact S1|lia].
Qed.
Lemma pack_back_ext yl h w x y z u a b c d ol : digit62 yl = Some u -> 25 <= u <= 35 -> half_month h = true ->
  digit62 w = Some a -> digit62 x = Some b -> digit62 y = Some c -> digit62 z = Some d ->
  pyindex order_letters ((15500 + val62 a b c d) mod 25) = Ok ol ->
  pack_prov (Some (dec (2000 + u) ++ $" " ++ [h; ol] ++ dec ((15500 + val62 a b c d - (15500 + val62 a b c d) mod 25) / 25))) =
    Ok (Pk (Some (" "%char :: ["_"%char; yl; h; w; x; y; z])) (Some KA) None).
Proof.
  intros Hyl Hu Hh Ha Hb Hc Hd Hol.
  pose proof (digit62_range _ _ Ha) as Ra. pose proof (digit62_range _ _ Hb) as Rb.
  pose proof (digit62_range _ _ Hc) as Rc. pose proof (digit62_range _ _ Hd) as Rd.
  pose proof (val62_nonneg a b c d Ra Rb Rc Rd) as V. change (62 ^ 4) with 14776336 in V.
  destruct (order_of_index _ _ Hol ltac:(lia)) as [Ho Hr].
  set (q := 15500 + val62 a b c d) in *. set (n := (q - q mod 25) / 25).
  assert (dec (2000 + u) ++ $" " ++ [h; ol] ++ dec n = prov_text (2000 + u) h ol n) as ->.
  { unfold prov_text, num_text. destruct (Z.eqb_spec n 0); [unfold n in *; lia|reflexivity]. }
  rewrite pack_prov_ext; [|lia|assumption|assumption|unfold n; lia].
  replace ((2000 + u) / 100) with 20 by lia. replace ((2000 + u) mod 100) with u by lia. cbn [Z.ltb Z.gtb Z.compare orb].
  change ((20 <? 18) || (20 >? 61)) with false. cbn match.
  assert (25 * n + order_rank ol = q) as Eq by (unfold n; lia).
  assert (((n >? 591673) || ((n =? 591673) && (order_rank ol >? 10))) = false) as ->.
  { destruct (Z.gtb_spec n 591673); [lia|]. destruct (Z.eqb_spec n 591673); [|reflexivity]. destruct (Z.gtb_spec (order_rank ol) 10); [lia|reflexivity]. }
  destruct (Z.ltb_spec u 62); [|lia]. rewrite Eq.
  replace (q - 15500) with (val62 a b c d) by (unfold q; lia).
  rewrite radix_val62 by assumption.
  rewrite <- (digit62_letter _ _ Hyl), <- (digit62_letter _ _ Ha), <- (digit62_letter _ _ Hb), <- (digit62_letter _ _ Hc), <- (digit62_letter _ _ Hd).
  reflexivity.
Qed.
