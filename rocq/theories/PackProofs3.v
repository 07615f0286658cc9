(** Lemmas about PackUtil.v, part 3: packTupleID on every readable form. *)
From Verif Require Export PackProofs2.

Ltac perm_eval ps :=
  let H1 := fresh "Hr1" in let H2 := fresh "Hr2" in let H3 := fresh "Hr3" in let H4 := fresh "Hr4" in let H5 := fresh "Hr5" in
  sym_any H1 minorplanetPermIDRegex ps; sym_any H2 cometPermIDRegex ps; sym_any H3 cometfragmentPermIDRegex ps;
  sym_any H4 satellitePermIDRegex ps; sym_any H5 asteroidsatellitePermIDRegex ps;
  cbn [app lit list_ascii_of_string] in *;
  unfold pack_perm, perm_minor, perm_comet, perm_cometfrag, perm_sat, perm_astsat;
  rewrite ?H1, ?H2, ?H3, ?H4, ?H5; cbn [lit list_ascii_of_string app]; eval_grp; cbn [lit list_ascii_of_string app].

Ltac prov_eval ps :=
  let H1 := fresh "Hr1" in let H2 := fresh "Hr2" in let H3 := fresh "Hr3" in let H4 := fresh "Hr4" in let H5 := fresh "Hr5" in
  sym_any H1 minorplanetProvIDRegex ps; sym_any H2 minorplanetSurveyProvIDRegex ps; sym_any H3 cometProvIDRegex ps;
  sym_any H4 cometfragmentProvIDRegex ps; sym_any H5 satelliteProvIDRegex ps;
  cbn [app lit list_ascii_of_string] in *;
  unfold pack_prov, prov_minor, prov_survey, prov_comet, prov_cometfrag, prov_sat;
  rewrite ?H1, ?H2, ?H3, ?H4, ?H5; cbn [lit list_ascii_of_string app]; eval_grp; cbn [lit list_ascii_of_string app].

(** * minor-planet numbers *)
Lemma pack_perm_num s : alldig s = true -> s <> [] ->
  pack_perm (Some s) =
    if (decval s >? 0) && (decval s <? 15396336) then
      if decval s <? 620000 then
        Ok (Pk (Some (letter (decval s / 10000) :: zpad10 (decval s - decval s / 10000 * 10000) 10000)) (Some KA) None)
      else Ok (Pk (Some (radix62_4 (decval s - 620000))) (Some KA) None)
    else Err RuntimeError.
Proof.
  intros Hd Hn. perm_eval [dgs s].
  destruct ((decval s >? 0) && (decval s <? 15396336)) eqn:E; [|reflexivity].
  destruct (Z.ltb_spec (decval s) 620000) as [L|L]; eval_grp.
  - rewrite index_letter by lia. eval_grp. reflexivity.
  - reflexivity.
Qed.

Lemma five_of_num n : 1 <= n <= 15396335 ->
  exists five, Five five (Some n) /\ length five = 5%nat /\
    forall s, alldig s = true -> s <> [] -> decval s = n -> pack_perm (Some s) = Ok (Pk (Some five) (Some KA) None).
Proof.
  intro Hn. destruct (Z.ltb_spec n 620000) as [L|L].
  - destruct (zpad_4 (n - n / 10000 * 10000)) as (a & b & c & d & E & Ha & Hb & Hc & Hd & Hv); [lia|].
    exists (letter (n / 10000) :: [a; b; c; d]). split; [|split; [reflexivity|]].
    + replace n with (decval [a; b; c; d] + 10000 * (n / 10000)) at 2 by lia.
      constructor; auto; [apply letter_digit62; lia|]. lia.
    + intros s Hs Hne Hsv. rewrite pack_perm_num by assumption. rewrite Hsv.
      destruct (Z.gtb_spec n 0); [|lia]. destruct (Z.ltb_spec n 15396336); [|lia]. cbn [andb].
      destruct (Z.ltb_spec n 620000); [|lia]. rewrite E. reflexivity.
  - exists (radix62_4 (n - 620000)). rewrite radix62_4_eq. split; [|split; [reflexivity|]].
    + replace n with (620000 + val62 ((n - 620000) / 62 / 62 / 62 mod 62) ((n - 620000) / 62 / 62 mod 62)
             ((n - 620000) / 62 mod 62) ((n - 620000) mod 62)) at 5.
      * constructor; apply letter_digit62, mod62.
      * rewrite val62_digits. change (62 ^ 4) with 14776336. rewrite Z.mod_small by lia. lia.
    + intros s Hs Hne Hsv. rewrite pack_perm_num by assumption. rewrite Hsv.
      destruct (Z.gtb_spec n 0); [|lia]. destruct (Z.ltb_spec n 15396336); [|lia]. cbn [andb].
      destruct (Z.ltb_spec n 620000); [lia|]. now rewrite radix62_4_eq.
Qed.

(** * provisional designations *)
Lemma pack_prov_std y h o n : 1000 <= y <= 9999 -> half_month h = true -> order_letter o = true -> 0 <= n <= 619 ->
  exists c d e, isdig c = true /\ isdig d = true /\ isdig e = true /\ decval [c; d] = y mod 100 /\
    decval [e] = n mod 10 /\
  pack_prov (Some (prov_text y h o n)) =
    if (y / 100 <? 18) || (y / 100 >? 61) then Err RuntimeError
    else Ok (Pk (Some [" "%char; letter (y / 100); c; d; h; letter (n / 10); e; o]) (Some KA) None).
Proof.
  intros Hy Hh Ho Hn. rewrite <- k_hm_eq in Hh. rewrite <- k_or_eq in Ho.
  destruct (year4 y Hy) as (a & b & c & d & Ey & Ha & Hb & Hc & Hd & Hv1 & Hv2).
  destruct (zpad_1 (n - 10 * (n / 10))) as (e & Ee & He & Hev); [lia|].
  exists c, d, e. repeat split; auto. { lia. }
  unfold prov_text, num_text. rewrite Ey. destruct (Z.eqb_spec n 0) as [E0|E0].
  - cbn [app]. prov_eval [dg a; dg b; dg c; dg d; sp; pc k_hm h; pc k_or o].
    rewrite Hv1. destruct ((y / 100 <? 18) || (y / 100 >? 61)) eqn:E; [reflexivity|].
    eval_grp. subst n. cbn [Z.leb Z.compare]. rewrite index_letter by (cbn; lia). eval_grp.
    rewrite index_letter by lia. eval_grp.
    change (0 / 10) with 0 in *. rewrite Ee. reflexivity.
  - pose proof (dec_alldig n ltac:(lia)) as Hd'. pose proof (dec_ne n ltac:(lia)) as Hn'. pose proof (dec_val n ltac:(lia)) as Hvn.
    destruct (dec_nonempty n) as (c0 & s0 & Es); [lia|].
    set (s := dec n) in *. clearbody s.
    cbn [app]. prov_eval [dg a; dg b; dg c; dg d; sp; pc k_hm h; pc k_or o; dgs s].
    rewrite Hv1. destruct ((y / 100 <? 18) || (y / 100 >? 61)) eqn:E; [reflexivity|].
    eval_grp. rewrite Es. eval_grp. rewrite <- Es. rewrite Hvn.
    destruct (Z.leb_spec n 619); [|lia]. rewrite index_letter by lia. eval_grp.
    rewrite index_letter by lia. eval_grp. rewrite Ee. reflexivity.
Qed.

(** * extended provisional designations *)
Lemma order_find o : order_letter o = true ->
  match cfind o order_letters with Some k => Z.of_nat k | None => -1 end = order_rank o /\ 0 <= order_rank o < 25.
Proof.
  intro H.
  assert (forall o, implb (order_letter o) ((match cfind o order_letters with Some k => Z.of_nat k | None => -1 end =? order_rank o)
     && (0 <=? order_rank o) && (order_rank o <? 25)) = true) as S by (apply forall_ascii; vm_compute; reflexivity).
  specialize (S o). rewrite H in S. cbn [implb] in S. apply andb_prop in S as [S S3]. apply andb_prop in S as [S1 S2]. apply Z.eqb_eq in S1. rewrite S1. lia.
Qed.
Lemma index_big d : 62 <= d -> pyindex packLetters d = Err IndexError.
Proof.
  intro H. unfold pyindex. destruct (Z.ltb_spec d 0); [lia|]. destruct (Z.ltb_spec d 0); [lia|].
  destruct (nth_error packLetters (Z.to_nat d)) eqn:E; [|reflexivity].
  assert (nth_error packLetters (Z.to_nat d) <> None) as N by congruence.
  apply nth_error_Some in N. change (length packLetters) with 62%nat in N. lia.
Qed.
Lemma pack_prov_ext y h o n : 1000 <= y <= 9999 -> half_month h = true -> order_letter o = true -> 620 <= n ->
  pack_prov (Some (prov_text y h o n)) =
    if (y / 100 <? 18) || (y / 100 >? 61) then Err RuntimeError
    else if (n >? 591673) || ((n =? 591673) && (order_rank o >? 10)) then Err RuntimeError
    else if y mod 100 <? 62 then
      Ok (Pk (Some ([" "; "_"]%char ++ [letter (y mod 100); h] ++ from 1 (radix62_4 (25 * n + order_rank o - 15500)))) (Some KA) None)
    else Err IndexError.
Proof.
  intros Hy Hh Ho Hn. pose proof (order_find o Ho) as [Hof _]. rewrite <- k_hm_eq in Hh. rewrite <- k_or_eq in Ho.
  destruct (year4 y Hy) as (a & b & c & d & Ey & Ha & Hb & Hc & Hd & Hv1 & Hv2).
  unfold prov_text, num_text. rewrite Ey. destruct (Z.eqb_spec n 0) as [E0|E0]; [lia|].
  pose proof (dec_alldig n ltac:(lia)) as Hd'. pose proof (dec_ne n ltac:(lia)) as Hn'. pose proof (dec_val n ltac:(lia)) as Hvn.
  destruct (dec_nonempty n) as (c0 & s0 & Es); [lia|].
  set (s := dec n) in *. clearbody s.
  cbn [app]. prov_eval [dg a; dg b; dg c; dg d; sp; pc k_hm h; pc k_or o; dgs s].
  rewrite Hv1. destruct ((y / 100 <? 18) || (y / 100 >? 61)) eqn:E; [reflexivity|].
  eval_grp. rewrite Es. eval_grp. rewrite <- Es. rewrite Hvn.
  destruct (Z.leb_spec n 619); [lia|]. eval_grp. rewrite Hof.
  destruct ((n >? 591673) || ((n =? 591673) && (order_rank o >? 10))); [reflexivity|].
  rewrite ?Hvn, Hv2. 
  destruct (Z.ltb_spec (y mod 100) 62).
  - rewrite index_letter by lia. eval_grp. reflexivity.
  - rewrite index_big by lia. reflexivity.
Qed.

(** * survey designations *)
Lemma pack_prov_survey d1 d2 d3 d4 s1 s2 : isdig d1 = true -> isdig d2 = true -> isdig d3 = true -> isdig d4 = true ->
  is_survey s1 s2 = true ->
  pack_prov (Some (survey_text d1 d2 d3 d4 s1 s2)) =
    Ok (Pk (Some [" "%char; s1; s2; "S"%char; d1; d2; d3; d4]) (Some KA) None).
Proof.
  intros H1 H2 H3 H4 Hs.
  assert ((s1 = "P" /\ s2 = "L" \/ s1 = "T" /\ (s2 = "1" \/ s2 = "2" \/ s2 = "3"))%char) as D.
  { unfold is_survey in Hs. apply orb_prop in Hs as [Hs|Hs]; apply andb_prop in Hs as [H5 H6].
    - apply ceqb_eq in H5, H6. auto.
    - apply ceqb_eq in H5. rewrite !orb_true_iff, !ceqb_eq in H6. tauto. }
  assert (zpad10 (decval [d1; d2; d3; d4]) 10000 = [d1; d2; d3; d4]) as Ez.
  { pose proof (decval_bound _ (alldig4' _ _ _ _ H1 H2 H3 H4)) as B. cbn in B.
    destruct (zpad_4 (decval [d1; d2; d3; d4])) as (a & b & c & d & E & Ha & Hb & Hc & Hd & Hv); [lia|].
    rewrite E. apply decval_inj; auto; apply alldig4'; auto. }
  unfold survey_text. cbn [app].
  destruct D as [[-> ->]|[-> [->|[->| ->]]]].
  - prov_eval [dg d1; dg d2; dg d3; dg d4; sp; ch "P"; ch "-"; ch "L"].
    rewrite Ez. reflexivity.
  - prov_eval [dg d1; dg d2; dg d3; dg d4; sp; ch "T"; ch "-"; ch "1"].
    rewrite Ez. reflexivity.
  - prov_eval [dg d1; dg d2; dg d3; dg d4; sp; ch "T"; ch "-"; ch "2"].
    rewrite Ez. reflexivity.
  - prov_eval [dg d1; dg d2; dg d3; dg d4; sp; ch "T"; ch "-"; ch "3"].
    rewrite Ez. reflexivity.
Qed.

(** * comets *)
(** int('0' + digits) *)
Lemma py_int_0num n : 0 <= n -> py_int ("0"%char :: num_text n) = Ok n.
Proof.
  intro H. unfold num_text. destruct (Z.eqb_spec n 0) as [->|E]; [reflexivity|].
  rewrite py_int_digits; [|apply alldig_cons; split; [reflexivity|now apply dec_alldig]|discriminate].
  rewrite decval_cons, dec_val by lia. change (digval "0") with 0. f_equal; lia.
Qed.
(** pieces of an optional number *)
Ltac num_cases n :=
  unfold num_text; destruct (Z.eqb_spec n 0) as [?E0|?E0].

Definition is4 (yr : str) : Prop := exists a b c d, yr = [a; b; c; d] /\ isdig a = true /\ isdig b = true /\ isdig c = true /\ isdig d = true.

Lemma digit_letter e n : isdig e = true -> decval [e] = n -> letter n = e.
Proof.
  intros H Hv. rewrite decval1 in Hv. subst n.
  assert (forall e, implb (isdig e) (ceqb (letter (digval e)) e) = true) as S by (apply forall_ascii; vm_compute; reflexivity).
  specialize (S e). rewrite H in S. now apply ceqb_eq.
Qed.

Definition century (yr : str) : Z := decval (firstn 2 yr).
Definition okletter (d : Z) : res ascii := if d <? 62 then Ok (letter d) else Err IndexError.
Lemma index_letter' d : 0 <= d -> pyindex packLetters d = okletter d.
Proof.
  intro H. unfold okletter. destruct (Z.ltb_spec d 62); [apply index_letter; lia|now apply index_big].
Qed.

Lemma pack_prov_comet t yr h o n : incls k_ct t = true -> is4 yr -> isupper h = true ->
  match o with Some c => isupper c = true | None => True end -> 0 <= n ->
  pack_prov (Some (comet_text t yr h o n)) =
    if n / 10 >? 61 then Err RuntimeError
    else if century yr <? 62 then
      Ok (Pk (Some ([t; letter (century yr)] ++ skipn 2 yr ++ [h; letter (n / 10); letter (n mod 10);
                    match o with Some c => c | None => "0"%char end]))
             (Some (if ceqb t "A" then KA else KC)) None)
    else Err IndexError.
Proof.
  intros Ht (a & b & c & d & -> & Ha & Hb & Hc & Hd) Hh Ho Hn. rewrite <- k_up_eq in Hh.
  unfold century, comet_text. cbn [firstn skipn].
  pose proof (decval_bound [a; b] (alldig2' _ _ Ha Hb)) as B.
  assert (py_int [a; b] = Ok (decval [a; b])) as Eab by (apply py_int_digits; [now apply alldig2'|discriminate]).
  assert (streqb [t] ["A"%char] = ceqb t "A") as Et. { cbn. now rewrite andb_true_r. }
  pose proof (py_int_0num n Hn) as E0n. unfold num_text in E0n.
  Ltac ctail Eab Et n a b := 
    destruct (n / 10 >? 61) eqn:?; [reflexivity|]; cbn [rbind];
    change (slice 0 2 [a; b; _; _]) with [a; b]; rewrite Eab; cbn [rbind];
    rewrite index_letter' by lia; unfold okletter; destruct (Z.ltb_spec (decval [a; b]) 62); [|reflexivity];
    cbn [rbind]; rewrite index_letter by lia; cbn [rbind]; rewrite index_letter by lia; cbn [rbind];
    rewrite Et; replace (n - n / 10 * 10) with (n mod 10) by lia; reflexivity.
  destruct o as [o|].
  - rewrite <- k_up_eq in Ho. num_cases n; rewrite ?app_nil_r.
    + destruct (Z.eqb_spec n 0); [|contradiction].
      prov_eval [pc k_ct t; ch "/"; dg a; dg b; dg c; dg d; sp; pc k_up h; pc k_up o].
      rewrite E0n. cbn [rbind]. ctail Eab Et n a b.
    + destruct (Z.eqb_spec n 0); [contradiction|].
      pose proof (dec_alldig n ltac:(lia)) as Hd'. pose proof (dec_ne n ltac:(lia)) as Hn'.
      set (s := dec n) in *. clearbody s.
      prov_eval [pc k_ct t; ch "/"; dg a; dg b; dg c; dg d; sp; pc k_up h; pc k_up o; dgs s].
      rewrite E0n. cbn [rbind]. ctail Eab Et n a b.
  - num_cases n; rewrite ?app_nil_r.
    + destruct (Z.eqb_spec n 0); [|contradiction].
      prov_eval [pc k_ct t; ch "/"; dg a; dg b; dg c; dg d; sp; pc k_up h].
      rewrite E0n. cbn [rbind]. ctail Eab Et n a b.
    + destruct (Z.eqb_spec n 0); [contradiction|].
      pose proof (dec_alldig n ltac:(lia)) as Hd'. pose proof (dec_ne n ltac:(lia)) as Hn'.
      set (s := dec n) in *. clearbody s.
      prov_eval [pc k_ct t; ch "/"; dg a; dg b; dg c; dg d; sp; pc k_up h; dgs s].
      rewrite E0n. cbn [rbind]. ctail Eab Et n a b.
Qed.

Ltac num_setup n s :=
  pose proof (dec_alldig n ltac:(lia)) as Hd'; pose proof (dec_ne n ltac:(lia)) as Hn';
  pose proof (dec_val n ltac:(lia)) as Hvn; set (s := dec n) in *; clearbody s.

(** comet fragment, provisional.  With no number the code applies int() to the
    empty string: ValueError. *)
Lemma pack_prov_cometfrag t yr h n f : incls k_cf t = true -> is4 yr -> isupper h = true ->
  isupper f = true -> 0 <= n ->
  pack_prov (Some (cometfrag_text t yr h n f)) =
    if n =? 0 then Err ValueError
    else if n / 10 >? 61 then Err RuntimeError
    else if century yr <? 62 then
      Ok (Pk (Some ([t; letter (century yr)] ++ skipn 2 yr ++ [h; letter (n / 10); letter (n mod 10); lowerc f]))
             (Some KF) (Some [f]))
    else Err IndexError.
Proof.
  intros Ht (a & b & c & d & -> & Ha & Hb & Hc & Hd) Hh Hf Hn.
  rewrite <- k_up_eq in Hh. rewrite <- k_up_eq in Hf.
  unfold century, cometfrag_text. cbn [firstn skipn].
  pose proof (decval_bound [a; b] (alldig2' _ _ Ha Hb)) as B.
  assert (py_int [a; b] = Ok (decval [a; b])) as Eab by (apply py_int_digits; [now apply alldig2'|discriminate]).
  num_cases n.
  - prov_eval [pc k_cf t; ch "/"; dg a; dg b; dg c; dg d; sp; pc k_up h; ch "-"; pc k_up f]. reflexivity.
  - num_setup n s.
    prov_eval [pc k_cf t; ch "/"; dg a; dg b; dg c; dg d; sp; pc k_up h; dgs s; ch "-"; pc k_up f].
    rewrite Hvn.
    destruct (n / 10 >? 61) eqn:?; [reflexivity|]; cbn [rbind].
    change (slice 0 2 [a; b; c; d]) with [a; b]; rewrite Eab; cbn [rbind].
    rewrite index_letter' by lia; unfold okletter; destruct (Z.ltb_spec (decval [a; b]) 62); [|reflexivity].
    cbn [rbind]; rewrite index_letter by lia; cbn [rbind]; rewrite index_letter by lia; cbn [rbind].
    replace (n - n / 10 * 10) with (n mod 10) by lia; reflexivity.
Qed.

(** satellite, provisional *)
Lemma pack_prov_sat yr p n : is4 yr -> incls k_pl p = true -> 0 <= n ->
  pack_prov (Some (sat_text yr p n)) =
    if n / 10 >? 61 then Err RuntimeError
    else if n =? 0 then Err RuntimeError
    else if century yr <? 62 then
      Ok (Pk (Some (["S"%char; letter (century yr)] ++ skipn 2 yr ++ [p; letter (n / 10); letter (n mod 10); "0"%char]))
             (Some KS) None)
    else Err IndexError.
Proof.
  intros (a & b & c & d & -> & Ha & Hb & Hc & Hd) Hp Hn.
  unfold century, sat_text. cbn [firstn skipn].
  pose proof (decval_bound [a; b] (alldig2' _ _ Ha Hb)) as B.
  assert (py_int [a; b] = Ok (decval [a; b])) as Eab by (apply py_int_digits; [now apply alldig2'|discriminate]).
  num_setup n s.
  prov_eval [ch "S"; ch "/"; dg a; dg b; dg c; dg d; sp; pc k_pl p; sp; dgs s].
  rewrite Hvn.
  destruct (n / 10 >? 61) eqn:?; [reflexivity|]; cbn [rbind].
  destruct (n =? 0) eqn:?; [reflexivity|].
  change (slice 0 2 [a; b; c; d]) with [a; b]; rewrite Eab; cbn [rbind].
  rewrite index_letter' by lia; unfold okletter; destruct (Z.ltb_spec (decval [a; b]) 62); [|reflexivity].
  cbn [rbind]; rewrite index_letter by lia; cbn [rbind]; rewrite index_letter by lia; cbn [rbind].
  replace (n - n / 10 * 10) with (n mod 10) by lia; reflexivity.
Qed.

(** numbered comets *)
Definition k_pdi : cls := Cl false [("P", "P"); ("D", "D"); ("I", "I")]%char.
Lemma pack_perm_comet s t : alldig s = true -> s <> [] -> incls k_pdi t = true ->
  pack_perm (Some (s ++ [t])) =
    if decval s >? 9999 then Err RuntimeError
    else if decval s =? 0 then Err RuntimeError
    else Ok (Pk (Some (zpad10 (decval s) 10000 ++ [t])) (Some KC) None).
Proof.
  intros Hd Hn Ht. perm_eval [dgs s; pc k_pdi t].
  destruct (decval s >? 9999); [reflexivity|]. destruct (decval s =? 0); [reflexivity|].
  cbn [rbind pk_s]. rewrite otrue_app. reflexivity.
Qed.
Lemma pack_perm_cometfrag s t f : alldig s = true -> s <> [] -> incls k_pdi t = true ->
  forallb isupper f = true -> (length f = 1 \/ length f = 2)%nat ->
  pack_perm (Some (s ++ [t] ++ $"-" ++ f)) =
    if decval s >? 9999 then Err RuntimeError
    else if decval s =? 0 then Err RuntimeError
    else Ok (Pk (Some (zpad10 (decval s) 10000 ++ [t])) (Some KF) (Some f)).
Proof.
  intros Hd Hn Ht Hf Hl.
  assert (forall x, isupper x = true -> incls k_up x = true) as Hup by (intros; now rewrite k_up_eq).
  destruct f as [|f1 [|f2 [|]]]; cbn in Hl; try lia.
  - cbn in Hf. rewrite andb_true_r in Hf. apply Hup in Hf.
    perm_eval [dgs s; pc k_pdi t; ch "-"; pc k_up f1].
    destruct (decval s >? 9999); [reflexivity|]. destruct (decval s =? 0); [reflexivity|].
    cbn [rbind pk_s]. rewrite otrue_app. reflexivity.
  - cbn in Hf. rewrite andb_true_r in Hf. apply andb_prop in Hf as [Hf1 Hf2]. apply Hup in Hf1, Hf2.
    perm_eval [dgs s; pc k_pdi t; ch "-"; pc k_up f1; pc k_up f2].
    destruct (decval s >? 9999); [reflexivity|]. destruct (decval s =? 0); [reflexivity|].
    cbn [rbind pk_s]. rewrite otrue_app. reflexivity.
Qed.

(** numbered satellites *)
Lemma pack_perm_sat s q name : alldig s = true -> s <> [] -> planet q = Some name ->
  pack_perm (Some (name ++ $" " ++ s)) =
    if decval s >? 999 then Err RuntimeError
    else if decval s =? 0 then Err RuntimeError
    else Ok (Pk (Some (q :: zpad10 (decval s) 1000 ++ ["S"%char])) (Some KS) None).
Proof.
  intros Hd Hn Hq. unfold planet in Hq.
  destruct (ceqb q "J") eqn:E; [|clear E; destruct (ceqb q "S") eqn:E; [|clear E; destruct (ceqb q "U") eqn:E; [|clear E; destruct (ceqb q "N") eqn:E]]];
    try discriminate Hq; apply ceqb_eq in E; subst q; injection Hq as <-; cbn [lit list_ascii_of_string app].
  - perm_eval [ch "J"; ch "u"; ch "p"; ch "i"; ch "t"; ch "e"; ch "r"; sp; dgs s].
    destruct (decval s >? 999); [reflexivity|]. destruct (decval s =? 0); reflexivity.
  - perm_eval [ch "S"; ch "a"; ch "t"; ch "u"; ch "r"; ch "n"; sp; dgs s].
    destruct (decval s >? 999); [reflexivity|]. destruct (decval s =? 0); reflexivity.
  - perm_eval [ch "U"; ch "r"; ch "a"; ch "n"; ch "u"; ch "s"; sp; dgs s].
    destruct (decval s >? 999); [reflexivity|]. destruct (decval s =? 0); reflexivity.
  - perm_eval [ch "N"; ch "e"; ch "p"; ch "t"; ch "u"; ch "n"; ch "e"; sp; dgs s].
    destruct (decval s >? 999); [reflexivity|]. destruct (decval s =? 0); reflexivity.
Qed.
(** satellites of asteroids *)
Lemma pack_perm_astsat s n : alldig s = true -> s <> [] -> alldig n = true -> n <> [] ->
  pack_perm (Some ($"(" ++ s ++ $") " ++ n)) = Err RuntimeError.
Proof.
  intros Hs Hs' Hn Hn'. perm_eval [ch "("; dgs s; ch ")"; sp; dgs n]. reflexivity.
Qed.
Lemma pack_perm_astsat_prov a b c d u v s n : isdig a = true -> isdig b = true -> isdig c = true -> isdig d = true ->
  isupper u = true -> isupper v = true -> alldig s = true -> s <> [] -> alldig n = true -> n <> [] ->
  pack_perm (Some ($"(" ++ [a; b; c; d] ++ $" " ++ [u; v] ++ s ++ $") " ++ n)) = Err RuntimeError.
Proof.
  intros Ha Hb Hc Hd Hu Hv Hs Hs' Hn Hn'. rewrite <- k_up_eq in Hu, Hv.
  perm_eval [ch "("; dg a; dg b; dg c; dg d; sp; pc k_up u; pc k_up v; dgs s; ch ")"; sp; dgs n]. reflexivity.
Qed.
