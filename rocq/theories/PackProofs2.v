(** Lemmas about PackUtil.v, part 2: evaluation of the regular expressions on
    shapes; characterisation of unpackPackedID on every packed form. *)
From Verif Require Export PackProofs.

Definition k_hm : cls := Cl false [("A", "H"); ("J", "Y")]%char.
Definition k_or : cls := Cl false [("A", "H"); ("J", "Z")]%char.
Definition k_ik : cls := Cl false [("I", "K")]%char.
Definition k_up : cls := Cl false [("A", "Z")]%char.
Definition k_lo : cls := Cl false [("a", "z")]%char.
Definition k_pz : cls := Cl false [("P", "Z")]%char.
Definition k_trk : cls := Cl false [("-", "-"); ("A", "Z"); ("a", "z"); ("0", "9")]%char.
Definition k_pl : cls := Cl false [("J", "J"); ("S", "S"); ("U", "U"); ("N", "N")]%char.
Definition k_ct : cls := Cl false [("A", "A"); ("C", "C"); ("D", "D"); ("P", "P"); ("X", "X")]%char.
Definition k_cf : cls := Cl false [("C", "C"); ("D", "D"); ("P", "P"); ("X", "X")]%char.
Definition k_pd : cls := Cl false [("P", "P"); ("D", "D")]%char.

Lemma eq_ascii (p q : ascii -> bool) :
  forallb (fun c => Bool.eqb (p c) (q c)) allascii = true -> forall c, p c = q c.
Proof. intros H c. apply Bool.eqb_prop. revert c. now apply forall_ascii. Qed.
Ltac cls_eq := apply eq_ascii; vm_compute; reflexivity.
Lemma k_digit_eq : forall c, incls c_digit c = isdig c. Proof. cls_eq. Qed.
Lemma k_hm_eq : forall c, incls k_hm c = half_month c. Proof. cls_eq. Qed.
Lemma k_or_eq : forall c, incls k_or c = order_letter c. Proof. cls_eq. Qed.
Lemma k_an_eq : forall c, incls k_an c = isalnum c. Proof. cls_eq. Qed.
Lemma k_up_eq : forall c, incls k_up c = isupper c. Proof. cls_eq. Qed.
Lemma k_lo_eq : forall c, incls k_lo c = islower c. Proof. cls_eq. Qed.
Lemma k_trk_eq : forall c, incls k_trk c = trk_char c. Proof. cls_eq. Qed.

Lemma many_digits s : alldig s = true -> s <> [] -> conf (Many c_digit, s).
Proof.
  intros H Hn. unfold conf, confb. destruct s as [|c s]; [contradiction|]. cbn [snd].
  unfold alldig in H. rewrite forallb_forall in *. intros x Hx. rewrite k_digit_eq. auto.
Qed.

Definition sp : piece := (One (c_one " "), [" "%char]).
Definition ch (c : ascii) : piece := (One (c_one c), [c]).
Definition pc (k : cls) (c : ascii) : piece := (One k, [c]).
Definition dg (c : ascii) : piece := (One c_digit, [c]).
Definition dgs (s : str) : piece := (Many c_digit, s).

Lemma conf_pc k c : incls k c = true -> conf (pc k c).
Proof. intro H. exact H. Qed.
Lemma conf_dg c : isdig c = true -> conf (dg c).
Proof. intro H. unfold conf, dg, confb. now rewrite k_digit_eq. Qed.
Lemma conf_ch c : conf (ch c).
Proof. unfold conf, ch, confb, incls, c_one, inr; cbn. unfold cle. rewrite N.leb_refl. reflexivity. Qed.

Ltac sym_conf :=
  repeat match goal with
         | |- Forall conf [] => apply Forall_nil
         | |- Forall conf (_ :: _) => apply Forall_cons
         | |- conf (dg _) => apply conf_dg; assumption
         | |- conf (ch _) => apply conf_ch
         | |- conf sp => apply conf_ch
         | |- conf (pc _ _) => apply conf_pc; assumption
         | |- conf (dgs _) => apply many_digits; assumption
         | |- conf (_, _) => assumption
         end.

(** sym_yes H R ps: H : re_match R (string of ps) = Some captures *)
Ltac norm_pieces H :=
  cbn [flat cflat concat map fst snd app sp ch pc dg dgs] in H; rewrite ?app_nil_r in H.
Ltac sym_yes H R ps :=
  let g := eval vm_compute in (sym_match R ps) in
  match g with
  | Some ?g' =>
      assert (re_match R (flat ps) = Some (cflat g')) as H
        by (apply sym_match_ok; [sym_conf | vm_compute; reflexivity]);
      norm_pieces H
  end.
Ltac sym_none H R ps :=
  assert (re_match R (flat ps) = None) as H
    by (apply sym_no_ok; [sym_conf | vm_compute; reflexivity]);
  norm_pieces H.

(** ** numerals of fixed length *)
Lemma len2 {A} (l : list A) : length l = 2%nat -> exists a b, l = [a; b].
Proof. destruct l as [|a [|b [|]]]; try discriminate. eauto. Qed.
Lemma len3 {A} (l : list A) : length l = 3%nat -> exists a b c, l = [a; b; c].
Proof. destruct l as [|a [|b [|c [|]]]]; try discriminate. eauto. Qed.
Lemma len4 {A} (l : list A) : length l = 4%nat -> exists a b c d, l = [a; b; c; d].
Proof. destruct l as [|a [|b [|c [|d [|]]]]]; try discriminate. eauto 6. Qed.
Lemma alldig4 a b c d : alldig [a; b; c; d] = true -> isdig a = true /\ isdig b = true /\ isdig c = true /\ isdig d = true.
Proof. unfold alldig; cbn. rewrite !andb_true_iff. tauto. Qed.
Lemma alldig4' a b c d : isdig a = true -> isdig b = true -> isdig c = true -> isdig d = true -> alldig [a; b; c; d] = true.
Proof. unfold alldig; cbn. intros -> -> -> ->. reflexivity. Qed.
Lemma alldig3 a b c : alldig [a; b; c] = true -> isdig a = true /\ isdig b = true /\ isdig c = true.
Proof. unfold alldig; cbn. rewrite !andb_true_iff. tauto. Qed.
Lemma alldig2 a b : alldig [a; b] = true -> isdig a = true /\ isdig b = true.
Proof. unfold alldig; cbn. rewrite !andb_true_iff. tauto. Qed.
Lemma alldig2' a b : isdig a = true -> isdig b = true -> alldig [a; b] = true.
Proof. unfold alldig; cbn. intros -> ->. reflexivity. Qed.
Lemma alldig1' a : isdig a = true -> alldig [a] = true.
Proof. unfold alldig; cbn. intros ->. reflexivity. Qed.
Lemma decval4 a b c d : decval [a; b; c; d] = 1000 * digval a + 100 * digval b + 10 * digval c + digval d.
Proof. unfold decval; cbn [fold_left]. lia. Qed.
Lemma decval3 a b c : decval [a; b; c] = 100 * digval a + 10 * digval b + digval c.
Proof. unfold decval; cbn [fold_left]. lia. Qed.
Lemma decval2 a b : decval [a; b] = 10 * digval a + digval b.
Proof. unfold decval; cbn [fold_left]. lia. Qed.
Lemma decval1 a : decval [a] = digval a.
Proof. unfold decval; cbn [fold_left]. lia. Qed.

(** the four-digit numeral of a year *)
Lemma year4 y : 1000 <= y <= 9999 -> exists a b c d, dec y = [a; b; c; d] /\
  isdig a = true /\ isdig b = true /\ isdig c = true /\ isdig d = true /\
  decval [a; b] = y / 100 /\ decval [c; d] = y mod 100.
Proof.
  intro H. assert (length (dec y) = 4%nat) as Hl by (apply (dec_length y 3); cbn; lia).
  apply len4 in Hl as (a & b & c & d & E). exists a, b, c, d. split; [exact E|].
  pose proof (dec_alldig y ltac:(lia)) as Hd. pose proof (dec_val y ltac:(lia)) as Hv. rewrite E in *.
  apply alldig4 in Hd as (Ha & Hb & Hc & Hd). rewrite decval4 in Hv. rewrite !decval2.
  pose proof (digval_range _ Ha). pose proof (digval_range _ Hb).
  pose proof (digval_range _ Hc). pose proof (digval_range _ Hd).
  repeat split; auto; lia.
Qed.

Lemma zpad_1 n : 0 <= n < 10 -> exists a, zpad10 n 10 = [a] /\ isdig a = true /\ decval [a] = n.
Proof.
  intro H. destruct (pad_digits 1 n) as (w & E & Hl & Hd & Hv); [cbn; lia|].
  unfold zpad10. cbn in E. rewrite E. destruct w as [|a [|]]; try discriminate.
  exists a. repeat split; auto. apply alldig_cons in Hd. tauto.
Qed.
Lemma zpad_3 n : 0 <= n < 1000 -> exists a b c, zpad10 n 1000 = [a; b; c] /\
  isdig a = true /\ isdig b = true /\ isdig c = true /\ decval [a; b; c] = n.
Proof.
  intro H. destruct (pad_digits 3 n) as (w & E & Hl & Hd & Hv); [cbn; lia|].
  unfold zpad10. cbn in E. rewrite E. apply len3 in Hl as (a & b & c & ->).
  apply alldig3 in Hd. exists a, b, c. repeat split; tauto.
Qed.
Lemma zpad_4 n : 0 <= n < 10000 -> exists a b c d, zpad10 n 10000 = [a; b; c; d] /\
  isdig a = true /\ isdig b = true /\ isdig c = true /\ isdig d = true /\ decval [a; b; c; d] = n.
Proof.
  intro H. destruct (pad_digits 4 n) as (w & E & Hl & Hd & Hv); [cbn; lia|].
  unfold zpad10. cbn in E. rewrite E. apply len4 in Hl as (a & b & c & d & ->).
  apply alldig4 in Hd. exists a, b, c, d. repeat split; tauto.
Qed.


Lemma digit62_an c d : digit62 c = Some d -> incls k_an c = true.
Proof.
  intro H. assert (forall c, (match digit62 c with Some d => incls k_an c | None => true end) = true) as S
    by (apply forall_ascii; vm_compute; reflexivity).
  specialize (S c). rewrite H in S. exact S.
Qed.
Lemma ik_digit62 c : incls k_ik c = true -> exists u, digit62 c = Some u /\ 18 <= u <= 20.
Proof.
  intro H. assert (forall c, implb (incls k_ik c) (match digit62 c with Some d => (18 <=? d) && (d <=? 20) | None => false end) = true) as S
    by (apply forall_ascii; vm_compute; reflexivity).
  specialize (S c). rewrite H in S. cbn in S. destruct (digit62 c); [|discriminate]. eexists; split; [reflexivity|lia].
Qed.

Lemma gint_lookup g i s : grp g i = Some s -> alldig s = true -> s <> [] -> gint g i = Ok (decval s).
Proof. intros H Hd Hn. unfold gint, gstr. rewrite H. cbn. now apply py_int_digits. Qed.
Lemma gletter_lookup g i c d : grp g i = Some [c] -> digit62 c = Some d -> gletter g i = Ok d.
Proof. intros H Hd. unfold gletter, gstr. rewrite H. cbn. now apply unpackLetter_digit62. Qed.
Lemma alldig3' a b c : isdig a = true -> isdig b = true -> isdig c = true -> alldig [a; b; c] = true.
Proof. unfold alldig; cbn. intros -> -> ->. reflexivity. Qed.


Lemma dec_nonempty n : 0 <= n -> exists c s, dec n = c :: s.
Proof. intro H. pose proof (dec_ne n H). destruct (dec n); [contradiction|eauto]. Qed.
Lemma otrue_app a c b : otrue (Some (a ++ c :: b)) = true.
Proof. destruct a; reflexivity. Qed.
Lemma otrue_dec n : 0 <= n -> otrue (Some (dec n)) = true.
Proof. intro H. destruct (dec_nonempty n H) as (c & s & ->). reflexivity. Qed.
Lemma otrue_app_sp a b : otrue (Some (a ++ $" " ++ b)) = true.
Proof. apply otrue_app. Qed.
Lemma otrue_sl a x b : otrue (Some (x :: a ++ b)) = true.
Proof. reflexivity. Qed.

Lemma otrue_none : otrue None = false. Proof. reflexivity. Qed.
Lemma otrue_nil : otrue (Some []) = false. Proof. reflexivity. Qed.
Lemma otrue_cons c s : otrue (Some (c :: s)) = true. Proof. reflexivity. Qed.
Lemma otrue_litapp c s b : otrue (Some (lit (String c s) ++ b)) = true. Proof. reflexivity. Qed.
Lemma pd_ok t : incls k_pd t = true -> negb (streqb [t] $"P") && negb (streqb [t] $"D") = false.
Proof.
  revert t. apply implf_ascii. vm_compute. reflexivity.
Qed.
Lemma pd_bad t : incls k_pd t = false -> negb (streqb [t] $"P") && negb (streqb [t] $"D") = true.
Proof.
  intro H. assert (forall t, implb (negb (incls k_pd t)) (negb (streqb [t] $"P") && negb (streqb [t] $"D")) = true) as S
    by (apply forall_ascii; vm_compute; reflexivity).
  specialize (S t). rewrite H in S. exact S.
Qed.
Ltac ered := rewrite ?otrue_none, ?otrue_nil, ?otrue_cons, ?otrue_litapp; cbn [rbind gtrue gstr grp Nat.eqb orb andb negb option_map chat nth_error app ptext].
Ltac digs := first [assumption | discriminate | reflexivity
  | (apply alldig4'; assumption) | (apply alldig3'; assumption) | (apply alldig2'; assumption) | (apply alldig1'; assumption)].
Ltac eval_grp :=
  repeat (ered;
  match goal with
  | |- context [gint ?g ?i] =>
      erewrite (gint_lookup g i) by digs
  | H : digit62 ?c = Some ?d |- context [gletter ?g ?i] =>
      rewrite (gletter_lookup g i c d) by (first [reflexivity | assumption])
  | H : ?n <> 0 |- context [?n =? 0] => rewrite (proj2 (Z.eqb_neq n 0) H)
  | |- context [unRadix62_4 [?p; ?w; ?x; ?y; ?z]] =>
      erewrite (unRadix_digits p w x y z) by eassumption
  | H : incls k_pd ?t = true |- context [negb (streqb [?t] $"P") && negb (streqb [?t] $"D")] => rewrite (pd_ok t H)
  | H : incls k_pd ?t = false |- context [negb (streqb [?t] $"P") && negb (streqb [?t] $"D")] => rewrite (pd_bad t H)
  | H : pyindex ?l ?k = Ok _ |- context [pyindex ?l ?k] => rewrite H
  | |- context [otrue (Some (_ ++ _ :: _))] => rewrite otrue_app
  | |- context [otrue (Some (_ ++ $" " ++ _))] => rewrite otrue_app_sp
  end);
  ered.

Ltac sym_any H R ps :=
  let b := eval vm_compute in (sym_no R (items ps)) in
  match b with
  | true => sym_none H R ps
  | false => sym_yes H R ps
  end.
(** evaluate unpackPackedID on the string described by the pieces ps *)
Ltac unpack_eval ps :=
  let Hm := fresh "Hm" in let Hc := fresh "Hc" in let Hs := fresh "Hs" in
  sym_any Hm minorplanetPackedIDRegex ps;
  sym_any Hc cometPackedIDRegex ps;
  sym_any Hs satellitePackedIDRegex ps;
  cbn [app] in *; unfold unpackPackedID, unpack_minor; rewrite Hm; eval_grp;
  unfold unpack_comet; try rewrite Hc; eval_grp; unfold unpack_sat; try rewrite Hs; eval_grp.

(** run [tac] once for each of the three forms of the permID columns *)
Ltac with_five HF tac :=
  let l := fresh "l" in let d1 := fresh "d1" in let d2 := fresh "d2" in let d3 := fresh "d3" in
  let d4 := fresh "d4" in let n := fresh "n" in
  let w := fresh "w" in let x := fresh "x" in let y := fresh "y" in let z := fresh "z" in
  destruct HF as [|l d1 d2 d3 d4 n ? ? ? ? ? ?|w x y z ? ? ? ? ? ? ? ?];
  [ tac [sp; sp; sp; sp; sp]
  | assert (incls k_an l = true) by (eapply digit62_an; eassumption);
    tac [pc k_an l; dg d1; dg d2; dg d3; dg d4]
  | assert (incls k_an w = true) by (eapply digit62_an; eassumption);
    assert (incls k_an x = true) by (eapply digit62_an; eassumption);
    assert (incls k_an y = true) by (eapply digit62_an; eassumption);
    assert (incls k_an z = true) by (eapply digit62_an; eassumption);
    tac [ch "~"; pc k_an w; pc k_an x; pc k_an y; pc k_an z] ].

Lemma val62_nonneg a b c d : 0 <= a < 62 -> 0 <= b < 62 -> 0 <= c < 62 -> 0 <= d < 62 ->
  0 <= val62 a b c d < 62 ^ 4.
Proof. unfold val62. change (62^4) with 14776336. lia. Qed.
Lemma tilde_nz w x y z a b c d : digit62 w = Some a -> digit62 x = Some b -> digit62 y = Some c ->
    digit62 z = Some d -> 620000 + val62 a b c d <> 0.
Proof.
  intros Ha Hb Hc Hd. apply digit62_range in Ha, Hb, Hc, Hd. pose proof (val62_nonneg a b c d Ha Hb Hc Hd). lia.
Qed.
Lemma five_pos five o : Five five o -> match o with Some n => 0 < n | None => True end.
Proof.
  intro H. destruct H as [|l d1 d2 d3 d4 u Hl H1 H2 H3 H4 Hnz|w x y z a b c d Ha Hb Hc Hd].
  - trivial.
  - apply digit62_range in Hl. pose proof (decval_bound [d1;d2;d3;d4] (alldig4' _ _ _ _ H1 H2 H3 H4)).
    revert Hnz. generalize dependent (decval [d1; d2; d3; d4]). lia.
  - apply digit62_range in Ha, Hb, Hc, Hd. pose proof (val62_nonneg a b c d Ha Hb Hc Hd). lia.
Qed.
Ltac tnz := try match goal with Ha : digit62 ?w = Some ?a, Hb : digit62 ?x = Some ?b, Hc : digit62 ?y = Some ?c,
  Hd : digit62 ?z = Some ?d |- context [[ _ ; ?w ; ?x ; ?y ; ?z ]] =>
    pose proof (tilde_nz w x y z a b c d Ha Hb Hc Hd) end.

(** ordinary provisional designation in columns 6-12 *)
Lemma unpack_prov five perm c y1 y2 h cl cn o u v :
  Five five perm -> incls k_ik c = true -> isdig y1 = true -> isdig y2 = true -> incls k_hm h = true ->
  isdig cn = true -> incls k_or o = true -> digit62 c = Some u -> digit62 cl = Some v ->
  unpackPackedID (five ++ [c; y1; y2; h; cl; cn; o]) =
    Ok (ptext perm, Some (dec (u * 100 + decval [y1; y2]) ++ $" " ++ [h; o] ++ nstr (v * 10 + decval [cn])), None).
Proof.
  intros HF Hc Hy1 Hy2 Hh Hcn Ho Hu Hv. pose proof (digit62_an _ _ Hv) as Hcl.
  Ltac go1 pre c y1 y2 h cl cn o :=
    let ps := eval cbn [app] in (pre ++ [pc k_ik c; dg y1; dg y2; pc k_hm h; pc k_an cl; dg cn; pc k_or o]) in
    unpack_eval ps.
  with_five HF ltac:(fun pre => tnz; go1 pre c y1 y2 h cl cn o); rewrite ?andb_false_r; cbn [negb andb]; rewrite ?andb_false_r; reflexivity.
Qed.

(** '0' in the order column: a comet-like designation A/yyyy *)
Lemma unpack_prov0 five perm c y1 y2 h cl cn u v :
  Five five perm -> incls k_ik c = true -> isdig y1 = true -> isdig y2 = true -> incls k_hm h = true ->
  isdig cn = true -> digit62 c = Some u -> digit62 cl = Some v ->
  unpackPackedID (five ++ [c; y1; y2; h; cl; cn; "0"%char]) =
    Ok (ptext perm, Some ($"A/" ++ dec (u * 100 + decval [y1; y2]) ++ $" " ++ [h] ++ nstr (v * 10 + decval [cn])), None).
Proof.
  intros HF Hc Hy1 Hy2 Hh Hcn Hu Hv. pose proof (digit62_an _ _ Hv) as Hcl.
  Ltac go2 pre c y1 y2 h cl cn :=
    let ps := eval cbn [app] in (pre ++ [pc k_ik c; dg y1; dg y2; pc k_hm h; pc k_an cl; dg cn; ch "0"]) in
    unpack_eval ps.
  with_five HF ltac:(fun pre => tnz; go2 pre c y1 y2 h cl cn); rewrite ?andb_false_r; cbn [negb andb]; rewrite ?andb_false_r; reflexivity.
Qed.

(** survey designation *)
Lemma unpack_survey five perm s1 s2 e1 e2 e3 e4 :
  Five five perm -> is_survey s1 s2 = true -> isdig e1 = true -> isdig e2 = true -> isdig e3 = true -> isdig e4 = true ->
  unpackPackedID (five ++ [s1; s2; "S"%char; e1; e2; e3; e4]) =
    Ok (ptext perm, Some (survey_text e1 e2 e3 e4 s1 s2), None).
Proof.
  intros HF Hs He1 He2 He3 He4.
  assert ((s1 = "P" /\ s2 = "L" \/ s1 = "T" /\ (s2 = "1" \/ s2 = "2" \/ s2 = "3"))%char) as D.
  { unfold is_survey in Hs. apply orb_prop in Hs as [Hs|Hs]; apply andb_prop in Hs as [H1 H2].
    - apply ceqb_eq in H1, H2. auto.
    - apply ceqb_eq in H1. rewrite !orb_true_iff, !ceqb_eq in H2. tauto. }
  Ltac go3 pre a b e1 e2 e3 e4 :=
    let ps := eval cbn [app] in (pre ++ [ch a; ch b; ch "S"; dg e1; dg e2; dg e3; dg e4]) in
    unpack_eval ps.
  destruct D as [[-> ->]|[-> [->|[->| ->]]]]; unfold survey_text.
  - with_five HF ltac:(fun pre => tnz; go3 pre "P"%char "L"%char e1 e2 e3 e4); rewrite ?andb_false_r; cbn [negb andb]; rewrite ?andb_false_r; reflexivity.
  - with_five HF ltac:(fun pre => tnz; go3 pre "T"%char "1"%char e1 e2 e3 e4); rewrite ?andb_false_r; cbn [negb andb]; rewrite ?andb_false_r; reflexivity.
  - with_five HF ltac:(fun pre => tnz; go3 pre "T"%char "2"%char e1 e2 e3 e4); rewrite ?andb_false_r; cbn [negb andb]; rewrite ?andb_false_r; reflexivity.
  - with_five HF ltac:(fun pre => tnz; go3 pre "T"%char "3"%char e1 e2 e3 e4); rewrite ?andb_false_r; cbn [negb andb]; rewrite ?andb_false_r; reflexivity.
Qed.

(** blank columns 6-12 *)
Lemma unpack_noprov five perm : Five five perm ->
  unpackPackedID (five ++ spaces 7) =
    match perm with Some n => Ok (Some (dec n), None, Some []) | None => Err RuntimeError end.
Proof.
  intros HF. pose proof (five_pos _ _ HF) as Hp. change (spaces 7) with [" "; " "; " "; " "; " "; " "; " "]%char.
  Ltac go4 pre :=
    let ps := eval cbn [app] in (pre ++ [sp; sp; sp; sp; sp; sp; sp]) in unpack_eval ps.
  revert Hp.
  with_five HF ltac:(fun pre => tnz; go4 pre).
  - reflexivity.
  - intro Hp. match goal with |- context [dec ?x] => destruct (dec_nonempty x) as (c1 & s1 & ->); [clear - Hp; lia|] end. reflexivity.
  - intro Hp. match goal with |- context [dec ?x] => destruct (dec_nonempty x) as (c1 & s1 & ->); [clear - Hp; lia|] end. reflexivity.
Qed.

(** extended provisional designation *)
Lemma unpack_ext five perm yl h w x y z u a b c d :
  Five five perm -> incls k_pz yl = true -> digit62 yl = Some u -> incls k_hm h = true ->
  digit62 w = Some a -> digit62 x = Some b -> digit62 y = Some c -> digit62 z = Some d ->
  exists ol, pyindex order_letters ((15500 + val62 a b c d) mod 25) = Ok ol /\
  unpackPackedID (five ++ ["_"%char; yl; h; w; x; y; z]) =
    Ok (ptext perm, Some (dec (2000 + u) ++ $" " ++ [h; ol] ++ dec ((15500 + val62 a b c d - (15500 + val62 a b c d) mod 25) / 25)), None).
Proof.
  intros HF Hyl Hu Hh Ha Hb Hc Hd.
  assert (incls k_an w = true) by (eapply digit62_an; eassumption).
  assert (incls k_an x = true) by (eapply digit62_an; eassumption).
  assert (incls k_an y = true) by (eapply digit62_an; eassumption).
  assert (incls k_an z = true) by (eapply digit62_an; eassumption).
  assert (exists ol, pyindex order_letters ((15500 + val62 a b c d) mod 25) = Ok ol) as (ol & Hol).
  { pose proof (Z.mod_pos_bound (15500 + val62 a b c d) 25 ltac:(lia)) as B. set (k := (15500 + val62 a b c d) mod 25) in *.
    unfold pyindex. destruct (Z.ltb_spec k 0); [lia|]. destruct (Z.ltb_spec k 0); [lia|].
    destruct (nth_error order_letters (Z.to_nat k)) eqn:E; [eauto|].
    apply nth_error_None in E. change (length order_letters) with 25%nat in E. lia. }
  exists ol. split; [exact Hol|].
  Ltac go5 pre yl h w x y z :=
    let ps := eval cbn [app] in (pre ++ [ch "_"; pc k_pz yl; pc k_hm h; pc k_an w; pc k_an x; pc k_an y; pc k_an z]) in
    unpack_eval ps.
  change (2000 + u) with (20 * 100 + u).
  with_five HF ltac:(fun pre => tnz; go5 pre yl h w x y z); rewrite ?andb_false_r; cbn [negb andb]; rewrite ?andb_false_r; reflexivity.
Qed.

(** ** comets *)
Ltac with_four HF tac :=
  let d1 := fresh "d1" in let d2 := fresh "d2" in let d3 := fresh "d3" in let d4 := fresh "d4" in
  destruct HF as [|d1 d2 d3 d4 ? ? ? ? ?];
  [ tac [sp; sp; sp; sp] | tac [dg d1; dg d2; dg d3; dg d4] ].
Ltac fin := rewrite ?andb_false_r, ?app_nil_r; cbn [negb andb]; rewrite ?andb_false_r; try reflexivity.

Definition k_cI : cls := Cl false [("A", "A"); ("P", "P"); ("C", "C"); ("D", "D"); ("X", "X"); ("I", "I")]%char.
(** what a comet number column group denotes: the number with its type, or nothing;
    with a number only types P and D are readable *)
Definition cnum (o : option Z) (t : ascii) (suf : str) : option str :=
  option_map (fun n => dec n ++ [t] ++ suf) o.

Lemma upper1 c : upper [c] = [upperc c]. Proof. reflexivity. Qed.

(** comet provisional designation, no second letter, no fragment *)
Lemma unpack_comet_0 four num t c y1 y2 h cl cn u v :
  Four four num -> (if num then incls k_pd t else incls k_cI t) = true ->
  digit62 c = Some u -> isdig y1 = true -> isdig y2 = true -> incls k_hm h = true ->
  isdig cn = true -> digit62 cl = Some v ->
  unpackPackedID (four ++ [t; c; y1; y2; h; cl; cn; "0"%char]) =
    Ok (cnum num t [], Some ([t] ++ $"/" ++ dec (u * 100 + decval [y1; y2]) ++ $" " ++ [h] ++ nstr (v * 10 + decval [cn])), None).
Proof.
  intros HF Ht Hu Hy1 Hy2 Hh Hcn Hv.
  pose proof (digit62_an _ _ Hv) as Hcl. pose proof (digit62_an _ _ Hu) as Hc.
  Ltac go6 pre k t c y1 y2 h cl cn :=
    let ps := eval cbn [app] in (pre ++ [pc k t; pc k_an c; dg y1; dg y2; pc k_hm h; pc k_an cl; dg cn; ch "0"]) in
    unpack_eval ps.
  destruct HF; cbn iota in Ht.
  - go6 [sp; sp; sp; sp] k_cI t c y1 y2 h cl cn. fin.
  - go6 [dg d1; dg d2; dg d3; dg d4] k_pd t c y1 y2 h cl cn. fin.
Qed.

(** with a second letter *)
Lemma unpack_comet_A four num t c y1 y2 h cl cn o u v :
  Four four num -> (if num then incls k_pd t else incls k_cI t) = true ->
  digit62 c = Some u -> isdig y1 = true -> isdig y2 = true -> incls k_hm h = true ->
  isdig cn = true -> digit62 cl = Some v -> incls k_up o = true ->
  unpackPackedID (four ++ [t; c; y1; y2; h; cl; cn; o]) =
    Ok (cnum num t [], Some ([t] ++ $"/" ++ dec (u * 100 + decval [y1; y2]) ++ $" " ++ [h; o] ++ nstr (v * 10 + decval [cn])), None).
Proof.
  intros HF Ht Hu Hy1 Hy2 Hh Hcn Hv Ho.
  pose proof (digit62_an _ _ Hv) as Hcl. pose proof (digit62_an _ _ Hu) as Hc.
  Ltac go7 pre k t c y1 y2 h cl cn o :=
    let ps := eval cbn [app] in (pre ++ [pc k t; pc k_an c; dg y1; dg y2; pc k_hm h; pc k_an cl; dg cn; pc k_up o]) in
    unpack_eval ps.
  destruct HF; cbn iota in Ht.
  - go7 [sp; sp; sp; sp] k_cI t c y1 y2 h cl cn o. fin.
  - go7 [dg d1; dg d2; dg d3; dg d4] k_pd t c y1 y2 h cl cn o. fin.
Qed.

(** with a fragment letter *)
Lemma unpack_comet_frag four num t c y1 y2 h cl cn f u v :
  Four four num -> (if num then incls k_pd t else incls k_cI t) = true ->
  digit62 c = Some u -> isdig y1 = true -> isdig y2 = true -> incls k_hm h = true ->
  isdig cn = true -> digit62 cl = Some v -> incls k_lo f = true ->
  unpackPackedID (four ++ [t; c; y1; y2; h; cl; cn; f]) =
    Ok (cnum num t ($"-" ++ [upperc f]),
        Some ([t] ++ $"/" ++ dec (u * 100 + decval [y1; y2]) ++ $" " ++ [h] ++ nstr (v * 10 + decval [cn]) ++ $"-" ++ [upperc f]), None).
Proof.
  intros HF Ht Hu Hy1 Hy2 Hh Hcn Hv Hf.
  pose proof (digit62_an _ _ Hv) as Hcl. pose proof (digit62_an _ _ Hu) as Hc.
  Ltac go8 pre k t c y1 y2 h cl cn f :=
    let ps := eval cbn [app] in (pre ++ [pc k t; pc k_an c; dg y1; dg y2; pc k_hm h; pc k_an cl; dg cn; pc k_lo f]) in
    unpack_eval ps.
  destruct HF; cbn iota in Ht.
  - go8 [sp; sp; sp; sp] k_cI t c y1 y2 h cl cn f. fin.
  - go8 [dg d1; dg d2; dg d3; dg d4] k_pd t c y1 y2 h cl cn f. fin.
    unfold cnum, option_map. rewrite <- app_assoc. reflexivity.
Qed.

(** comet number alone *)
Lemma unpack_comet_num d1 d2 d3 d4 t :
  isdig d1 = true -> isdig d2 = true -> isdig d3 = true -> isdig d4 = true ->
  decval [d1; d2; d3; d4] <> 0 -> incls k_cI t = true ->
  unpackPackedID ([d1; d2; d3; d4; t] ++ spaces 7) =
    if incls k_pd t then Ok (Some (dec (decval [d1; d2; d3; d4]) ++ [t]), None, None) else Err RuntimeError.
Proof.
  intros H1 H2 H3 H4 Hnz Ht. change (spaces 7) with [" "; " "; " "; " "; " "; " "; " "]%char.
  destruct (incls k_pd t) eqn:Hp;
  unpack_eval [dg d1; dg d2; dg d3; dg d4; pc k_cI t; sp; sp; sp; sp; sp; sp; sp]; fin.
Qed.

(** comet number with a fragment of one or two letters *)
Lemma strip_lo1 c : islower c = true -> strip [" "%char; c] = [c].
Proof.
  intro H. assert (pyspace c = false) by (revert c H; apply implf_ascii; vm_compute; reflexivity).
  apply (strip_pad [" "%char] [c] []); try reflexivity.
  apply nospace_trimmed. cbn. now rewrite H0.
Qed.
Lemma strip_lo2 b c : islower b = true -> islower c = true -> strip [b; c] = [b; c].
Proof.
  intros Hb Hc. apply strip_trimmed, nospace_trimmed. cbn.
  rewrite (implf_ascii islower pyspace) by (try assumption; vm_compute; reflexivity).
  rewrite (implf_ascii islower pyspace) by (try assumption; vm_compute; reflexivity). reflexivity.
Qed.
Lemma unpack_comet_numfrag1 d1 d2 d3 d4 t f :
  isdig d1 = true -> isdig d2 = true -> isdig d3 = true -> isdig d4 = true ->
  decval [d1; d2; d3; d4] <> 0 -> incls k_pd t = true -> incls k_lo f = true ->
  unpackPackedID ([d1; d2; d3; d4; t] ++ spaces 6 ++ [f]) =
    Ok (Some (dec (decval [d1; d2; d3; d4]) ++ [t] ++ $"-" ++ [upperc f]), None, None).
Proof.
  intros H1 H2 H3 H4 Hnz Ht Hf. change (spaces 6) with [" "; " "; " "; " "; " "; " "]%char.
  unpack_eval [dg d1; dg d2; dg d3; dg d4; pc k_pd t; sp; sp; sp; sp; sp; sp; pc k_lo f].
  rewrite strip_lo1 by now rewrite <- k_lo_eq. rewrite <- app_assoc. cbn [app]. rewrite otrue_app. fin.
Qed.
Lemma unpack_comet_numfrag2 d1 d2 d3 d4 t e f :
  isdig d1 = true -> isdig d2 = true -> isdig d3 = true -> isdig d4 = true ->
  decval [d1; d2; d3; d4] <> 0 -> incls k_pd t = true -> incls k_lo e = true -> incls k_lo f = true ->
  unpackPackedID ([d1; d2; d3; d4; t] ++ spaces 5 ++ [e; f]) =
    Ok (Some (dec (decval [d1; d2; d3; d4]) ++ [t] ++ $"-" ++ [upperc e; upperc f]), None, None).
Proof.
  intros H1 H2 H3 H4 Hnz Ht He Hf. change (spaces 5) with [" "; " "; " "; " "; " "]%char.
  unpack_eval [dg d1; dg d2; dg d3; dg d4; pc k_pd t; sp; sp; sp; sp; sp; pc k_lo e; pc k_lo f].
  rewrite strip_lo2 by now rewrite <- k_lo_eq. rewrite <- app_assoc. cbn [app]. rewrite otrue_app. fin.
Qed.

(** ** satellites *)
Lemma unpack_satprov c y1 y2 p cl cn u v :
  digit62 c = Some u -> isdig y1 = true -> isdig y2 = true -> incls k_pl p = true ->
  isdig cn = true -> digit62 cl = Some v ->
  unpackPackedID ([" "; " "; " "; " "; "S"]%char ++ [c; y1; y2; p; cl; cn; "0"%char]) =
    Ok (None, Some ($"S/" ++ dec (u * 100 + decval [y1; y2]) ++ $" " ++ [p] ++ $" " ++ nstr (v * 10 + decval [cn])), None).
Proof.
  intros Hu Hy1 Hy2 Hp Hcn Hv. pose proof (digit62_an _ _ Hv) as Hcl. pose proof (digit62_an _ _ Hu) as Hc.
  unpack_eval [sp; sp; sp; sp; ch "S"; pc k_an c; dg y1; dg y2; pc k_pl p; pc k_an cl; dg cn; ch "0"]. fin.
Qed.
Lemma unpack_satnumprov q d1 d2 d3 c y1 y2 p cl cn u v name :
  planet q = Some name -> isdig d1 = true -> isdig d2 = true -> isdig d3 = true -> decval [d1; d2; d3] <> 0 ->
  digit62 c = Some u -> isdig y1 = true -> isdig y2 = true -> incls k_pl p = true ->
  isdig cn = true -> digit62 cl = Some v ->
  unpackPackedID ([q; d1; d2; d3; "S"%char] ++ [c; y1; y2; p; cl; cn; "0"%char]) =
    Ok (Some (name ++ $" " ++ dec (decval [d1; d2; d3])),
        Some ($"S/" ++ dec (u * 100 + decval [y1; y2]) ++ $" " ++ [p] ++ $" " ++ nstr (v * 10 + decval [cn])), None).
Proof.
  intros Hq H1 H2 H3 Hnz Hu Hy1 Hy2 Hp Hcn Hv. pose proof (digit62_an _ _ Hv) as Hcl. pose proof (digit62_an _ _ Hu) as Hc.
  assert (incls k_pl q = true) as Hq'.
  { assert (forall q, (match planet q with Some _ => incls k_pl q | None => true end) = true) as S
      by (apply forall_ascii; vm_compute; reflexivity). specialize (S q). now rewrite Hq in S. }
  unpack_eval [pc k_pl q; dg d1; dg d2; dg d3; ch "S"; pc k_an c; dg y1; dg y2; pc k_pl p; pc k_an cl; dg cn; ch "0"].
  assert (planetName q = Ok name) as ->.
  { unfold planetName. unfold planet in Hq. repeat (destruct (ceqb q _); [injection Hq as <-; reflexivity|]). discriminate. }
  eval_grp. fin.
Qed.
Lemma unpack_satnum q d1 d2 d3 name :
  planet q = Some name -> isdig d1 = true -> isdig d2 = true -> isdig d3 = true -> decval [d1; d2; d3] <> 0 ->
  unpackPackedID ([q; d1; d2; d3; "S"%char] ++ spaces 7) =
    Ok (Some (name ++ $" " ++ dec (decval [d1; d2; d3])), None, None).
Proof.
  intros Hq H1 H2 H3 Hnz. change (spaces 7) with [" "; " "; " "; " "; " "; " "; " "]%char.
  assert (incls k_pl q = true) as Hq'.
  { assert (forall q, (match planet q with Some _ => incls k_pl q | None => true end) = true) as S
      by (apply forall_ascii; vm_compute; reflexivity). specialize (S q). now rewrite Hq in S. }
  unpack_eval [pc k_pl q; dg d1; dg d2; dg d3; ch "S"; sp; sp; sp; sp; sp; sp; sp].
  assert (planetName q = Ok name) as ->.
  { unfold planetName. unfold planet in Hq. repeat (destruct (ceqb q _); [injection Hq as <-; reflexivity|]). discriminate. }
  eval_grp. fin.
Qed.
