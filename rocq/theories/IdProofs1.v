(** Lemmas about IdSpec, part 1: packTupleID on the written identifiers. *)
From Verif Require Import PackUtil PackProofs8.
From Verif Require Import PackProofs3.
From Verif Require Import IdSpec.

Lemma four_inv y : four y -> exists a b c d, y = [a; b; c; d] /\ isdig a = true /\ isdig b = true /\ isdig c = true /\ isdig d = true /\
  decval [a; b] = decval y / 100 /\ decval [c; d] = decval y mod 100 /\ 0 <= decval y <= 9999.
Proof.
  intros [H L]. destruct y as [|a [|b [|c [|d [|]]]]]; try discriminate L. exists a, b, c, d. split; [reflexivity|].
  apply alldig_cons in H as [Ha H]. apply alldig_cons in H as [Hb H]. apply alldig_cons in H as [Hc H]. apply alldig_cons in H as [Hd _].
  repeat (split; [assumption|]).
  assert (0 <= digval a <= 9 /\ 0 <= digval b <= 9 /\ 0 <= digval c <= 9 /\ 0 <= digval d <= 9) as B.
  { assert (forall x, isdig x = true -> 0 <= digval x <= 9) as D.
    { intros x Hx. pose proof (decval_bound [x] ltac:(apply alldig_cons; split; [assumption|reflexivity])) as B. rewrite decval1 in B. cbn in B. lia. }
    auto. }
  rewrite !decval_cons. change (decval []) with 0. cbn [length]. change (10 ^ Z.of_nat 3) with 1000. change (10 ^ Z.of_nat 2) with 100.
  change (10 ^ Z.of_nat 1) with 10. change (10 ^ Z.of_nat 0) with 1. lia.
Qed.
Definition packs (r : res str) : Prop := exists c, r = Ok c.
Lemma nn w : alldig w = true -> 0 <= decval w.
Proof. intro H. pose proof (decval_bound w H). lia. Qed.
Lemma not_packs e : ~ packs (Err e).
Proof. intros [c H]. discriminate H. Qed.

(** ** permanent *)
Lemma pdi t : In t ["I"; "P"; "D"]%char -> incls k_pdi t = true.
Proof. intros [<-|[<-|[<-|[]]]]; reflexivity. Qed.
Lemma perm_ok s pp kp fp : pack_perm (Some s) = Ok (Pk (Some pp) (Some kp) fp) -> (kp = KF -> fp <> None) -> packs (packTupleID (Some s, None, None)).
Proof.
  intros E N. unfold packTupleID. cbn [fst snd]. rewrite E. cbn [rbind pack_prov pack_trk pk_s pk0]. unfold pack_join. cbn [pk_s pk_t pk_f pk0 otrue].
  destruct (okind_eqb _ _) eqn:K; [|eexists; reflexivity].
  destruct fp; [eexists; reflexivity|]. destruct kp; try discriminate K. now exfalso; apply N.
Qed.
Lemma perm_no s e : pack_perm (Some s) = Err e -> ~ packs (packTupleID (Some s, None, None)).
Proof. intros E. unfold packTupleID. rewrite E. apply not_packs. Qed.
Lemma dig_num w : digits w -> alldig w = true /\ w <> [].
Proof. auto. Qed.
Lemma pack_perm_mars s : alldig s = true -> s <> [] -> pack_perm (Some ($"Mars " ++ s)) = Err RuntimeError.
Proof.
  intros Hd Hn. perm_eval [ch "M"; ch "a"; ch "r"; ch "s"; sp; dgs s]. reflexivity.
Qed.
Lemma perm_packs i : perm_shaped i -> (packs (packTupleID (Some (perm_written i), None, None)) <-> perm_packable i).
Proof.
  destruct i as [w|w t f|q w|w n]; cbn [perm_shaped perm_written perm_packable].
  - intros [Hd Hn]. fold (alldig w) in Hd. pose proof (pack_perm_num w Hd Hn) as E.
    destruct ((decval w >? 0) && (decval w <? 15396336)) eqn:B.
    + split; [intros _; lia|intros _]. destruct (decval w <? 620000); (eapply perm_ok; [exact E|discriminate]).
    + split; [intro H; exfalso; exact (perm_no _ _ E H)|intro; lia].
  - intros ([Hd Hn] & Ht & Hf & L). fold (alldig w) in Hd. apply pdi in Ht. pose proof (nn w Hd).
    destruct f as [|a f].
    + cbn [app]. pose proof (pack_perm_comet w t Hd Hn Ht) as E.
      destruct (Z.gtb_spec (decval w) 9999); [split; [intro Q; exfalso; exact (perm_no _ _ E Q)|lia]|].
      destruct (Z.eqb_spec (decval w) 0); [split; [intro Q; exfalso; exact (perm_no _ _ E Q)|lia]|].
      split; [lia|intros _]. eapply perm_ok; [exact E|discriminate].
    + pose proof (pack_perm_cometfrag w t (a :: f) Hd Hn Ht Hf ltac:(cbn [length] in L |- *; lia)) as E.
      change (match a :: f with [] => [] | _ :: _ => $"-" ++ a :: f end) with ($"-" ++ a :: f).
      destruct (Z.gtb_spec (decval w) 9999); [split; [intro Q; exfalso; exact (perm_no _ _ E Q)|lia]|].
      destruct (Z.eqb_spec (decval w) 0); [split; [intro Q; exfalso; exact (perm_no _ _ E Q)|lia]|].
      split; [lia|intros _]. eapply perm_ok; [exact E|discriminate].
  - intros (Hq & Hd & Hn). fold (alldig w) in Hd. pose proof (nn w Hd).
    assert (q = $"Mars" \/ exists c, planet c = Some q) as [->|[c Hc]].
    { destruct Hq as [<-|[<-|[<-|[<-|[<-|[]]]]]]; [left; reflexivity| | | |]; right;
        [exists "J"%char|exists "S"%char|exists "U"%char|exists "N"%char]; reflexivity. }
    + pose proof (pack_perm_mars w Hd Hn) as E. change ($"Mars" ++ $" " ++ w) with ($"Mars " ++ w).
      split; [intro Q; exfalso; exact (perm_no _ _ E Q)|intros [Q _]; exfalso; now apply Q].
    + pose proof (pack_perm_sat w c q Hd Hn Hc) as E.
      destruct (Z.gtb_spec (decval w) 999); [split; [intro Q; exfalso; exact (perm_no _ _ E Q)|lia]|].
      destruct (Z.eqb_spec (decval w) 0); [split; [intro Q; exfalso; exact (perm_no _ _ E Q)|lia]|].
      split; [intros _; split; [|lia]|intros _; eapply perm_ok; [exact E|discriminate]].
      intros ->. clear E. revert Hc. unfold planet. destruct (ceqb c "J"); [intro Q; discriminate Q|].
      destruct (ceqb c "S"); [intro Q; discriminate Q|]. destruct (ceqb c "U"); [intro Q; discriminate Q|]. destruct (ceqb c "N"); intro Q; discriminate Q.
  - intros ([Hd Hn] & Hd' & Hn'). split; [|tauto]. intro Q. exact (perm_no _ _ (pack_perm_astsat w n Hd Hn Hd' Hn') Q).
Qed.

(** ** provisional *)
Lemma prov_ok s pp kp fp : pack_prov (Some s) = Ok (Pk (Some pp) (Some kp) fp) -> packs (packTupleID (None, Some s, None)).
Proof.
  intros E. unfold packTupleID. cbn [fst snd rbind pack_perm]. rewrite E. cbn [rbind pack_trk pk_s pk0]. unfold pack_join. cbn [pk_s pk_t pk_f pk0 otrue].
  eexists; reflexivity.
Qed.
Lemma prov_no s e : pack_prov (Some s) = Err e -> ~ packs (packTupleID (None, Some s, None)).
Proof. intros E. unfold packTupleID. cbn [pack_perm rbind]. rewrite E. apply not_packs. Qed.

Lemma des_eval a b c d h o s : isdig a = true -> isdig b = true -> isdig c = true -> isdig d = true ->
  half_month h = true -> order_letter o = true -> alldig s = true ->
  exists r, pack_prov (Some ([a; b; c; d] ++ $" " ++ [h; o] ++ s)) =
    if (decval [a; b] <? 18) || (decval [a; b] >? 61) then Err RuntimeError
    else if decval s <=? 619 then Ok (Pk (Some (" "%char :: r)) (Some KA) None)
    else if (decval s >? 591673) || ((decval s =? 591673) && (order_rank o >? 10)) then Err RuntimeError
    else if decval [c; d] <? 62 then Ok (Pk (Some (" "%char :: r)) (Some KA) None)
    else Err IndexError.
Proof.
  intros Ha Hb Hc Hd Hh Ho Hs. pose proof (order_find o Ho) as [Hof _]. rewrite <- k_hm_eq in Hh. rewrite <- k_or_eq in Ho.
  pose proof (dn2 c d Hc Hd) as Bc. pose proof (dn2 a b Ha Hb) as Ba.
  destruct s as [|c0 s0].
  - cbn [app lit list_ascii_of_string]. eexists. prov_eval [dg a; dg b; dg c; dg d; sp; pc k_hm h; pc k_or o].
    destruct ((decval [a; b] <? 18) || (decval [a; b] >? 61)) eqn:E; [reflexivity|].
    eval_grp. change (decval []) with 0. cbn [Z.leb Z.compare]. rewrite index_letter by (cbn; lia). eval_grp.
    rewrite index_letter by lia. eval_grp. reflexivity.
  - remember (c0 :: s0) as s eqn:Es. assert (s <> []) as Hn by (rewrite Es; discriminate). pose proof (nn s Hs) as Bs.
    cbn [app lit list_ascii_of_string]. destruct (Z.leb_spec (decval s) 619) as [L|L].
    + eexists. prov_eval [dg a; dg b; dg c; dg d; sp; pc k_hm h; pc k_or o; dgs s].
      destruct ((decval [a; b] <? 18) || (decval [a; b] >? 61)) eqn:E; [reflexivity|].
      eval_grp. rewrite Es. eval_grp. rewrite <- Es. destruct (Z.leb_spec (decval s) 619); [|lia].
      rewrite index_letter by lia. eval_grp. rewrite index_letter by lia. eval_grp. reflexivity.
    + eexists. prov_eval [dg a; dg b; dg c; dg d; sp; pc k_hm h; pc k_or o; dgs s].
      destruct ((decval [a; b] <? 18) || (decval [a; b] >? 61)) eqn:E; [reflexivity|].
      eval_grp. rewrite Es. eval_grp. rewrite <- Es. destruct (Z.leb_spec (decval s) 619); [lia|]. eval_grp. rewrite Hof.
      destruct ((decval s >? 591673) || ((decval s =? 591673) && (order_rank o >? 10))); [reflexivity|].
      destruct (Z.ltb_spec (decval [c; d]) 62).
      * rewrite index_letter by lia. eval_grp. reflexivity.
      * rewrite index_big by lia. reflexivity.
Qed.

Lemma comet_eval t a b c d h o s : incls k_ct t = true -> isdig a = true -> isdig b = true -> isdig c = true -> isdig d = true ->
  isupper h = true -> capital o -> alldig s = true ->
  exists x y k, pack_prov (Some ([t] ++ $"/" ++ [a; b; c; d] ++ $" " ++ [h] ++ letter_of o ++ s)) =
    if decval s / 10 >? 61 then Err RuntimeError
    else if decval [a; b] <? 62 then Ok (Pk (Some (x :: y)) (Some k) None) else Err IndexError.
Proof.
  intros Ht Ha Hb Hc Hd Hh Ho Hs. rewrite <- k_up_eq in Hh. pose proof (dn2 a b Ha Hb) as Ba. pose proof (nn s Hs) as Bs.
  assert (py_int [a; b] = Ok (decval [a; b])) as Eab by (apply py_int_digits; [now apply alldig2'|discriminate]).
  pose proof (py_int_0w s Hs) as E0n.
  Ltac ctail' E0n Eab s a b := rewrite E0n; cbn [rbind];
    destruct (decval s / 10 >? 61) eqn:?; [reflexivity|]; cbn [rbind];
    change (slice 0 2 [a; b; _; _]) with [a; b]; rewrite Eab; cbn [rbind];
    rewrite index_letter' by lia; unfold okletter; destruct (Z.ltb_spec (decval [a; b]) 62); [|reflexivity];
    cbn [rbind]; rewrite index_letter by lia; cbn [rbind]; rewrite index_letter by lia; cbn [rbind]; reflexivity.
  destruct s as [|c0 s0].
  - rewrite app_nil_r. destruct o as [o|]; cbn [letter_of].
    + cbn [capital] in Ho. rewrite <- k_up_eq in Ho. do 3 eexists.
      prov_eval [pc k_ct t; ch "/"; dg a; dg b; dg c; dg d; sp; pc k_up h; pc k_up o]. ctail' E0n Eab (@nil ascii) a b.
    + do 3 eexists. prov_eval [pc k_ct t; ch "/"; dg a; dg b; dg c; dg d; sp; pc k_up h]. ctail' E0n Eab (@nil ascii) a b.
  - remember (c0 :: s0) as s eqn:Es. assert (s <> []) as Hn by (rewrite Es; discriminate). clear Es.
    destruct o as [o|]; cbn [letter_of].
    + cbn [capital] in Ho. rewrite <- k_up_eq in Ho. do 3 eexists.
      prov_eval [pc k_ct t; ch "/"; dg a; dg b; dg c; dg d; sp; pc k_up h; pc k_up o; dgs s]. ctail' E0n Eab s a b.
    + do 3 eexists. prov_eval [pc k_ct t; ch "/"; dg a; dg b; dg c; dg d; sp; pc k_up h; dgs s]. ctail' E0n Eab s a b.
Qed.

Definition k_cf' : cls := Cl false [("C", "C"); ("D", "D"); ("P", "P"); ("X", "X")]%char.
(** fragments: only the one-letter kind with a number, not for A/ *)
Lemma frag_eval t a b c d h o s f : incls k_ct t = true -> isdig a = true -> isdig b = true -> isdig c = true -> isdig d = true ->
  isupper h = true -> capital o -> alldig s = true -> isupper f = true ->
  exists x y k g, pack_prov (Some ([t] ++ $"/" ++ [a; b; c; d] ++ $" " ++ [h] ++ letter_of o ++ s ++ $"-" ++ [f])) =
    if ceqb t "A" then Err RuntimeError
    else match o, s with
         | None, _ :: _ => if decval s / 10 >? 61 then Err RuntimeError
             else if decval [a; b] <? 62 then Ok (Pk (Some (x :: y)) (Some k) g) else Err IndexError
         | None, [] => Err ValueError
         | _, _ => Err RuntimeError
         end.
Proof.
  intros Ht Ha Hb Hc Hd Hh Ho Hs Hf. rewrite <- k_up_eq in Hh, Hf. pose proof (dn2 a b Ha Hb) as Ba. pose proof (nn s Hs) as Bs.
  assert (py_int [a; b] = Ok (decval [a; b])) as Eab by (apply py_int_digits; [now apply alldig2'|discriminate]).
  destruct (ceqb t "A") eqn:EA.
  - apply ceqb_eq in EA. subst t. exists " "%char, [], KA, None.
    destruct s as [|c0 s0]; [|remember (c0 :: s0) as s eqn:Es; assert (s <> []) as Hn by (rewrite Es; discriminate); clear Es];
      (destruct o as [o|]; cbn [letter_of app lit list_ascii_of_string]; [cbn [capital] in Ho; rewrite <- k_up_eq in Ho|]).
    + prov_eval [ch "A"; ch "/"; dg a; dg b; dg c; dg d; sp; pc k_up h; pc k_up o; ch "-"; pc k_up f]. reflexivity.
    + prov_eval [ch "A"; ch "/"; dg a; dg b; dg c; dg d; sp; pc k_up h; ch "-"; pc k_up f]. reflexivity.
    + prov_eval [ch "A"; ch "/"; dg a; dg b; dg c; dg d; sp; pc k_up h; pc k_up o; dgs s; ch "-"; pc k_up f]. reflexivity.
    + prov_eval [ch "A"; ch "/"; dg a; dg b; dg c; dg d; sp; pc k_up h; dgs s; ch "-"; pc k_up f]. reflexivity.
  - assert (incls k_cf t = true) as Ht'.
    { assert (forall t, implb (incls k_ct t && negb (ceqb t "A")) (incls k_cf t) = true) as Q by (apply forall_ascii; vm_compute; reflexivity).
      specialize (Q t). rewrite Ht, EA in Q. exact Q. }
    clear Ht. destruct s as [|c0 s0]; (destruct o as [o|]; cbn [letter_of app lit list_ascii_of_string]; [cbn [capital] in Ho; rewrite <- k_up_eq in Ho|]).
    + exists " "%char, [], KA, None. prov_eval [pc k_cf t; ch "/"; dg a; dg b; dg c; dg d; sp; pc k_up h; pc k_up o; ch "-"; pc k_up f]. reflexivity.
    + exists " "%char, [], KA, None. prov_eval [pc k_cf t; ch "/"; dg a; dg b; dg c; dg d; sp; pc k_up h; ch "-"; pc k_up f]. reflexivity.
    + change (c0 :: s0 ++ ["-"%char; f]) with ((c0 :: s0) ++ ["-"%char; f]).
      remember (c0 :: s0) as s eqn:Es. assert (s <> []) as Hn by (rewrite Es; discriminate). clear Es.
      exists " "%char, [], KA, None.
      prov_eval [pc k_cf t; ch "/"; dg a; dg b; dg c; dg d; sp; pc k_up h; pc k_up o; dgs s; ch "-"; pc k_up f]. reflexivity.
    + change (c0 :: s0 ++ ["-"%char; f]) with ((c0 :: s0) ++ ["-"%char; f]).
      remember (c0 :: s0) as s eqn:Es. assert (s <> []) as Hn by (rewrite Es; discriminate). clear Es.
      do 4 eexists. prov_eval [pc k_cf t; ch "/"; dg a; dg b; dg c; dg d; sp; pc k_up h; dgs s; ch "-"; pc k_up f].
      destruct (decval s / 10 >? 61) eqn:?; [reflexivity|]; cbn [rbind].
      change (slice 0 2 [a; b; c; d]) with [a; b]; rewrite Eab; cbn [rbind].
      rewrite index_letter' by lia; unfold okletter; destruct (Z.ltb_spec (decval [a; b]) 62); [|reflexivity].
      cbn [rbind]; rewrite index_letter by lia; cbn [rbind]; rewrite index_letter by lia; cbn [rbind]. reflexivity.
Qed.

Lemma moon_eval a b c d q s : isdig a = true -> isdig b = true -> isdig c = true -> isdig d = true ->
  incls k_pl q = true -> alldig s = true -> s <> [] ->
  exists y, pack_prov (Some ($"S/" ++ [a; b; c; d] ++ $" " ++ [q] ++ $" " ++ s)) =
    if decval s / 10 >? 61 then Err RuntimeError else if decval s =? 0 then Err RuntimeError
    else if decval [a; b] <? 62 then Ok (Pk (Some ("S"%char :: y)) (Some KS) None) else Err IndexError.
Proof.
  intros Ha Hb Hc Hd Hq Hs Hn. pose proof (dn2 a b Ha Hb) as Ba. pose proof (nn s Hs) as Bs.
  assert (py_int [a; b] = Ok (decval [a; b])) as Eab by (apply py_int_digits; [now apply alldig2'|discriminate]).
  eexists. prov_eval [ch "S"; ch "/"; dg a; dg b; dg c; dg d; sp; pc k_pl q; sp; dgs s].
  destruct (decval s / 10 >? 61) eqn:?; [reflexivity|]; cbn [rbind].
  destruct (decval s =? 0) eqn:?; [reflexivity|].
  change (slice 0 2 [a; b; c; d]) with [a; b]; rewrite Eab; cbn [rbind].
  rewrite index_letter' by lia; unfold okletter; destruct (Z.ltb_spec (decval [a; b]) 62); [|reflexivity].
  cbn [rbind]; rewrite index_letter by lia; cbn [rbind]; rewrite index_letter by lia; cbn [rbind]. reflexivity.
Qed.
Lemma mars_eval a b c d s : isdig a = true -> isdig b = true -> isdig c = true -> isdig d = true -> alldig s = true -> s <> [] ->
  pack_prov (Some ($"S/" ++ [a; b; c; d] ++ $" " ++ ["M"%char] ++ $" " ++ s)) = Err RuntimeError.
Proof.
  intros Ha Hb Hc Hd Hs Hn. prov_eval [ch "S"; ch "/"; dg a; dg b; dg c; dg d; sp; ch "M"; sp; dgs s]. reflexivity.
Qed.
Lemma body_eval a b c d w s : isdig a = true -> isdig b = true -> isdig c = true -> isdig d = true -> body w -> alldig s = true -> s <> [] ->
  pack_prov (Some ($"S/" ++ [a; b; c; d] ++ $" (" ++ w ++ $") " ++ s)) = Err RuntimeError.
Proof.
  intros Ha Hb Hc Hd B Hs Hn. destruct B as [w [Hw Hw']|y h o w Hy Hh Ho [Hw Hw']]; fold (alldig w) in Hw.
  - prov_eval [ch "S"; ch "/"; dg a; dg b; dg c; dg d; sp; ch "("; dgs w; ch ")"; sp; dgs s]. reflexivity.
  - apply four_inv in Hy as (a' & b' & c' & d' & -> & Ha' & Hb' & Hc' & Hd' & _). rewrite <- k_hm_eq in Hh.
    destruct o as [o|]; cbn [letter_of].
    + rewrite <- k_or_eq in Ho. rewrite <- !app_assoc. cbn [app lit list_ascii_of_string].
      prov_eval [ch "S"; ch "/"; dg a; dg b; dg c; dg d; sp; ch "("; dg a'; dg b'; dg c'; dg d'; sp; pc k_hm h; pc k_or o; dgs w; ch ")"; sp; dgs s]. reflexivity.
    + rewrite <- !app_assoc. cbn [app lit list_ascii_of_string].
      prov_eval [ch "S"; ch "/"; dg a; dg b; dg c; dg d; sp; ch "("; dg a'; dg b'; dg c'; dg d'; sp; pc k_hm h; dgs w; ch ")"; sp; dgs s]. reflexivity.
Qed.

Ltac refused E := let Q0 := fresh in split; [intro Q0; exfalso; exact (prov_no _ _ E Q0)|].
Lemma prov_packs i : prov_shaped i -> (packs (packTupleID (None, Some (prov_written i), None)) <-> prov_packable i).
Proof.
  destruct i as [y h o w|y s1 s2|t y h o w f|y q w|y b w]; cbn [prov_shaped prov_written prov_packable].
  - intros (Hy & Hh & Ho & Hw). apply four_inv in Hy as (a & b & c & d & Ey & Ha & Hb & Hc & Hd & V1 & V2 & B).
    destruct (des_eval a b c d h o w Ha Hb Hc Hd Hh Ho Hw) as [r E]. rewrite <- Ey in E. unfold ext_limit.
    rewrite V1, V2 in E. clear V1 V2 Ey Ha Hb Hc Hd.
    destruct ((decval y / 100 <? 18) || (decval y / 100 >? 61)) eqn:C1; [refused E; lia|].
    destruct (Z.leb_spec (decval w) 619); [split; [intros _; lia|intros _; eapply prov_ok; exact E]|].
    destruct ((decval w >? 591673) || ((decval w =? 591673) && (order_rank o >? 10))) eqn:C2; [refused E; lia|].
    destruct (Z.ltb_spec (decval y mod 100) 62); [split; [intros _; lia|intros _; eapply prov_ok; exact E]|refused E; lia].
  - intros (Hy & Hs). apply four_inv in Hy as (a & b & c & d & -> & Ha & Hb & Hc & Hd & _).
    split; [easy|intros _]. eapply prov_ok. exact (pack_prov_survey a b c d s1 s2 Ha Hb Hc Hd Hs).
  - intros (Ht & Hy & Hh & Ho & Hw & Hf). fold (alldig w) in Hw. pose proof (nn w Hw).
    assert (incls k_ct t = true) as Ht' by (destruct Ht as [<-|[<-|[<-|[<-|[<-|[]]]]]]; reflexivity).
    apply four_inv in Hy as (a & b & c & d & Ey & Ha & Hb & Hc & Hd & V1 & V2 & B).
    destruct f as [f|].
    + cbn [capital] in Hf. destruct (frag_eval t a b c d h o w f Ht' Ha Hb Hc Hd Hh Ho Hw Hf) as (x & z & k & g & E). rewrite <- Ey in E.
      rewrite V1 in E. clear V1 V2 Ey Ha Hb Hc Hd.
      destruct (ceqb t "A") eqn:EA.
      { apply ceqb_eq in EA. refused E. intros (_ & _ & Q). exfalso. now apply (proj1 (Q ltac:(discriminate))). }
      assert (t <> "A"%char) as NA by (intro Q; apply ceqb_eq in Q; congruence).
      destruct o as [o|]. { refused E. intros (_ & _ & Q). destruct (Q ltac:(discriminate)) as (_ & Q' & _). discriminate Q'. }
      destruct w as [|c0 w0]. { refused E. intros (_ & _ & Q). destruct (Q ltac:(discriminate)) as (_ & _ & Q'). now destruct Q'. }
      destruct (Z.gtb_spec (decval (c0 :: w0) / 10) 61); [refused E; lia|].
      destruct (Z.ltb_spec (decval y / 100) 62); [|refused E; lia].
      split; [intros _|intros _; eapply prov_ok; exact E]. split; [lia|]. split; [lia|]. intros _. split; [exact NA|]. split; [reflexivity|discriminate].
    + destruct (comet_eval t a b c d h o w Ht' Ha Hb Hc Hd Hh Ho Hw) as (x & z & k & E). rewrite <- Ey in E.
      rewrite V1 in E. clear V1 V2 Ey Ha Hb Hc Hd. rewrite app_nil_r.
      destruct (Z.gtb_spec (decval w / 10) 61); [refused E; lia|].
      destruct (Z.ltb_spec (decval y / 100) 62); [|refused E; lia].
      split; [intros _|intros _; eapply prov_ok; exact E]. split; [lia|]. split; [lia|]. intros Q. now destruct Q.
  - intros (Hy & Hq & Hw & Hw'). fold (alldig w) in Hw. pose proof (nn w Hw).
    apply four_inv in Hy as (a & b & c & d & Ey & Ha & Hb & Hc & Hd & V1 & V2 & B).
    assert (q = "M"%char \/ (q <> "M"%char /\ incls k_pl q = true)) as [->|[NM Hq']].
    { destruct Hq as [<-|[<-|[<-|[<-|[<-|[]]]]]]; [left; reflexivity| | | |]; right; (split; [intro Q; discriminate Q|reflexivity]). }
    + pose proof (mars_eval a b c d w Ha Hb Hc Hd Hw Hw') as E. rewrite <- Ey in E. refused E. intros (_ & Q & _). now destruct Q.
    + destruct (moon_eval a b c d q w Ha Hb Hc Hd Hq' Hw Hw') as (z & E). rewrite <- Ey in E.
      rewrite V1 in E. clear V1 V2 Ey Ha Hb Hc Hd.
      destruct (Z.gtb_spec (decval w / 10) 61); [refused E; lia|].
      destruct (Z.eqb_spec (decval w) 0); [refused E; lia|].
      destruct (Z.ltb_spec (decval y / 100) 62); [|refused E; lia].
      split; [intros _|intros _; eapply prov_ok; exact E]. split; [lia|]. split; [exact NM|]. lia.
  - intros (Hy & Hb & Hw & Hw'). fold (alldig w) in Hw.
    apply four_inv in Hy as (a & b' & c & d & -> & Ha & Hb' & Hc & Hd & _).
    pose proof (body_eval a b' c d b w Ha Hb' Hc Hd Hb Hw Hw') as E. refused E. tauto.
Qed.
