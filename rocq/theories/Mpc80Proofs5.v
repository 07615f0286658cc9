From Verif Require Import FmtRe PyStrProofs PackProofs13 PackProofs14 PackProofs12 PsvLines.
From Verif Require Import Mpc80.
From Verif Require Export Mpc80Proofs4.
Local Open Scope nat_scope.

(** * The exceptions decode80 can raise *)
Definition tamer {A} (r : res A) : Prop := forall e, r = Err e -> tame e.
Lemma tamer_bind {A B} (r : res A) (f : A -> res B) : tamer r -> (forall a, r = Ok a -> tamer (f a)) -> tamer (rbind r f).
Proof. intros H1 H2 e. destruct r as [a|e']; cbn [rbind]; [now apply H2|]. intros H. apply H1. congruence. Qed.
Lemma tamer_ok {A} (a : A) : tamer (Ok a).
Proof. intros e H. discriminate. Qed.
Lemma tamer_err {A} e : tame e -> tamer (@Err A e).
Proof. intros T e' H. congruence. Qed.
Lemma tame_r : tame RuntimeError. Proof. left. reflexivity. Qed.
Lemma tame_v : tame ValueError. Proof. right. left. reflexivity. Qed.
Lemma tame_o : tame OverflowError. Proof. right. right. reflexivity. Qed.
#[local] Hint Resolve tamer_ok tamer_err tame_r tame_v tame_o : tame.
Lemma tame_int s : tamer (py_int s).
Proof. unfold py_int. destruct (pyint s); auto with tame. Qed.
Lemma tame_float s : tamer (pyfloat s).
Proof. unfold pyfloat. destruct (match strip s with [] => _ | _ => _ end) as [n u]. destruct (float_mag u); auto with tame. Qed.
#[local] Hint Resolve tame_int tame_float : tame.
Ltac tbind := apply tamer_bind; [auto with tame|intros ? ?].
Lemma tame_sexag s : tamer (checkSexagesimal s).
Proof.
  unfold checkSexagesimal, checks, first_check.
  repeat match goal with |- tamer (match ?m with _ => _ end) => destruct m end; auto with tame;
  unfold actionNormal, actionIntegerSeconds, actionMinutesHundredths, actionMinutesTenths, actionIntegerMinutes;
  repeat tbind; auto with tame.
Qed.
Lemma tame_seconds x p : tamer (seconds_text x p).
Proof. unfold seconds_text. destruct (Qle_bool _ _); auto with tame. destruct (_ <? _)%Z; auto with tame. Qed.
#[local] Hint Resolve tame_sexag tame_seconds : tame.
Lemma tame_ra s : tamer (checkRa s).
Proof.
  unfold checkRa. apply tamer_bind.
  - unfold sexRaToDecRa. tbind. destruct a as [[[? ?] ?] ?]. auto with tame.
  - intros [d p] _. apply tamer_bind.
    + unfold decRaToSexRa. tbind. apply tamer_bind; [|auto with tame].
      destruct (feqb _ _); [auto with tame|]. destruct (feqb _ _); [auto with tame|]. destruct (feqb _ _); [auto with tame|].
      tbind. auto with tame.
    + intros r _. destruct (streqb _ _); auto with tame.
Qed.
Lemma tame_dec c s : tamer (checkDec (c :: s)).
Proof.
  unfold checkDec. apply tamer_bind.
  - unfold sexDeclToDecDecl. destruct (negb _); auto with tame. tbind. destruct a as [[[? ?] ?] ?]. auto with tame.
  - intros [d p] _. apply tamer_bind.
    + unfold degDeclToSexDecl. tbind. match goal with |- context [let '(a, b) := ?x in _] => destruct x end. apply tamer_bind; [|auto with tame].
      destruct (feqb _ _); [auto with tame|]. destruct (feqb _ _); [auto with tame|]. destruct (feqb _ _); [auto with tame|].
      tbind. auto with tame.
    + intros r _. destruct (streqb _ _); auto with tame.
Qed.
Lemma tame_mkdate y m d : tamer (mk_date y m d).
Proof. unfold mk_date. destruct (_ && _); auto with tame. Qed.
Lemma tame_adddays n : forall t, tamer (add_days n t).
Proof.
  induction n as [|n IH]; intros t; cbn [add_days]; auto with tame. apply tamer_bind; auto.
  unfold next_day. destruct (_ <? _)%Z; auto with tame. destruct (_ <? _)%Z; auto with tame. destruct (_ <? _)%Z; auto with tame.
Qed.
Lemma tame_strptime r s : tamer (strptime r s).
Proof.
  unfold strptime. destruct (re_match r s); auto with tame. destruct (negb _); auto with tame.
  do 6 tbind. apply tamer_bind; [apply tame_mkdate|]. intros t _. destruct (_ <? _)%Z; auto with tame.
Qed.
Lemma splitc_point a b : exists x y t, splitc "." (a ++ "."%char :: b) = x :: y :: t.
Proof.
  induction a as [|c a IH]; cbn [app splitc].
  - change (ceqb "." ".") with true. cbv iota. pose proof (splitc_ne "." b). destruct (splitc "." b); [contradiction|]. eauto.
  - destruct IH as (x & y & t & E). rewrite E. destruct (ceqb c "."); eauto.
Qed.
Lemma tame_date s radar : tamer (checkDate s radar).
Proof.
  unfold checkDate. apply tamer_bind.
  - unfold sexDateToISO. destruct (re_match re_date s); auto with tame. do 4 tbind.
    apply tamer_bind; [apply tame_mkdate|]. intros dt _. apply tamer_bind.
    + unfold add_us. apply tamer_bind; [apply tame_adddays|]. auto with tame.
    + intros [t us] _. auto with tame.
  - intros [[iso p] fr] _. destruct (fltb _ _); auto with tame. apply tamer_bind.
    + unfold isoToSexDate. apply tamer_bind.
      * destruct (strptime re_isof iso) as [x|e]; auto with tame. apply tame_strptime.
      * intros [t us] _. destruct (Qle_bool _ _); auto with tame.
        set (n := if (6 - int_log10 (fmag (prec_fl p)) <=? 0)%Z then 1%Z else (6 - int_log10 (fmag (prec_fl p)))%Z).
        assert (1 <= Z.to_nat n) as N.
        { subst n. destruct (_ <=? 0)%Z eqn:E; [cbn; lia|]. apply Z.leb_gt in E. lia. }
        destruct (Z.to_nat n) as [|n'] eqn:NE; [lia|]. unfold fmtf.
        match goal with |- context [splitc "." (?a ++ ?b ++ ?c)] => 
          destruct (splitc_point (a ++ b) (zfill (S n') (dec (rheQ (fmag (fadd (fdiv (of_Z (us / 1000000)) (of_Z 86400)) (fdiv (fdiv (of_Z (us mod 1000000)) (of_Z 86400)) (of_Z 1000000))) * inject_Z (10 ^ Z.of_nat (S n')))%Q mod 10 ^ Z.of_nat (S n'))%Z))) as (x & y & tl & E) end.
        rewrite <- app_assoc in E. change ($"." ++ ?z) with ("."%char :: z). 
        rewrite E. auto with tame.
    + intros r _. destruct (streqb _ _); auto with tame.
Qed.
Lemma tame_unpack_id s : tamer (unpackPackedID s).
Proof. intros e H. pose proof (unpack_safe s) as S. rewrite H in S. left. exact S. Qed.
Lemma tame_tail l D : tamer (tail_checks l D).
Proof.
  unfold tail_checks. destruct (negb _); auto with tame. apply tamer_bind; [apply tame_unpack_id|].
  intros [[a b] c] _. auto with tame.
Qed.
Lemma tame_just s l j d : tamer (applyPaddingAndJustification s l j d).
Proof.
  unfold applyPaddingAndJustification. repeat (destruct (streqb j _); auto with tame).
  unfold just_decimal. destruct (_ <? _)%Z; auto with tame. apply tamer_bind.
  - destruct (splitc "." s) as [|a [|b [|c t]]]; auto with tame.
  - intros [a b] _. auto with tame.
Qed.
Lemma tame_unpack c v L D : tamer (unPackSigned (c :: v) L D).
Proof.
  unfold unPackSigned. destruct (isdig c); (destruct (negb _); apply tamer_bind; [apply tame_just|intros [[? ?] ?] _; auto with tame|apply tame_just|intros [[? ?] ?] _; auto with tame]).
Qed.
Lemma tame_misplaced w v dp : w <> [] -> (forall c u, w = c :: u -> ceqb c " " = false) -> packSigned w = Ok v -> tamer (misplaced w v dp).
Proof.
  intros N S P. destruct w as [|c u]; [contradiction|]. rewrite signed_ok in P. rewrite (S c u eq_refl) in P.
  apply Ok_inj' in P. subst v. unfold misplaced. apply tamer_bind; [apply tame_unpack|auto with tame].
Qed.
Lemma sign_col l a : length l = 80 -> fitp (flat satellite_layout) l = true -> a = 35 \/ a = 47 \/ a = 59 ->
  forall c u, cols a (a + 10) l = c :: u -> ceqb c " " = false.
Proof.
  intros L F A c u E. assert (forallb (one_of $"+-") (cols a a l) = true) as S.
  { destruct A as [->|[->| ->]]; fclass F. }
  assert (cols a a l = [c]) as C.
  { rewrite <- (cols_app a a (a + 10) l) in E by lia. pose proof (cols_length a a l) as LL.
    destruct (cols a a l) as [|c0 [|]]; cbn in LL; try lia. cbn [app] in E. now injection E as -> _. }
  rewrite C in S. cbn [forallb] in S. rewrite andb_true_r in S. revert c S E C.
  assert (forall c, implb (one_of $"+-" c) (negb (ceqb c " ")) = true) as H by (apply forall_ascii; vm_compute; reflexivity).
  intros c S _ _. specialize (H c). rewrite S in H. now apply negb_true_iff in H.
Qed.
Lemma cols_ne a b l : 1 <= a -> a <= b -> b <= length l -> cols a b l <> [].
Proof. intros A B C E. pose proof (cols_length a b l A B C) as H. rewrite E in H. cbn in H. lia. Qed.
Theorem decode_tame l e : ~ In nl l -> decode80 l = Err e -> tame e.
Proof.
  intros NL.
  destruct (le_lt_dec (length l) 80) as [Le|Gt]; [|intros H; rewrite decode80_long in H by auto; injection H as <-; auto with tame].
  destruct l as [|c0 l0]; [discriminate|].
  destruct (is_header (c0 :: l0)) eqn:HD; [rewrite decode80_header by auto; discriminate|].
  destruct (Nat.eq_dec (length (c0 :: l0)) 80) as [L|L]; [|rewrite decode80_short by (auto; discriminate); intros H; injection H as <-; auto with tame].
  set (l := c0 :: l0) in *. clearbody l. rewrite decode80_data by auto. revert e.
  change (tamer (rbind (decode_data l) decode_checks)).
  destruct (fitp (flat optical_layout) l) eqn:F1.
  { rewrite data_optical, normal_eq by auto. apply tamer_bind.
    - apply tamer_bind; [apply tame_date|]. intros [t p] _. apply tamer_bind; [apply tame_ra|]. intros [ra pra] _.
      assert (cols 45 56 l <> []) as NE by (apply cols_ne; lia). destruct (cols 45 56 l) as [|c u]; [contradiction|]. apply tamer_bind; [apply tame_dec|]. intros [de pde] _. auto with tame.
    - intros D H. destruct (checkDate (cols 16 32 l) false) as [[t p]|e] eqn:DE; cbn [rbind] in H; [|discriminate].
      destruct (checkRa (cols 33 44 l)) as [[ra pra]|e] eqn:R; cbn [rbind] in H; [|discriminate].
      destruct (checkDec (cols 45 56 l)) as [[de pde]|e] eqn:DD; cbn [rbind] in H; [|discriminate].
      apply Ok_inj' in H. subst D. rewrite optical_checks; auto; [apply tame_tail|eapply codeok_of; [exact F1|reflexivity..]]. }
  destruct (fitp (flat radar1_layout) l) eqn:F2.
  { rewrite data_radar1 by auto. destruct (radar1_eq l L F2) as (shift & S & E). rewrite E. cbn [rbind].
    rewrite radar1_checks; auto; [|eapply codeok_of; [exact F2|reflexivity..]].
    apply tamer_bind; [apply tame_date|]. intros [t p] _. apply tame_tail. }
  destruct (fitp (flat radar2_layout) l) eqn:F3.
  { rewrite data_radar2, radar2_eq by auto. cbn [rbind].
    rewrite radar2_checks; auto; [|eapply codeok_of; [exact F3|reflexivity..]].
    apply tamer_bind; [apply tame_date|]. intros [t p] _. apply tame_tail. }
  destruct (fitp (flat satellite_layout) l) eqn:F4.
  { rewrite data_satellite by auto. apply tamer_bind.
    - rewrite caps_satellite. unfold decode_satellite. dictfun.
      destruct (pack_cols 35 45 l) as (x & X); try lia. destruct (pack_cols 47 57 l) as (y & Y); try lia.
      destruct (pack_cols 59 69 l) as (z & Z0); try lia. rewrite X, Y, Z0. cbn [rbind].
      apply tamer_bind; [apply tame_misplaced; auto; [apply cols_ne; lia|apply (sign_col l 35); auto]|]. intros [|] _; cbn [rbind]; [auto with tame|].
      apply tamer_bind; [apply tame_misplaced; auto; [apply cols_ne; lia|apply (sign_col l 47); auto]|]. intros [|] _; cbn [rbind]; [auto with tame|].
      apply tamer_bind; [apply tame_misplaced; auto; [apply cols_ne; lia|apply (sign_col l 59); auto]|]. intros [|] _; auto with tame.
    - intros D H. apply (proj1 (satellite_eq l D L)) in H as (x & y & z & P1 & P2 & P3 & ->).
      rewrite satellite_checks; auto; [|eapply codeok_of; [exact F4|reflexivity..]].
      apply tamer_bind; [apply tame_date|]. intros [t p] _. apply tame_tail. }
  destruct (fitp (flat rover_layout) l) eqn:F5.
  { rewrite data_rover, rover_eq by auto. cbn [rbind].
    rewrite rover_checks; auto; [|eapply codeok_of; [exact F5|reflexivity..]].
    apply tamer_bind; [apply tame_date|]. intros [t p] _. apply tame_tail. }
  rewrite data_none by auto. cbn [rbind]. auto with tame.
Qed.

(** * The columns can be read back *)
Lemma cols_all l : length l = 80 ->
  cols 1 12 l ++ cols 13 13 l ++ cols 14 14 l ++ cols 15 15 l ++ cols 16 32 l ++ cols 33 44 l ++ cols 45 56 l ++ cols 57 65 l ++
  cols 66 70 l ++ cols 71 71 l ++ cols 72 77 l ++ cols 78 80 l ++ [] = l.
Proof.
  intros L. rewrite app_nil_r.
  rewrite (cols_app 72 77 80 l), (cols_app 71 71 80 l), (cols_app 66 70 80 l), (cols_app 57 65 80 l), (cols_app 45 56 80 l),
    (cols_app 33 44 80 l), (cols_app 16 32 80 l), (cols_app 15 15 80 l), (cols_app 14 14 80 l), (cols_app 13 13 80 l), (cols_app 1 12 80 l) by lia.
  unfold cols. change (80 - 1 + 1) with 80. change (1 - 1) with 0. cbn [skipn]. rewrite <- L. apply firstn_all.
Qed.
Theorem optical_reproduced l d : ~ In nl l -> decode80 l = Ok d -> dget $"raSexagesimal" d <> None ->
  flat_map (text_of d) optical_columns = l.
Proof.
  intros NL H R. apply decode_iff in H; auto.
  destruct H as [k v Le I E|t p perm prov trk ra pra de pde NH F (D & NO & U) R0 DE
                            |t p perm prov trk shift NH F (D & NO & U) S|t p perm prov trk NH F (D & NO & U)
                            |t p perm prov trk x y z dp sys NH F (D & NO & U) SY P1 P2 P3|t p perm prov trk NH F (D & NO & U)|E];
    try (exfalso; apply R; reflexivity).
  apply laid_out_fitp in F. assert (length l = 80) as L by (now apply lay80 in F).
  transitivity (cols 1 12 l ++ cols 13 13 l ++ cols 14 14 l ++ cols 15 15 l ++ cols 16 32 l ++ cols 33 44 l ++ cols 45 56 l ++ cols 57 65 l ++
  cols 66 70 l ++ cols 71 71 l ++ cols 72 77 l ++ cols 78 80 l ++ []); [reflexivity|]. now apply cols_all.
Qed.
