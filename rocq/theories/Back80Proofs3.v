(** Lemmas about Back80Spec, part 3: the other fields. *)
From Verif Require Import PyStrProofs JustSpec JustProofs.
From Verif Require Import XmlToMpc80 Mpc80 Mpc80Spec Line80Spec LineProofs1 PackSpec PackProofs13.
From Verif Require Import Back80Spec Back80Proofs1 Back80Proofs2.
Local Open Scope nat_scope.

Lemma strip_pad' a u b : tidy u -> strip (spaces a ++ u ++ spaces b) = u.
Proof.
  intros T. assert (forall n, forallb pyspace (spaces n) = true) as K by (induction n; [reflexivity|exact IHn]).
  apply strip_pad; auto. rewrite <- T. apply strip_is_trimmed.
Qed.
(** a number put back into its columns *)
Lemma placed_back n w L : placed n w -> length w <= L -> n <= length w ->
  texty (strip w) /\ padD (strip w) (Z.of_nat L) (Z.of_nat (S n)) = Ok (w ++ spaces (L - length w)).
Proof.
  intros (a & u & b & -> & T & N & P & E) HL HN. rewrite strip_pad' by exact T. split; [split; assumption|].
  unfold padD. destruct (just_D_ok u (Z.of_nat L) (Z.of_nat (S n)) ltac:(lia) P) as (r & w & d & J).
  change (applyPaddingAndJustification u (Z.of_nat L) $"D" (Z.of_nat (S n))) with (just_decimal u (Z.of_nat L) (Z.of_nat (S n))). rewrite J. cbn [rbind]. f_equal.
  apply just_D in J as (_ & _ & a' & b' & -> & W & D1 & D2 & D3). unfold wid in *.
  rewrite !app_length in *. unfold spaces in *. rewrite !repeat_length in *.
  assert (length (before_point u) <= length u) as BL by (clear; induction u as [|c u IH]; cbn; [lia|]; destruct (ceqb c "."); cbn; lia).
  assert (a' = a) as -> by lia. assert (b' = b + (L - (a + (length u + b)))) as -> by lia.
  rewrite repeat_app, <- !app_assoc. reflexivity.
Qed.

(** columns of digits and blanks with an implied point *)
Lemma numeric_space c : numeric c = true -> pyspace c = true -> c = " "%char.
Proof.
  assert (forall c, implb (numeric c) (implb (pyspace c) (ceqb c " ")) = true) as K by (apply forall_ascii; vm_compute; reflexivity).
  intros A B. specialize (K c). rewrite A, B in K. now apply ceqb_eq in K.
Qed.
Lemma numeric_spaces w : forallb numeric w = true -> forallb pyspace w = true -> w = spaces (length w).
Proof.
  induction w as [|c w IH]; cbn [forallb length]; intros A B; [reflexivity|]. apply andb_prop in A as [A1 A2]. apply andb_prop in B as [B1 B2].
  rewrite (numeric_space c A1 B1). unfold spaces. cbn [repeat]. f_equal. now apply IH.
Qed.
Lemma points_app a b : points (a ++ b) = points a + points b.
Proof. unfold points. now rewrite filter_app, app_length. Qed.
Lemma before_app a b : points a = 0 -> before_point (a ++ "."%char :: b) = a.
Proof.
  induction a as [|c a IH]; cbn [before_point app]; [reflexivity|]. unfold points. cbn [filter]. destruct (ceqb c "."); [discriminate|]. intros H. f_equal. now apply IH.
Qed.
Lemma forallb_firstn {A} (f : A -> bool) n w : forallb f w = true -> forallb f (firstn n w) = true.
Proof. rewrite !forallb_forall. intros H x I. apply H. rewrite <- (firstn_skipn n w). apply in_or_app. now left. Qed.
Lemma forallb_skipn {A} (f : A -> bool) n w : forallb f w = true -> forallb f (skipn n w) = true.
Proof. rewrite !forallb_forall. intros H x I. apply H. rewrite <- (firstn_skipn n w). apply in_or_app. now right. Qed.
Lemma pointed n w : forallb numeric w = true -> points w = 0 -> n <= length w -> placed n (firstn n w ++ $"." ++ skipn n w).
Proof.
  intros H P L. set (W := firstn n w ++ $"." ++ skipn n w).
  assert (forallb numeric W = true) as HW.
  { unfold W. rewrite !forallb_app. rewrite forallb_firstn, forallb_skipn by exact H. reflexivity. }
  destruct (strip_decomp W) as (x & y & E & X & Y).
  assert (In "."%char (strip W)) as IP.
  { assert (In "."%char W) as I by (unfold W; apply in_or_app; right; apply in_or_app; left; now left).
    rewrite E in I. apply in_app_or in I as [I|I]; [|apply in_app_or in I as [I|I]; [exact I|]]; exfalso.
    - rewrite forallb_forall in X. specialize (X _ I). discriminate X.
    - rewrite forallb_forall in Y. specialize (Y _ I). discriminate Y. }
  apply in_split in IP as (p & q & S).
  rewrite E in HW. rewrite !forallb_app in HW. apply andb_prop in HW as [N1 N2]. apply andb_prop in N2 as [N2 N3].
  exists (length x), (strip W), (length y). rewrite <- (numeric_spaces x), <- (numeric_spaces y) by auto. split; [exact E|].
  split; [apply strip_idem|]. split; [rewrite S; now destruct p|].
  assert (points W = 1) as PW.
  { unfold W. rewrite !points_app. rewrite <- (firstn_skipn n w), points_app in P. change (points $".") with 1. lia. }
  assert (points (strip W) = 1) as PS. { rewrite E, !points_app in PW. rewrite S in PW |- *. rewrite points_app in *. unfold points in *. cbn [filter ceqb length] in *. change (ceqb "." ".") with true in *. cbn iota in *. cbn [length] in *. lia. }
  split; [lia|]. 
  assert (points p = 0 /\ points x = 0) as [Pp Px].
  { rewrite E, !points_app, PS in PW. rewrite S, points_app in PS. unfold points in *. cbn [filter] in PS. change (ceqb "." ".") with true in PS. cbn iota in PS. cbn [length] in PS. lia. }
  rewrite S, before_app by exact Pp.
  assert (before_point W = firstn n w) as B1. { unfold W. apply before_app. rewrite <- (firstn_skipn n w), points_app in P. lia. }
  assert (before_point W = x ++ p) as B2. { rewrite E, S. rewrite <- app_assoc, app_assoc. apply before_app. rewrite points_app. lia. }
  rewrite B1 in B2. apply (f_equal (@length ascii)) in B2. rewrite firstn_length, app_length in B2. lia.
Qed.
Lemma drop_pointed n w x : n <= length w -> drop_at n ((firstn n w ++ $"." ++ skipn n w) ++ x) = w ++ x.
Proof.
  intros L. unfold drop_at. rewrite <- app_assoc.
  assert (length (firstn n w) = n) as F by (rewrite firstn_length; lia).
  replace (firstn n (firstn n w ++ ($"." ++ skipn n w) ++ x)) with (firstn n w).
  2: { rewrite firstn_app, F, Nat.sub_diag. cbn [firstn]. rewrite app_nil_r. now rewrite firstn_firstn, Nat.min_id. }
  replace (skipn (S n) (firstn n w ++ ($"." ++ skipn n w) ++ x)) with (skipn n w ++ x).
  2: { rewrite skipn_app, F. rewrite (@skipn_all2 _ (S n) (firstn n w)) by lia. replace (S n - n) with 1 by lia. reflexivity. }
  rewrite app_assoc. now rewrite firstn_skipn.
Qed.
(** signed values *)
Lemma strip_cases s : strip s = [] \/ texty (strip s).
Proof. destruct (strip s) as [|c m] eqn:E; [now left|]. right. rewrite <- E. split; [apply strip_idem|]. rewrite E. discriminate. Qed.
Lemma signed_texty c s : pyspace c = false -> texty (c :: strip s).
Proof.
  intros H. apply texty_i; [exists c, (strip s); auto|]. destruct (strip_cases s) as [E|T].
  - rewrite E. exists [], c. auto.
  - apply (ends_app [c]). now apply texty_ends.
Qed.
Lemma sign_dark c : one_of $"+-" c = true -> pyspace c = false /\ is_sign c = true /\ isdig c = false /\ ceqb c " " = false.
Proof.
  assert (forall c, implb (one_of $"+-" c) (negb (pyspace c) && is_sign c && negb (isdig c) && negb (ceqb c " ")) = true) as K by (apply forall_ascii; vm_compute; reflexivity).
  intros H. specialize (K c). rewrite H in K. cbn [implb] in K. apply andb_prop in K as [K K4]. apply andb_prop in K as [K K3]. apply andb_prop in K as [K1 K2].
  apply negb_true_iff in K1, K3, K4. auto.
Qed.
Lemma shift_back c w : one_of $"+-" c = true -> forallb numeric w = true -> points w = 0 -> length w = 14 ->
  let W := c :: firstn 10 w ++ $"." ++ skipn 10 w in
  packSigned W = Ok (c :: strip (firstn 10 w ++ $"." ++ skipn 10 w)) /\
  unPackSigned (c :: strip (firstn 10 w ++ $"." ++ skipn 10 w)) 16 12 = Ok W.
Proof.
  intros C H P L W. destruct (sign_dark c C) as (D & S & I & B). set (X := firstn 10 w ++ $"." ++ skipn 10 w) in *.
  split; [unfold packSigned, W; now rewrite B|].
  unfold unPackSigned. rewrite I. cbv zeta. unfold is_sign in S. rewrite S. cbn [negb].
  assert (length X = 15) as LX. { unfold X. rewrite !app_length, firstn_length, skipn_length, L. reflexivity. }
  destruct (placed_back 10 X 15 (pointed 10 w H P ltac:(lia)) ltac:(lia) ltac:(lia)) as [_ E]. unfold padD in E.
  change (16 - 1)%Z with (Z.of_nat 15). change (12 - 1)%Z with (Z.of_nat 11).
  destruct (applyPaddingAndJustification (strip X) (Z.of_nat 15) $"D" (Z.of_nat 11)) as [[[r q] p]|]; [|discriminate E]. cbn [rbind] in *. injection E as ->.
  f_equal. unfold W. f_equal. rewrite LX. cbn [Nat.sub]. apply app_nil_r.
Qed.
Lemma position_texty dp c w v : one_of $"+-" c = true -> position dp (c :: w) v -> texty v /\ unPackSigned v 11 dp = Ok (c :: w).
Proof.
  intros C [H K]. destruct (sign_dark c C) as (D & _ & _ & B). split; [|exact K]. unfold packSigned in H. rewrite B in H. injection H as <-. now apply signed_texty.
Qed.

(** the reference *)
Definition or_blank (s : str) : str := match strip s with [] => $" " | v => v end.
Lemma dec_ends z : ends (dec z).
Proof.
  unfold dec. destruct (Z.ltb_spec z 0).
  - destruct (decn_spec (- z)) as (A & _ & B & _); [lia|]. apply (ends_app $"-"). apply dark_ends; [now apply dig_dark|exact B].
  - destruct (decn_spec z) as (A & _ & B & _); [lia|]. apply dark_ends; [now apply dig_dark|exact B].
Qed.
Lemma ref_texty z q : begins q -> strip (q ++ dec z) = q ++ dec z.
Proof. intros B. apply tidy_ends; [now apply begins_app|]. apply ends_app, dec_ends. Qed.
Lemma ref_packed_tidy r x : packed_ref r = true -> unpackRef r = Ok x -> texty x.
Proof.
  intros P H. assert (begins $"MPC  " /\ begins $"MPS  ") as [B1 B2] by (split; now apply lit_b).
  assert (forall q z, begins q -> texty (q ++ dec z)) as K by (intros q z B; split; [now apply ref_texty|destruct B as (c & m & -> & _); discriminate]).
  assert (forall x, packed_ref x = true -> forallb dark x = true) as DK.
  { clear. intros x P. destruct x as [|a [|b [|c [|d [|e [|]]]]]]; try discriminate P. unfold packed_ref in P.
    assert (forall c, implb (isdig c || ceqb c "@" || islower c || ceqb c "#" || ceqb c "~" || isalnum c) (dark c) = true) as Q by (apply forall_ascii; vm_compute; reflexivity).
    assert (forall c, isdig c || ceqb c "@" || islower c || ceqb c "#" || ceqb c "~" || isalnum c = true -> dark c = true) as Q' by (intros c0 E; specialize (Q c0); rewrite E in Q; exact Q).
    cbn [forallb].
    apply orb_prop in P as [P|P]; [apply orb_prop in P as [P|P]|]; rewrite !andb_true_iff in P; destruct P as [[[[P0 P1] P2] P3] P4];
    try (apply orb_prop in P0 as [P0|P0]); rewrite !Q'; try reflexivity; rewrite ?P0, ?P1, ?P2, ?P3, ?P4; rewrite ?orb_true_r; reflexivity. }
  destruct r as [|c r]; [discriminate P|]. unfold unpackRef in H.
  destruct (cmem c _) eqn:E1. { destruct (py_int _) as [z|]; [|discriminate H]. injection H as <-. exact (K $"MPC  " z B1). }
  destruct (ceqb c "@"). { destruct (py_int _) as [z|]; [|discriminate H]. injection H as <-. exact (K $"MPC  " _ B1). }
  destruct (ceqb c "#"). { destruct (unRadix62_4 _) as [z|]; [|discriminate H]. cbn [rbind] in H. injection H as <-. exact (K $"MPC  " _ B1). }
  destruct (cfind c smalls) eqn:E2. { destruct (py_int _) as [z|]; [|discriminate H]. cbn [rbind] in H. injection H as <-. exact (K $"MPS  " _ B2). }
  destruct (ceqb c "~"). { destruct (unRadix62_4 _) as [z|]; [|discriminate H]. cbn [rbind] in H. injection H as <-. exact (K $"MPS  " _ B2). }
  injection H as <-. apply texty_i; [apply dark_begins|apply dark_ends]; auto; discriminate.
Qed.
Lemma texty_or s : texty s -> or_blank s = s.
Proof. intros [T N]. unfold or_blank. rewrite T. now destruct s. Qed.
Lemma ref_back w r : ref_kept w -> unpackRef w = Ok r -> packRef (or_blank r) = Ok w.
Proof.
  intros K H. destruct K as [|w P L|c u b T L D W A M].
  - vm_compute in H. injection H as <-. vm_compute. reflexivity.
  - destruct (c14_back w P) as (x & E & B). rewrite E in H. injection H as <-. rewrite texty_or by exact (ref_packed_tidy w x P E). now apply B.
  - assert (unpackRef (c :: u ++ spaces b) = Ok (c :: u ++ spaces b)) as U.
    { unfold unpackRef.
      assert (cmem c $"0123456789" || ceqb c "@" || ceqb c "#" || (match cfind c smalls with Some _ => true | None => false end) || ceqb c "~" = false) as E1.
      { apply (implf_ascii (fun c => negb (isdig c) && negb (islower c) && negb (cmem c $"@#~"))
          (fun c => cmem c $"0123456789" || ceqb c "@" || ceqb c "#" || (match cfind c smalls with Some _ => true | None => false end) || ceqb c "~")); [vm_compute; reflexivity|].
        rewrite D, W. destruct (cmem c $"@#~") eqn:Q; [|reflexivity]. exfalso. apply A, cmem_in, Q. }
      rewrite !orb_false_iff in E1. destruct E1 as ((((-> & ->) & ->) & E2) & ->). destruct (cfind c smalls); [discriminate E2|reflexivity]. }
    rewrite U in H. injection H as <-. unfold or_blank. rewrite (strip_pad' 0 (c :: u) b T : strip (c :: u ++ spaces b) = c :: u).
    unfold packRef.
    assert (streqb (slice 0 3 (c :: u)) $"MPC" = false /\ streqb (slice 0 3 (c :: u)) $"MPS" = false) as [-> ->].
    { change (slice 0 3 (c :: u)) with (c :: firstn 2 u). set (v := firstn 2 u) in *. clearbody v.
      split; (apply streqb_neq; intros X; injection X as X1 X2; destruct M as [M|M]; [apply M; rewrite X2|congruence]); [now left|now right; left]. }
    cbn [rbind]. f_equal. cbn [length] in L. rewrite app_length in L. unfold spaces in L at 1. rewrite repeat_length in L.
    unfold padr, lastn. cbn [length]. replace (S (length u) - 5) with 0 by lia. cbn [skipn app length]. do 3 f_equal. lia.
Qed.
