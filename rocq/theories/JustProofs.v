(** C15, C16: justification and signed columns. *)
From Verif Require Import PyStr PyStrProofs PackUtil Just JustSpec.

Lemma zspaces_len k : zlen (zspaces k) = Z.max 0 k.
Proof. unfold zlen, zspaces. rewrite spaces_length. lia. Qed.
Lemma zlen_app a b : zlen (a ++ b) = zlen a + zlen b.
Proof. unfold zlen. rewrite app_length. lia. Qed.
Lemma zlen_cons c a : zlen (c :: a) = 1 + zlen a.
Proof. unfold zlen. cbn [length]. lia. Qed.
Lemma zlen_nil : zlen [] = 0. Proof. reflexivity. Qed.
Lemma zlen_nn s : 0 <= zlen s. Proof. unfold zlen. lia. Qed.
Lemma splitc_ne sep s : splitc sep s <> [].
Proof. destruct s as [|c s]; cbn; [discriminate|]. destruct (ceqb c sep); [discriminate|]. destruct (splitc sep s); discriminate. Qed.

Lemma points_dot a : (0 < points (a ++ $"."))%nat.
Proof. unfold points. rewrite filter_app, app_length. change (length (filter (fun c => ceqb c ".") $".")) with 1%nat. lia. Qed.
Lemma split_point s :
  match splitc "." s with
  | [w] => w = s /\ before_point s = s /\ points s = 0%nat
  | [a; b] => s = a ++ $"." ++ b /\ before_point s = a /\ points s = 1%nat /\ points b = 0%nat
  | _ => (2 <= points s)%nat
  end.
Proof.
  assert (forall s, length (splitc "." s) = S (points s)) as L.
  { induction s0 as [|c s0 IH]; [reflexivity|]. cbn [splitc]. unfold points in *. cbn [filter].
    destruct (ceqb c "."); [cbn [length]; now rewrite IH|].
    destruct (splitc "." s0) as [|w ws] eqn:E; [elim (splitc_ne "." s0 E)|]. cbn [length] in *. congruence. }
  induction s as [|c s IH]; [cbn; auto|].
  pose proof (L s) as Ls. pose proof (L (c :: s)) as Lc. cbn [splitc before_point] in *.
  destruct (ceqb c ".") eqn:E.
  - apply ceqb_eq in E as ->. unfold points in *. cbn [filter] in *. change (ceqb "." ".") with true in *. cbn iota in *.
    destruct (splitc "." s) as [|w [|w' ws]] eqn:E; [elim (splitc_ne "." s E)| |].
    + destruct IH as (-> & _ & P). cbn [length] in *. rewrite P. repeat split; reflexivity.
    + cbn [length] in *. lia.
  - destruct (splitc "." s) as [|w [|w' [|w'' ws]]] eqn:E2; [elim (splitc_ne "." s E2)| | |].
    + destruct IH as (-> & -> & P). unfold points in *. cbn [filter]. rewrite E. auto.
    + destruct IH as (-> & -> & P & P'). unfold points in *. cbn [filter]. rewrite E. auto.
    + unfold points in *. cbn [filter]. rewrite E. exact IH.
Qed.

(** full characterisation of the 'D' branch *)
Lemma just_D s l dpos r w d : just_decimal s l dpos = Ok (r, w, d) ->
  0 <= dpos /\ (points s <= 1)%nat /\
  exists a b, r = spaces a ++ s ++ spaces b /\ w = wid r /\
    d = Z.max dpos (wid (before_point s) + 1) /\
    Z.of_nat a + wid (before_point s) + 1 = d /\
    w = Z.max l (d - 1 + wid s - wid (before_point s)).
Proof.
  change wid with zlen. unfold just_decimal. destruct (Z.ltb_spec dpos 0); [discriminate|]. intro HJ. split; [lia|].
  pose proof (split_point s) as SP. destruct (splitc "." s) as [|a [|b [|x y]]] eqn:E; [elim (splitc_ne "." s E)| | |discriminate].
  - destruct SP as (-> & B & P). cbn [rbind] in HJ. rewrite B. split; [lia|].
    assert ((match lastc s with Some c => ceqb c "." | None => false end) = false) as T.
    { unfold lastc. destruct (rev s) as [|c t] eqn:R; [reflexivity|]. apply ceqb_neq. intros ->.
      assert (s = rev t ++ $".") as -> by (rewrite <- (rev_involutive s), R; reflexivity).
      pose proof (points_dot (rev t)). lia. }
    rewrite T in HJ. cbn zeta in HJ. rewrite zlen_nil in HJ.
    set (dp := if dpos - 1 - zlen s <? 0 then dpos - (dpos - 1 - zlen s) else dpos) in *.
    assert (Ed : dp = Z.max dpos (zlen s + 1)) by (unfold dp; destruct (Z.ltb_spec (dpos - 1 - zlen s) 0); lia).
    assert (r = zspaces (dpos - 1 - zlen s) ++ s ++ zspaces (l - dp - 0 + 1) /\ w = zlen r /\ d = dp) as (-> & -> & ->) by (injection HJ as <- <- <-; auto).
    exists (Z.to_nat (dpos - 1 - zlen s)), (Z.to_nat (l - dp - 0 + 1)). pose proof (zlen_nn s).
    split; [reflexivity|]. split; [reflexivity|]. split; [assumption|].
    split; [lia|]. rewrite !zlen_app, !zspaces_len. lia.
  - destruct SP as (Es & B & P & Pb). cbn [rbind] in HJ. rewrite B. split; [lia|].
    set (dp := if dpos - 1 - zlen a <? 0 then dpos - (dpos - 1 - zlen a) else dpos) in *.
    assert (Ed : dp = Z.max dpos (zlen a + 1)) by (unfold dp; destruct (Z.ltb_spec (dpos - 1 - zlen a) 0); lia).
    pose proof (zlen_nn a). pose proof (zlen_nn b).
    destruct b as [|c b].
    + assert (lastc s = Some "."%char) as T. { unfold lastc. rewrite Es, rev_app_distr. reflexivity. }
      rewrite T in HJ. change (ceqb "." ".") with true in HJ. cbn zeta iota in HJ. rewrite zlen_nil in HJ.
      assert (r = zspaces (dpos - 1 - zlen a) ++ s ++ zspaces (l - dp - 0 - 1 + 1) /\ w = zlen r /\ d = dp) as (-> & -> & ->) by (injection HJ as <- <- <-; auto).
      exists (Z.to_nat (dpos - 1 - zlen a)), (Z.to_nat (l - dp - 0 - 1 + 1)).
      split; [reflexivity|]. split; [reflexivity|]. split; [assumption|]. split; [lia|].
      rewrite !zlen_app, !zspaces_len. rewrite Es. rewrite !zlen_app. change (zlen $".") with 1. rewrite zlen_nil. lia.
    + assert ((match lastc s with Some c => ceqb c "." | None => false end) = false) as T.
      { unfold lastc. rewrite Es, app_assoc, rev_app_distr. destruct (rev (c :: b)) as [|e t] eqn:R; [apply (f_equal (@length ascii)) in R; rewrite rev_length in R; discriminate|].
        cbn [app]. apply ceqb_neq. intros ->.
        assert (c :: b = rev t ++ $".") as R2 by (rewrite <- (rev_involutive (c :: b)), R; reflexivity).
        rewrite R2 in Pb. pose proof (points_dot (rev t)). lia. }
      rewrite T in HJ. cbn zeta in HJ.
      assert (r = zspaces (dpos - 1 - zlen a) ++ a ++ $"." ++ (c :: b) ++ zspaces (l - dp - zlen (c :: b)) /\ w = zlen r /\ d = dp) as (-> & -> & ->) by (injection HJ as <- <- <-; auto).
      exists (Z.to_nat (dpos - 1 - zlen a)), (Z.to_nat (l - dp - zlen (c :: b))).
      split. { rewrite Es at 1. fold (zspaces (dpos - 1 - zlen a)). fold (zspaces (l - dp - zlen (c :: b))). now rewrite <- !app_assoc. }
      split; [reflexivity|]. split; [assumption|]. split; [lia|].
      rewrite !zlen_app, !zspaces_len. rewrite Es. rewrite !zlen_app. change (zlen $".") with 1. lia.
Qed.
Lemma just_D_ok s l dpos : 0 <= dpos -> (points s <= 1)%nat -> exists r w d, just_decimal s l dpos = Ok (r, w, d).
Proof.
  intros H P. unfold just_decimal. destruct (Z.ltb_spec dpos 0); [lia|].
  pose proof (split_point s) as SP. destruct (splitc "." s) as [|a [|b [|x y]]] eqn:E; [elim (splitc_ne "." s E)| | |lia];
    cbn [rbind]; eauto.
Qed.
Lemma just_D_err s l dpos : dpos < 0 \/ (2 <= points s)%nat -> just_decimal s l dpos = Err RuntimeError.
Proof.
  intro H. unfold just_decimal. destruct (Z.ltb_spec dpos 0); [reflexivity|].
  pose proof (split_point s) as SP. destruct (splitc "." s) as [|a [|b [|x y]]] eqn:E; [elim (splitc_ne "." s E)| | |reflexivity]; lia.
Qed.

Lemma c16_LRC s l j dpos : j = $"L" \/ j = $"R" \/ j = $"C" ->
  exists a b, applyPaddingAndJustification s l j dpos = Ok (spaces a ++ s ++ spaces b, Z.max l (wid s), dpos) /\
    (j = $"L" -> a = 0%nat) /\ (j = $"R" -> b = 0%nat) /\
    (j = $"C" -> Z.of_nat a <= Z.of_nat b <= Z.of_nat a + 1) /\ wid (spaces a ++ s ++ spaces b) = Z.max l (wid s).
Proof.
  intro H. unfold applyPaddingAndJustification. pose proof (zlen_nn s). change wid with zlen.
  destruct H as [-> | [-> | ->]].
  - change (streqb $"L" $"L") with true. cbn iota. exists O, (Z.to_nat (l - zlen s)). cbn [spaces repeat app].
    fold (zspaces (l - zlen s)). change (spaces 0) with (@nil ascii). cbn [app].
    rewrite zlen_app, zspaces_len. replace (zlen s + Z.max 0 (l - zlen s)) with (Z.max l (zlen s)) by lia. repeat split; try discriminate.
  - change (streqb $"R" $"L") with false. change (streqb $"R" $"R") with true. cbn iota. exists (Z.to_nat (l - zlen s)), O.
    fold (zspaces (l - zlen s)). change (spaces 0) with (@nil ascii). rewrite app_nil_r.
    rewrite zlen_app, zspaces_len. replace (Z.max 0 (l - zlen s) + zlen s) with (Z.max l (zlen s)) by lia. repeat split; try discriminate.
  - change (streqb $"C" $"L") with false. change (streqb $"C" $"R") with false. change (streqb $"C" $"C") with true. cbn iota.
    set (i := (l - zlen s) / 2). assert (2 * i <= l - zlen s < 2 * i + 2) as I.
    { pose proof (Z.div_mod (l - zlen s) 2 ltac:(lia)). pose proof (Z.mod_pos_bound (l - zlen s) 2 ltac:(lia)). unfold i. lia. }
    set (j := if i * 2 =? l - zlen s then i else i + 1). assert (i <= j <= i + 1 /\ i + j = l - zlen s) as J.
    { unfold j. destruct (Z.eqb_spec (i * 2) (l - zlen s)); lia. }
    exists (Z.to_nat i), (Z.to_nat j). fold (zspaces i) (zspaces j). cbn zeta. rewrite !zlen_app, !zspaces_len.
    replace (Z.max 0 i + (zlen s + Z.max 0 j)) with (Z.max l (zlen s)) by lia. repeat split; try discriminate; try lia; intros; lia.
Qed.
Lemma apply_D s l dpos : applyPaddingAndJustification s l $"D" dpos = just_decimal s l dpos.
Proof. reflexivity. Qed.
Lemma c16_bad s l j dpos : j <> $"L" -> j <> $"R" -> j <> $"C" -> j <> $"D" ->
  applyPaddingAndJustification s l j dpos = Err RuntimeError.
Proof.
  intros A B C D. unfold applyPaddingAndJustification.
  apply streqb_neq in A, B, C, D. now rewrite A, B, C, D.
Qed.

(** ** C15 *)
Lemma number_trimmed u : number_text u -> trimmed u = true.
Proof.
  intros (_ & H & _). apply nospace_trimmed. apply forallb_forall. intros c I. rewrite forallb_forall in H. specialize (H c I).
  revert H. apply (impl_ascii (fun c => isdig c || ceqb c ".") (fun c => negb (pyspace c))). vm_compute. reflexivity.
Qed.
Lemma c15_pack sg a u b : is_sign sg = true -> number_text u -> packSigned (sg :: spaces a ++ u ++ spaces b) = Ok (sg :: u).
Proof.
  intros S N. cbn [packSigned]. rewrite strip_pad by (auto using spaces_space, number_trimmed).
  assert (ceqb sg " " = false) as ->; [|reflexivity]. revert sg S. apply (implf_ascii is_sign (fun c => ceqb c " ")). vm_compute. reflexivity.
Qed.
Lemma c15_pack_blank a u b : number_text u -> packSigned (" "%char :: spaces a ++ u ++ spaces b) = Ok u.
Proof. intro N. cbn [packSigned]. rewrite strip_pad by (auto using spaces_space, number_trimmed). reflexivity. Qed.

Lemma sign_notdig sg : is_sign sg = true -> isdig sg = false.
Proof. revert sg. apply implf_ascii. vm_compute. reflexivity. Qed.
Lemma unpack_signed_eq sg u L D : is_sign sg = true -> unPackSigned (sg :: u) L D = do (r, _, _) <- just_decimal u (L - 1) (D - 1); Ok (sg :: r).
Proof.
  intro S. unfold unPackSigned. rewrite (sign_notdig sg S). unfold is_sign in S. rewrite S. cbn [negb]. now rewrite apply_D.
Qed.
Lemma c15_unpack sg u L D : is_sign sg = true -> number_text u -> 1 <= D ->
  exists a b, unPackSigned (sg :: u) L D = Ok (sg :: spaces a ++ u ++ spaces b) /\
    packSigned (sg :: spaces a ++ u ++ spaces b) = Ok (sg :: u) /\
    (wid (before_point u) + 2 <= D -> Z.of_nat a + wid (before_point u) + 2 = D) /\
    (wid (before_point u) + 2 <= D -> D - 1 + wid u - wid (before_point u) <= L -> wid (sg :: spaces a ++ u ++ spaces b) = L).
Proof.
  intros S N HD. rewrite unpack_signed_eq by assumption. destruct N as (N1 & N2 & N3).
  destruct (just_D_ok u (L - 1) (D - 1) ltac:(lia) N3) as (r & w & d & E). rewrite E. cbn [rbind].
  apply just_D in E as (_ & _ & a & b & -> & Ew & Ed & Ep & Ew2). exists a, b. split; [reflexivity|].
  split; [apply c15_pack; [assumption|repeat split; assumption]|]. change wid with zlen in *. rewrite zlen_cons. lia.
Qed.
Lemma c15_unpack_nosign c u L D : isdig c = true -> unPackSigned (c :: u) L D = unPackSigned ("+"%char :: c :: u) L D.
Proof. intro H. unfold unPackSigned. rewrite H. change (isdig "+") with false. cbn iota. reflexivity. Qed.
