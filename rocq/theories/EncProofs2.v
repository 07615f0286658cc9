(** C52: decoding what is stored. *)
From Verif Require Import GetEncoding EncSpec EncProofs1.
Local Open Scope nat_scope.
Ltac Zify.zify_post_hook ::= Z.to_euclidean_division_equations.

Section Coding.
Variables (next : bytes -> step) (enc : N -> bytes) (P : N -> Prop).
Hypothesis encodes : forall c, P c -> enc c <> [] /\ (forall r, next (enc c ++ r) = Char c r) /\
  (forall m, m < length (enc c) -> next (firstn m (enc c)) = More).
Fixpoint fit (n : nat) (s : chars) : nat :=
  match s with
  | [] => 0
  | c :: s' => if length (enc c) <=? n then S (fit (n - length (enc c)) s') else 0
  end.
Hypothesis nil_more : next [] = More.
Lemma decode_prefix s : Forall P s -> forall n fuel, length (firstn n (flat_map enc s)) <= fuel ->
  decode_with next fuel (firstn n (flat_map enc s)) = (firstn (fit n s) s, false).
Proof.
  induction 1 as [|c s H F IH]; intros n fuel K.
  - cbn [flat_map]. rewrite firstn_nil. destruct fuel; cbn [decode_with]; [reflexivity|]. now rewrite nil_more.
  - destruct (encodes c H) as (NE & N1 & N2). cbn [flat_map fit] in *. rewrite firstn_app in *.
    destruct (length (enc c) <=? n) eqn:E.
    + apply Nat.leb_le in E. rewrite firstn_all2 in * by lia. rewrite app_length in K.
      assert (0 < length (enc c)) by (destruct (enc c); [congruence|cbn [length]; lia]).
      destruct fuel as [|fuel]; [lia|]. cbn [decode_with]. rewrite N1. rewrite IH by lia. reflexivity.
    + apply Nat.leb_gt in E. replace (n - length (enc c)) with 0 in * by lia. rewrite firstn_O, app_nil_r in *.
      destruct fuel; cbn [decode_with]; [reflexivity|]. now rewrite N2 by exact E.
Qed.
Lemma fit_mono s : forall n m, n <= m -> fit n s <= fit m s.
Proof.
  induction s as [|c s IH]; intros n m H; cbn [fit]; [lia|].
  destruct (length (enc c) <=? n) eqn:E; [|lia]. apply Nat.leb_le in E. rewrite (proj2 (Nat.leb_le _ _)) by lia.
  specialize (IH (n - length (enc c)) (m - length (enc c))). lia.
Qed.
Lemma fit_le s : forall n, fit n s <= length s.
Proof. induction s as [|c s IH]; intros n; cbn [fit length]; [lia|]. destruct (_ <=? _); [|lia]. specialize (IH (n - length (enc c))). lia. Qed.
Lemma fit_all s : fit (length (flat_map enc s)) s = length s.
Proof.
  induction s as [|c s IH]; [reflexivity|]. cbn [flat_map fit length]. rewrite app_length. rewrite (proj2 (Nat.leb_le _ _)) by lia.
  replace (length (enc c) + length (flat_map enc s) - length (enc c)) with (length (flat_map enc s)) by lia. now rewrite IH.
Qed.
Lemma decoded_prefix s n : Forall P s -> decoded next (firstn n (flat_map enc s)) = (firstn (fit n s) s, false).
Proof. intros F. apply decode_prefix; auto. Qed.
Lemma enc_length s : Forall P s -> length s <= length (flat_map enc s).
Proof.
  induction 1 as [|c s H F IH]; [reflexivity|]. cbn [flat_map length]. rewrite app_length.
  destruct (encodes c H) as (NE & _). destruct (enc c); [congruence|]. cbn [length]. lia.
Qed.

(** a file that is [head] followed by the text, which the decoder skips *)
Lemma line_of_coded (d : decoder) (head : bytes) s L : Forall P s -> on_one_line L -> begins_with L s ->
  (forall b, d (head ++ b) = decoded next b) -> (forall n, n < length head -> d (firstn n head) = ([], false)) ->
  exists e, first_line d (head ++ flat_map enc s) = Ok (L ++ e) /\ Forall separator e.
Proof.
  intros F One BW H1 H2.
  assert (Q : forall n, d (firstn n (head ++ flat_map enc s)) = (firstn (if n <? length head then 0 else fit (n - length head) s) s, false)).
  { intros n. rewrite firstn_app. destruct (n <? length head) eqn:E.
    - apply Nat.ltb_lt in E. replace (n - length head) with 0 by lia. rewrite firstn_O, app_nil_r. now apply H2.
    - apply Nat.ltb_ge in E. rewrite firstn_all2 by lia. rewrite H1. now apply decoded_prefix. }
  apply (first_line_whole d (head ++ flat_map enc s) s L One BW).
  - intros n. rewrite Q. eexists. reflexivity.
  - intros n m H. rewrite !Q. cbn [fst]. rewrite !firstn_length.
    destruct (n <? length head) eqn:E1; [lia|]. apply Nat.ltb_ge in E1. rewrite (proj2 (Nat.ltb_ge _ _)) by lia.
    pose proof (fit_mono s (n - length head) (m - length head)). lia.
  - rewrite <- (firstn_all (head ++ flat_map enc s)). rewrite Q. rewrite app_length.
    rewrite (proj2 (Nat.ltb_ge _ _)) by lia. replace (length head + length (flat_map enc s) - length head) with (length (flat_map enc s)) by lia.
    rewrite fit_all, firstn_all. reflexivity.
  - rewrite app_length. pose proof (enc_length s F). lia.
Qed.
End Coding.

(** * The encodings *)
Ltac nums := repeat match goal with
  | |- context [(?a <? ?b)%N] => first [rewrite (proj2 (N.ltb_lt a b)) by lia | rewrite (proj2 (N.ltb_ge a b)) by lia]
  | |- context [(?a <=? ?b)%N] => first [rewrite (proj2 (N.leb_le a b)) by lia | rewrite (proj2 (N.leb_gt a b)) by lia]
  | |- context [(?a =? ?b)%N] => first [rewrite (proj2 (N.eqb_neq a b)) by lia | rewrite (proj2 (N.eqb_eq a b)) by lia]
  end.
Lemma unit_two be u r : (u < 65536)%N -> exists x y, two be u ++ r = x :: y :: r /\ unit16 be x y = u.
Proof. intros H. unfold two, unit16. destruct be; eexists _, _; (split; [reflexivity|]); lia. Qed.
Lemma encodes_utf16 be c : scalar c -> utf16_of be c <> [] /\ (forall r, next_utf16 be (utf16_of be c ++ r) = Char c r) /\
  (forall m, m < length (utf16_of be c) -> next_utf16 be (firstn m (utf16_of be c)) = More).
Proof.
  intros H. unfold utf16_of, scalar in *. destruct (c <? 65536)%N eqn:E.
  - apply N.ltb_lt in E. split; [destruct be; discriminate|]. split.
    + intros r. destruct (unit_two be c r E) as (x & y & -> & U). cbn [next_utf16]. rewrite U.
      destruct H as [H|H]; nums; reflexivity.
    + intros m M. destruct be; cbn in M; destruct m as [|[|m]]; try lia; reflexivity.
  - apply N.ltb_ge in E. set (u := (55296 + (c - 65536) / 1024)%N). set (v := (56320 + (c - 65536) mod 1024)%N).
    assert (U : (55296 <= u < 56320)%N) by (unfold u; lia). assert (V : (56320 <= v < 57344)%N) by (unfold v; lia).
    assert (W : (65536 + (u - 55296) * 1024 + (v - 56320))%N = c) by (unfold u, v; lia).
    split; [destruct be; discriminate|]. split.
    + intros r. rewrite <- app_assoc. destruct (unit_two be u (two be v ++ r)) as (x & y & -> & Eu); [lia|].
      cbn [next_utf16]. rewrite Eu. destruct (unit_two be v r) as (x' & y' & -> & Ev); [lia|]. nums. cbn [andb]. cbv zeta. rewrite Ev. nums. cbn [andb]. now rewrite W.
    + intros m M. destruct (unit_two be u (two be v)) as (x & y & -> & Eu); [lia|].
      assert (M' : m < 4) by (destruct be; exact M). clear M.
      destruct m as [|[|[|m]]]; [reflexivity|reflexivity| |].
      * cbn [firstn next_utf16]. rewrite Eu. nums. reflexivity.
      * destruct m; [|lia]. cbn [firstn]. destruct (unit_two be v []) as (x' & y' & Ey & Ev); [lia|]. rewrite app_nil_r in Ey. rewrite Ey.
        cbn [next_utf16]. rewrite Eu. nums. reflexivity.
Qed.
Lemma encodes_utf32 be c : scalar c -> utf32_of be c <> [] /\ (forall r, next_utf32 be (utf32_of be c ++ r) = Char c r) /\
  (forall m, m < length (utf32_of be c) -> next_utf32 be (firstn m (utf32_of be c)) = More).
Proof.
  intros H. unfold scalar in H. split; [destruct be; discriminate|]. split.
  - intros r. assert (K : (((c / 16777216 * 256 + c / 65536 mod 256) * 256 + c / 256 mod 256) * 256 + c mod 256)%N = c) by lia.
    destruct be; cbn [utf32_of rev app next_utf32]; rewrite K; destruct H as [H|H]; nums; reflexivity.
  - intros m M. destruct be; cbn in M; destruct m as [|[|[|[|m]]]]; try lia; reflexivity.
Qed.
Lemma encodes_utf8 c : scalar c -> utf8_of c <> [] /\ (forall r, next_utf8 (utf8_of c ++ r) = Char c r) /\
  (forall m, m < length (utf8_of c) -> next_utf8 (firstn m (utf8_of c)) = More).
Proof.
  intros H. unfold scalar in H. unfold utf8_of. destruct (c <? 128)%N eqn:E1.
  { split; [discriminate|]. split; [intros r; cbn [app next_utf8]; now rewrite E1|]. intros m M. cbn in M. destruct m; [reflexivity|lia]. }
  apply N.ltb_ge in E1. destruct (c <? 2048)%N eqn:E2.
  { apply N.ltb_lt in E2. split; [discriminate|]. set (x := (c / 64)%N). set (y := (c mod 64)%N).
    assert (X : (2 <= x < 32)%N) by (unfold x; lia). assert (Y : (y < 64)%N) by (unfold y; lia).
    assert (C : (x * 64 + y)%N = c) by (unfold x, y; lia). clearbody x y. split.
    - intros r. cbn [app next_utf8]. unfold second, cont. nums. cbn [andb]. f_equal. lia.
    - intros m M. cbn in M. destruct m as [|[|m]]; [reflexivity| |lia]. cbn [firstn next_utf8]. nums. reflexivity. }
  apply N.ltb_ge in E2. destruct (c <? 65536)%N eqn:E3.
  { apply N.ltb_lt in E3. split; [discriminate|]. set (x := (c / 4096)%N). set (y := (c / 64 mod 64)%N). set (z := (c mod 64)%N).
    assert (X : (x < 16)%N) by (unfold x; lia). assert (Y : (y < 64)%N) by (unfold y; lia). assert (Z : (z < 64)%N) by (unfold z; lia).
    assert (C : (x * 4096 + y * 64 + z)%N = c) by (unfold x, y, z; lia). clearbody x y z.
    assert (S2 : second (224 + x) (128 + y) = true).
    { unfold second, cont. destruct (224 + x =? 224)%N eqn:A1; [apply N.eqb_eq in A1; nums; reflexivity|].
      destruct (224 + x =? 237)%N eqn:A2; [apply N.eqb_eq in A2; nums; reflexivity|]. apply N.eqb_neq in A1, A2. nums. reflexivity. }
    assert (C3 : cont (128 + z) = true) by (unfold cont; nums; reflexivity).
    split.
    - intros r. cbn [app next_utf8]. rewrite S2, C3. nums. cbn [andb]. f_equal. lia.
    - intros m M. cbn in M. destruct m as [|[|[|m]]]; [reflexivity| | |lia]; cbn [firstn next_utf8]; rewrite ?S2; nums; reflexivity. }
  apply N.ltb_ge in E3. split; [discriminate|].
  set (w := (c / 262144)%N). set (x := (c / 4096 mod 64)%N). set (y := (c / 64 mod 64)%N). set (z := (c mod 64)%N).
  assert (W : (w < 5)%N) by (unfold w; lia). assert (X : (x < 64)%N) by (unfold x; lia). assert (Y : (y < 64)%N) by (unfold y; lia). assert (Z : (z < 64)%N) by (unfold z; lia).
  assert (C : (w * 262144 + x * 4096 + y * 64 + z)%N = c) by (unfold w, x, y, z; lia). clearbody w x y z.
  assert (S2 : second (240 + w) (128 + x) = true).
  { unfold second, cont. destruct (240 + w =? 240)%N eqn:A1; [apply N.eqb_eq in A1; nums; reflexivity|].
    destruct (240 + w =? 244)%N eqn:A2; [apply N.eqb_eq in A2; nums; reflexivity|]. apply N.eqb_neq in A1, A2. nums. reflexivity. }
  assert (C3 : cont (128 + y) = true) by (unfold cont; nums; reflexivity).
  assert (C4 : cont (128 + z) = true) by (unfold cont; nums; reflexivity).
  split.
  - intros r. cbn [app next_utf8]. rewrite S2, C3, C4. nums. cbn [andb]. f_equal. lia.
  - intros m M. cbn in M. destruct m as [|[|[|[|m]]]]; [reflexivity| | | |lia]; cbn [firstn next_utf8]; rewrite ?S2, ?C3; nums; reflexivity.
Qed.
