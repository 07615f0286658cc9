(** C52: codecs.StreamReader.readline gives the first line. *)
From Verif Require Import GetEncoding EncSpec.
Local Open Scope nat_scope.

Lemma line_sep_iff c : line_sep c = true <-> separator c.
Proof.
  unfold line_sep, separator. rewrite existsb_exists. split.
  - intros (x & I & E). apply N.eqb_eq in E. now subst.
  - intros I. exists c. split; [exact I|apply N.eqb_refl].
Qed.
Lemma not_sep c : ~ separator c -> line_sep c = false.
Proof. intros H. destruct (line_sep c) eqn:E; [|reflexivity]. apply line_sep_iff in E. contradiction. Qed.
Lemma split_plain p : on_one_line p -> splitlines p = match p with [] => [] | _ => [p] end.
Proof.
  induction p as [|c p IH]; intros H; [reflexivity|]. cbn [splitlines].
  rewrite (not_sep c) by (apply H; now left). rewrite IH by (intros x I; apply H; now right).
  destruct p; reflexivity.
Qed.
Lemma ends_snoc f p c : ends_with f (p ++ [c]) = f c.
Proof. unfold ends_with. now rewrite rev_app_distr. Qed.
Lemma ends_cons f c x : x <> [] -> ends_with f (c :: x) = ends_with f x.
Proof. intros H. destruct (exists_last H) as (y & d & ->). change (c :: y ++ [d]) with ((c :: y) ++ [d]). now rewrite !ends_snoc. Qed.
Lemma split_first L x y : on_one_line L -> separator x ->
  exists e tl, splitlines (L ++ x :: y) = (L ++ e) :: tl /\ Forall separator e /\ ends_with line_sep (L ++ e) = true.
Proof.
  intros H X. induction L as [|c L IH].
  - cbn [app splitlines]. rewrite (proj2 (line_sep_iff x) X). destruct y as [|d y].
    + exists [x], []. split; [reflexivity|]. split; [constructor; [exact X|constructor]|]. cbn [app]. unfold ends_with. cbn [rev app]. now apply line_sep_iff.
    + destruct ((x =? 13) && (d =? 10))%N eqn:E.
      * apply andb_true_iff in E as [_ E]. apply N.eqb_eq in E. subst d. exists [x; 10%N], (splitlines y). split; [reflexivity|]. split; [|reflexivity].
        constructor; [exact X|]. constructor; [now left|constructor].
      * exists [x], (splitlines (d :: y)). split; [reflexivity|]. split; [constructor; [exact X|constructor]|]. cbn [app]. unfold ends_with. cbn [rev app]. now apply line_sep_iff.
  - destruct IH as (e & tl & E & F & G); [intros z I; apply H; now right|]. exists e, tl. cbn [app splitlines].
    rewrite (not_sep c) by (apply H; now left). rewrite E. repeat split; auto.
    rewrite ends_cons; [exact G|]. intros Z. rewrite Z in G. discriminate G.
Qed.

Section Reading.
Variables (D : nat -> chars * bool) (len : nat) (s L : chars) (Inv : nat -> nat -> N -> Prop).
Hypothesis one : on_one_line L.
Hypothesis bw : begins_with L s.
Definition good (n : nat) : Prop := exists k, fst (D n) = firstn k s.
Hypothesis fill_ok : forall n r z, Inv n r z -> r <= length L ->
  exists n1, fill D len len true (N.to_nat z) (r + N.to_nat z) n = Ok n1 /\ good n1 /\
    Nat.min (r + N.to_nat z) (length s) <= length (fst (D n1)) /\ (0 < z)%N /\
    Inv n1 (Nat.min (r + N.to_nat z) (length (fst (D n1)))) (if z <? 8000 then 2 * z else z)%N /\
    (exists n2, fill D len len false 1 (Nat.min (r + N.to_nat z) (length (fst (D n1))) + 1) n1 = Ok n2 /\ good n2 /\
                length (fst (D n1)) <= length (fst (D n2))).

Lemma prefix_line r : r <= length L -> firstn r s = firstn r L.
Proof. intros H. destruct bw; [|reflexivity]. rewrite firstn_app. replace (r - length L) with 0 by lia. now rewrite firstn_O, app_nil_r. Qed.
Lemma prefix_more r : length L < r -> r <= length s -> exists x y, firstn r s = L ++ x :: y /\ separator x.
Proof.
  intros H K. destruct bw as [c rest C|]; [|lia]. exists c, (firstn (r - S (length L)) rest). split; [|exact C].
  rewrite firstn_app. rewrite firstn_all2 by lia. f_equal. replace (r - length L) with (S (r - S (length L))) by lia. reflexivity.
Qed.
Lemma short_line : length L <= length s.
Proof. destruct bw; rewrite ?app_length; lia. Qed.
Lemma one_firstn r : on_one_line (firstn r L).
Proof. intros c I. apply one. rewrite <- (firstn_skipn r L). apply in_or_app. now left. Qed.
Lemma good_take n r : good n -> r <= length (fst (D n)) -> firstn r (fst (D n)) = firstn r s /\ r <= length s.
Proof.
  intros (k & E) H. rewrite E in *. rewrite firstn_firstn. rewrite firstn_length in H. split; [f_equal; lia|lia].
Qed.

Lemma readline_ok fuel : forall n r z, Inv n r z -> r <= length L -> length s < r + fuel ->
  exists e, readline D len fuel z n r = Ok (L ++ e) /\ Forall separator e.
Proof.
  induction fuel as [|fuel IH]; intros n r z I R F.
  { pose proof short_line. lia. }
  cbn [readline]. destruct (fill_ok n r z I R) as (n1 & E1 & G1 & M1 & Z & I1 & (n2 & E2 & G2 & M2)).
  rewrite E1. cbn [rbind].
  set (r1 := Nat.min (r + N.to_nat z) (length (fst (D n1)))) in *.
  assert (Z' : 0 < N.to_nat z) by lia.
  assert (B1 : r1 <= length (fst (D n1))) by (unfold r1; lia).
  destruct (good_take n1 r1 G1 B1) as [T1 T1']. rewrite T1.
  assert (R1 : r <= r1) by (pose proof short_line; unfold r1 in *; lia).
  destruct (Nat.le_gt_cases r1 (length L)) as [Le|Gt].
  - rewrite (prefix_line r1 Le).
    assert (NE : ends_with (N.eqb 13) (skipn r (firstn r1 L)) = false).
    { unfold ends_with. destruct (rev (skipn r (firstn r1 L))) as [|c t] eqn:EE; [reflexivity|].
      apply N.eqb_neq. intros <-. apply (one_firstn r1 13%N); [|unfold separator; cbn [In]; auto].
      rewrite <- (firstn_skipn r (firstn r1 L)). apply in_or_app. right. apply in_rev. rewrite EE. now left. }
    rewrite NE. cbn [rbind]. rewrite T1. rewrite (prefix_line r1 Le).
    assert (A : exists e, (match skipn r (firstn r1 L) with [] => Ok (firstn r1 L) | _ => readline D len fuel (if (z <? 8000)%N then (2 * z)%N else z) n1 r1 end) = Ok (L ++ e) /\ Forall separator e).
    { destruct (skipn r (firstn r1 L)) as [|c t] eqn:EE.
      - exists []. rewrite app_nil_r. split; [|constructor].
        assert (LL : length (skipn r (firstn r1 L)) = 0) by (now rewrite EE). rewrite skipn_length, firstn_length in LL.
        assert (r1 = r) by lia. pose proof short_line.
        assert (r = length L) by (unfold r1 in *; lia). rewrite firstn_all2 by lia. reflexivity.
      - apply IH; auto.
        assert (LL : length (skipn r (firstn r1 L)) = S (length t)) by (now rewrite EE). rewrite skipn_length, firstn_length in LL. lia. }
    rewrite (split_plain _ (one_firstn r1)). destruct (firstn r1 L) as [|c t] eqn:EE; [exact A|].
    replace (ends_with line_sep (c :: t)) with false; [exact A|]. symmetry.
    unfold ends_with. destruct (rev (c :: t)) as [|d u] eqn:RR; [reflexivity|]. apply not_sep. apply (one_firstn r1).
    rewrite EE. apply in_rev. rewrite RR. now left.
  - assert (K : forall m r2, good m -> r1 <= r2 -> r2 <= length (fst (D m)) ->
      forall again, exists e, match splitlines (firstn r2 (fst (D m))) with
        | [] => again | [l] => if ends_with line_sep l then Ok l else again | l :: _ :: _ => Ok l end = Ok (L ++ e) /\ Forall separator e).
    { intros m r2 G H1 H2 again. destruct (good_take m r2 G H2) as [T T']. rewrite T.
      destruct (prefix_more r2) as (x & y & EE & S); [lia|exact T'|]. rewrite EE.
      destruct (split_first L x y one S) as (e & tl & E & FF & En). rewrite E. exists e. split; [|exact FF].
      destruct tl; [now rewrite En|reflexivity]. }
    destruct (ends_with (N.eqb 13) (skipn r (firstn r1 s))).
    + rewrite E2. cbn [rbind]. apply K; [exact G2|lia|lia].
    + cbn [rbind]. apply K; [exact G1|lia|lia].
Qed.
End Reading.

(** * Files that can be decoded to the end *)
Section Whole.
Variables (d : decoder) (file : bytes) (s L : chars).
Hypothesis one : on_one_line L.
Hypothesis bw : begins_with L s.
Hypothesis pre : forall n, exists k, d (firstn n file) = (firstn k s, false).
Hypothesis mono : forall n m, n <= m -> length (fst (d (firstn n file))) <= length (fst (d (firstn m file))).
Hypothesis all : d file = (s, false).
Hypothesis bytes_enough : length s <= length file.
Let D := fun n => d (firstn n file).

Lemma fill_whole fl fuel : forall size want n, 0 < size -> length file <= n + fuel ->
  exists n1, fill D (length file) fuel fl size want n = Ok n1 /\ n <= n1 /\ Nat.min want (length s) <= length (fst (D n1)).
Proof.
  induction fuel as [|fuel IH]; intros size want n Z F; cbn [fill].
  - destruct (want <=? length (fst (D n))) eqn:E; [apply Nat.leb_le in E; exists n; repeat split; lia|].
    rewrite (proj2 (Nat.leb_le _ _)) by lia. assert (DD : D n = (s, false)) by (unfold D; rewrite firstn_all2 by lia; exact all).
    rewrite DD. cbn [snd]. exists n. rewrite DD. cbn [fst]. repeat split; lia.
  - destruct (want <=? length (fst (D n))) eqn:E; [apply Nat.leb_le in E; exists n; repeat split; lia|].
    destruct (length file <=? n) eqn:E'.
    + apply Nat.leb_le in E'. assert (DD : D n = (s, false)) by (unfold D; rewrite firstn_all2 by lia; exact all).
      rewrite DD. cbn [snd]. exists n. rewrite DD. cbn [fst]. repeat split; lia.
    + apply Nat.leb_gt in E'. set (n' := Nat.min (length file) (n + size)).
      destruct (pre n') as (k & P). replace (snd (D n')) with false by (unfold D; now rewrite P). cbn [andb].
      destruct (IH size want n' Z) as (n1 & A & B & C); [unfold n'; lia|]. exists n1. split; [exact A|]. split; [unfold n' in B; lia|exact C].
Qed.
Lemma first_line_whole : exists e, first_line d file = Ok (L ++ e) /\ Forall separator e.
Proof.
  unfold first_line. apply (readline_ok D (length file) s L (fun _ _ z => (0 < z)%N) one bw); [|lia|lia|lia].
  intros n r z Z R. destruct (fill_whole true (length file) (N.to_nat z) (r + N.to_nat z) n) as (n1 & A & B & C); [lia|lia|].
  assert (G : forall m, good D s m) by (intros m; destruct (pre m) as (k & P); exists k; unfold D; now rewrite P).
  exists n1. split; [exact A|]. split; [apply G|]. split; [exact C|]. split; [exact Z|]. split; [destruct (z <? 8000)%N; lia|].
  destruct (fill_whole false (length file) 1 (Nat.min (r + N.to_nat z) (length (fst (D n1))) + 1) n1) as (n2 & A2 & B2 & C2); [lia|lia|].
  exists n2. split; [exact A2|]. split; [apply G|]. now apply mono.
Qed.
End Whole.

(** * Files of which the first bytes are ASCII *)
Section Start.
Variables (d : decoder) (file : bytes) (a L : chars).
Hypothesis one : on_one_line L.
Hypothesis bw : begins_with L a.
Hypothesis pre : forall n, n <= length a -> d (firstn n file) = (firstn n a, false).
Hypothesis long : 2 * length L + 73 <= length a.
Hypothesis within : length a <= length file.
Let D := fun n => d (firstn n file).
Lemma first_line_start : exists e, first_line d file = Ok (L ++ e) /\ Forall separator e.
Proof.
  unfold first_line. apply (readline_ok D (length file) a L (fun n r z => n = r /\ N.to_nat z <= r + 72 /\ (0 < z)%N) one bw).
  - intros n r z (-> & Z1 & Z0) R.
    assert (P : forall m, m <= length a -> length (fst (D m)) = m) by (intros m H; unfold D; rewrite pre by exact H; cbn [fst]; rewrite firstn_length; lia).
    assert (Q : forall m, m <= length a -> snd (D m) = false) by (intros m H; unfold D; rewrite pre by exact H; reflexivity).
    assert (G : forall m, m <= length a -> good D a m) by (intros m H; exists m; unfold D; rewrite pre by exact H; reflexivity).
    assert (St : forall fl size m, 0 < size -> m + size <= length a -> fill D (length file) (length file) fl size (m + size) m = Ok (m + size)).
    { intros fl size m Z H. destruct (length file) as [|k] eqn:EL; [lia|]. cbn [fill].
      rewrite P by lia. rewrite (proj2 (Nat.leb_gt _ _)) by lia. rewrite (proj2 (Nat.leb_gt (S k) m)) by lia.
      replace (Nat.min (S k) (m + size)) with (m + size) by lia. rewrite Q by lia. cbn [andb].
      destruct k; cbn [fill]; rewrite P by lia; rewrite Nat.leb_refl; reflexivity. }
    exists (r + N.to_nat z). rewrite St by lia. split; [reflexivity|]. split; [apply G; lia|]. rewrite (P (r + N.to_nat z)) by lia. 
    rewrite Nat.min_id. split; [lia|]. split; [exact Z0|]. split; [split; [reflexivity|]; destruct (z <? 8000)%N; lia|].
    exists (r + N.to_nat z + 1). rewrite St by lia. split; [reflexivity|]. split; [apply G; lia|]. rewrite P by lia. lia.
  - repeat split; lia.
  - lia.
  - lia.
Qed.
End Start.
