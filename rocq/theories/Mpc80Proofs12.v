From Verif Require Import FmtRe PyStrProofs PackProofs13 PackProofs14 PyReProofs.
From Verif Require Import Mpc80.
From Verif Require Export Mpc80Proofs11.
Local Open Scope nat_scope.

(** * The columns of the other kinds of lines, read back *)
Lemma unpoint_pointed n w : n <= length w -> firstn n (firstn n w ++ $"." ++ skipn n w) ++ skipn (S n) (firstn n w ++ $"." ++ skipn n w) = w.
Proof.
  intros L. assert (length (firstn n w) = n) as LF by (rewrite firstn_length; lia).
  rewrite firstn_app, LF, Nat.sub_diag, firstn_O, app_nil_r. rewrite firstn_all2 by lia.
  rewrite skipn_app, skipn_all2 by lia. rewrite LF. replace (S n - n) with 1 by lia. cbn [app skipn]. apply firstn_skipn.
Qed.
Lemma unpoint_implied n k w : n <= length w -> length w = k -> unpoint n k (implied_point n w) = w.
Proof.
  intros L <-. unfold implied_point. destruct (streqb w (spaces (length w))) eqn:E.
  - apply streqb_eq in E. symmetry. exact E.
  - unfold unpoint. destruct (firstn n w ++ $"." ++ skipn n w) eqn:X.
    + apply app_eq_nil in X as [_ X]. discriminate X.
    + rewrite <- X. now apply unpoint_pointed.
Qed.
Lemma cols_glue a b c l w : 1 <= a -> a <= b -> b < c -> w = cols (S b) c l -> cols a b l ++ w = cols a c l.
Proof. intros A B C ->. now apply cols_app. Qed.
Ltac glue L := repeat (eapply cols_glue; [lia|lia|lia|]); first [reflexivity|apply (cols_app 72 77 80); lia].
Lemma cols_head l w : cols 1 12 l ++ cols 13 13 l ++ cols 14 14 l ++ cols 15 15 l ++ cols 16 32 l ++ w = cols 1 32 l ++ w.
Proof.
  rewrite <- (cols_app 1 15 32 l), <- (cols_app 1 14 15 l), <- (cols_app 1 13 14 l), <- (cols_app 1 12 13 l) by lia.
  now rewrite <- !app_assoc.
Qed.
Lemma from33 l w : length l = 80 -> w = cols 33 80 l -> cols 1 32 l ++ w = l.
Proof. intros L ->. rewrite (cols_app 1 32 80) by lia. now apply whole. Qed.
Theorem radar2_reproduced l d : ~ In nl l -> decode80 l = Ok d -> is_kind "r" d = true ->
  flat_map (text_of d) head_columns ++ text_of d $"sc" ++ unpoint 10 14 (text_of d $"delay uncertainty") ++
  unpoint 11 15 (text_of d $"shift uncertainty") ++ text_of d $"frq continuation" ++ text_of d $"trx" ++
  flat_map (text_of d) tail_columns = l.
Proof.
  intros NL H K. apply decode_iff in H; auto. destruct (decodes_r l d H K) as (F & t & p & perm & prov & trk & NH & (D & NO & U) & ->).
  pose proof (lay_radar2 l F) as L.
  transitivity (cols 1 12 l ++ cols 13 13 l ++ cols 14 14 l ++ cols 15 15 l ++ cols 16 32 l ++ (cols 33 33 l ++
    unpoint 10 14 (implied_point 10 (cols 34 47 l)) ++ unpoint 11 15 (implied_point 11 (cols 48 62 l)) ++
    cols 63 68 l ++ cols 69 71 l ++ cols 72 77 l ++ cols 78 80 l)).
  { cbn [flat_map head_columns tail_columns]. rewrite !app_nil_r, <- !app_assoc. reflexivity. }
  rewrite !unpoint_implied by (rewrite cols_length; lia).
  rewrite cols_head. apply from33; auto.
  rewrite (cols_app 72 77 80), (cols_app 69 71 80), (cols_app 63 68 80), (cols_app 48 62 80), (cols_app 34 47 80), (cols_app 33 33 80) by lia.
  reflexivity.
Qed.
Theorem radar1_reproduced l d : ~ In nl l -> decode80 l = Ok d -> is_kind "R" d = true ->
  exists w, length w = 15 /\ shift_of w (text_of d $"shift") /\
  flat_map (text_of d) head_columns ++ unpoint 5 15 (text_of d $"delay") ++ w ++ unpoint 5 6 (text_of d $"frq") ++
  text_of d $"trx" ++ flat_map (text_of d) tail_columns = l.
Proof.
  intros NL H K. apply decode_iff in H; auto. destruct (decodes_R l d H K) as (F & t & p & perm & prov & trk & shift & NH & (D & NO & U) & SH & ->).
  pose proof (lay_radar1 l F) as L. exists (cols 48 62 l). split; [rewrite cols_length; lia|]. split; [exact SH|].
  transitivity (cols 1 12 l ++ cols 13 13 l ++ cols 14 14 l ++ cols 15 15 l ++ cols 16 32 l ++ (
    unpoint 5 15 (implied_point 5 (cols 33 47 l)) ++ cols 48 62 l ++
    unpoint 5 6 (firstn 5 (cols 63 68 l) ++ $"." ++ skipn 5 (cols 63 68 l)) ++ cols 69 71 l ++ cols 72 77 l ++ cols 78 80 l)).
  { cbn [flat_map head_columns tail_columns]. rewrite !app_nil_r, <- !app_assoc. reflexivity. }
  rewrite unpoint_implied by (rewrite cols_length; lia).
  assert (unpoint 5 6 (firstn 5 (cols 63 68 l) ++ $"." ++ skipn 5 (cols 63 68 l)) = cols 63 68 l) as ->.
  { pose proof (cols_length 63 68 l) as LL. pose proof (unpoint_pointed 5 (cols 63 68 l)) as E.
    unfold unpoint. destruct (firstn 5 (cols 63 68 l) ++ $"." ++ skipn 5 (cols 63 68 l)) eqn:X; [|apply E; lia].
    apply app_eq_nil in X as [_ X]. discriminate X. }
  rewrite cols_head. apply from33; auto.
  rewrite (cols_app 72 77 80), (cols_app 69 71 80), (cols_app 63 68 80), (cols_app 48 62 80), (cols_app 33 47 80) by lia.
  reflexivity.
Qed.

Lemma decodes_s l d : decodes l d -> is_kind "s" d = true -> laid_out satellite_layout l /\ exists t p perm prov trk x y z dp sys,
  accepted false l t p perm prov trk /\
  (if streqb (cols 33 33 l) $"1" then (dp, sys) = (7%Z, $"ICRF_KM") else (dp, sys) = (3%Z, $"ICRF_AU")) /\
  position dp (cols 35 45 l) x /\ position dp (cols 47 57 l) y /\ position dp (cols 59 69 l) z /\
  d = texts (common l ++
      [($"parallax_type", cols 33 33 l); ($"ctr", $"399"); ($"pos1", x); ($"pos2", y); ($"pos3", z); ($"sys", sys);
       ($"packedref", cols 72 77 l); ($"stn", cols 78 80 l)] ++
      time_fields t p ++ [($"astCat", cols 72 72 l)]) ++ designation perm prov trk.
Proof.
  intros H K. destruct H as [k v Le I E|t p perm prov trk ra pra de pde NH F (D & NO & U) R0 DE
                            |t p perm prov trk shift NH F (D & NO & U) S|t p perm prov trk NH F (D & NO & U)
                            |t p perm prov trk x y z dp sys NH F AC SY P1 P2 P3|t p perm prov trk NH F (D & NO & U)|E].
  5:{ split; auto. exists t, p, perm, prov, trk, x, y, z, dp, sys. auto 10. }
  1: discriminate K.
  5: discriminate K.
  all: exfalso; unfold is_kind in K; change (text_of _ $"code") with (cols 15 15 l) in K; apply streqb_eq in K;
    eapply kind_char in F as (c & C & M); [|reflexivity|reflexivity]; rewrite C in K; injection K as ->; discriminate M.
Qed.
Lemma decodes_v l d : decodes l d -> is_kind "v" d = true -> laid_out rover_layout l /\ exists t p perm prov trk,
  accepted false l t p perm prov trk /\
  d = texts (common l ++
      [($"sys", $"WGS84"); ($"ctr", $"399"); ($"pos1", cols 35 44 l); ($"pos2", cols 46 55 l); ($"pos3", cols 57 61 l);
       ($"packedref", cols 72 77 l); ($"stn", cols 78 80 l)] ++
      time_fields t p ++ [($"astCat", cols 72 72 l)]) ++ designation perm prov trk.
Proof.
  intros H K. destruct H as [k v Le I E|t p perm prov trk ra pra de pde NH F (D & NO & U) R0 DE
                            |t p perm prov trk shift NH F (D & NO & U) S|t p perm prov trk NH F (D & NO & U)
                            |t p perm prov trk x y z dp sys NH F (D & NO & U) SY P1 P2 P3|t p perm prov trk NH F AC|E].
  6:{ split; auto. exists t, p, perm, prov, trk. auto 10. }
  1: discriminate K.
  5: discriminate K.
  all: exfalso; unfold is_kind in K; change (text_of _ $"code") with (cols 15 15 l) in K; apply streqb_eq in K;
    eapply kind_char in F as (c & C & M); [|reflexivity|reflexivity]; rewrite C in K; injection K as ->; discriminate M.
Qed.
Lemma all_blank w : forallb (one_of $" ") w = true -> w = spaces (length w).
Proof.
  induction w as [|c w IH]; [reflexivity|]. cbn [forallb length]. rewrite andb_true_iff. intros [A B].
  change (spaces (S (length w))) with (" "%char :: spaces (length w)). rewrite <- IH by auto. f_equal.
  assert (forall c, implb (one_of $" " c) (ceqb c " ") = true) as S by (apply forall_ascii; vm_compute; reflexivity).
  specialize (S c). rewrite A in S. now apply ceqb_eq in S.
Qed.
Lemma one_char a l x : length l = 80 -> 1 <= a <= 80 -> forallb (one_of [x]) (cols a a l) = true -> cols a a l = [x].
Proof.
  intros L A F. destruct (nth_cols (a - 1) l) as (c & _ & C); [lia|]. replace (S (a - 1)) with a in C by lia. rewrite C in *. cbn [forallb] in F.
  rewrite andb_true_r in F. unfold one_of, cmem in F. destruct (cfind c [x]) eqn:X; [|discriminate]. cbn in X.
  destruct (ceqb x c) eqn:Y; [|discriminate]. apply ceqb_eq in Y. now subst.
Qed.
Theorem satellite_reproduced l d : ~ In nl l -> decode80 l = Ok d -> is_kind "s" d = true ->
  exists a b c w1 w2 w3, let dp := if streqb (text_of d $"sys") $"ICRF_KM" then 7%Z else 3%Z in
  unPackSigned (text_of d $"pos1") 11 dp = Ok w1 /\ unPackSigned (text_of d $"pos2") 11 dp = Ok w2 /\
  unPackSigned (text_of d $"pos3") 11 dp = Ok w3 /\
  flat_map (text_of d) head_columns ++ text_of d $"parallax_type" ++ [a] ++ w1 ++ [b] ++ w2 ++ [c] ++ w3 ++ spaces 2 ++
  flat_map (text_of d) tail_columns = l.
Proof.
  intros NL H K. apply decode_iff in H; auto.
  destruct (decodes_s l d H K) as (F & t & p & perm & prov & trk & x & y & z & dp & sys & (D & NO & U) & SY & (_ & P1) & (_ & P2) & (_ & P3) & ->).
  assert (length l = 80) as L by (apply laid_out_fitp in F; now apply lay80 in F).
  destruct (nth_cols 33 l) as (a & _ & A); [lia|]. destruct (nth_cols 45 l) as (b & _ & B); [lia|]. destruct (nth_cols 57 l) as (c & _ & C); [lia|].
  exists a, b, c, (cols 35 45 l), (cols 47 57 l), (cols 59 69 l). cbv zeta.
  match goal with |- context [if ?c then 7%Z else 3%Z] => assert ((if c then 7%Z else 3%Z) = dp) as -> end.
  { change (text_of _ $"sys") with sys. destruct (streqb (cols 33 33 l) $"1"); injection SY as -> ->; reflexivity. }
  split; [exact P1|]. split; [exact P2|]. split; [exact P3|].
  transitivity (cols 1 12 l ++ cols 13 13 l ++ cols 14 14 l ++ cols 15 15 l ++ cols 16 32 l ++ (cols 33 33 l ++ [a] ++
    cols 35 45 l ++ [b] ++ cols 47 57 l ++ [c] ++ cols 59 69 l ++ spaces 2 ++ cols 72 77 l ++ cols 78 80 l)).
  { cbn [flat_map head_columns tail_columns]. rewrite !app_nil_r, <- !app_assoc. reflexivity. }
  rewrite <- A, <- B, <- C. apply laid_out_fitp in F.
  assert (spaces 2 = cols 70 71 l) as ->.
  { assert (forallb (one_of $" ") (cols 70 71 l) = true) as X by fclass F. apply all_blank in X. rewrite cols_length in X by lia. now rewrite X. }
  rewrite cols_head. apply from33; auto.
  rewrite (cols_app 72 77 80), (cols_app 70 71 80), (cols_app 59 69 80), (cols_app 58 58 80), (cols_app 47 57 80),
    (cols_app 46 46 80), (cols_app 35 45 80), (cols_app 34 34 80), (cols_app 33 33 80) by lia.
  reflexivity.
Qed.
Theorem rover_reproduced l d : ~ In nl l -> decode80 l = Ok d -> is_kind "v" d = true ->
  flat_map (text_of d) head_columns ++ $"1 " ++ text_of d $"pos1" ++ $" " ++ text_of d $"pos2" ++ $" " ++ text_of d $"pos3" ++
  spaces 10 ++ flat_map (text_of d) tail_columns = l.
Proof.
  intros NL H K. apply decode_iff in H; auto.
  destruct (decodes_v l d H K) as (F & t & p & perm & prov & trk & (D & NO & U) & ->). apply laid_out_fitp in F.
  assert (length l = 80) as L by (now apply lay80 in F).
  transitivity (cols 1 12 l ++ cols 13 13 l ++ cols 14 14 l ++ cols 15 15 l ++ cols 16 32 l ++ ($"1" ++ $" " ++
    cols 35 44 l ++ $" " ++ cols 46 55 l ++ $" " ++ cols 57 61 l ++ spaces 10 ++ cols 72 77 l ++ cols 78 80 l)).
  { cbn [flat_map head_columns tail_columns]. rewrite !app_nil_r, <- !app_assoc. reflexivity. }
  assert (cols 33 33 l = $"1") as X1 by (apply one_char; [lia|lia|fclass F]).
  assert (cols 34 34 l = $" ") as X2 by (apply one_char; [lia|lia|fclass F]).
  assert (cols 45 45 l = $" ") as X3 by (apply one_char; [lia|lia|fclass F]).
  assert (cols 56 56 l = $" ") as X4 by (apply one_char; [lia|lia|fclass F]).
  assert (spaces 10 = cols 62 71 l) as ->.
  { assert (forallb (one_of $" ") (cols 62 71 l) = true) as X by fclass F. apply all_blank in X. rewrite cols_length in X by lia. now rewrite X. }
  rewrite <- X1. rewrite <- X2 at 1. rewrite <- X3 at 1. rewrite <- X4 at 1.
  rewrite cols_head. apply from33; auto.
  rewrite (cols_app 72 77 80), (cols_app 62 71 80), (cols_app 57 61 80), (cols_app 56 56 80), (cols_app 46 55 80),
    (cols_app 45 45 80), (cols_app 35 44 80), (cols_app 34 34 80), (cols_app 33 33 80) by lia.
  reflexivity.
Qed.
