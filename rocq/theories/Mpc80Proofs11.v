From Verif Require Import FmtRe PyStrProofs PackProofs13 PackProofs14 PyReProofs.
From Verif Require Import Mpc80.
From Verif Require Export Mpc80Proofs10.
Local Open Scope nat_scope.

(** * Blanking columns *)
Lemma cols_left a b u v : 1 <= a -> a <= b -> b <= length u -> cols a b (u ++ v) = cols a b u.
Proof.
  intros O L H. unfold cols. rewrite skipn_app, (proj2 (Nat.sub_0_le (a - 1) (length u))) by lia.
  rewrite skipn_O, firstn_app, skipn_length. rewrite (proj2 (Nat.sub_0_le (b - a + 1) (length u - (a - 1)))) by lia.
  rewrite firstn_O, app_nil_r. reflexivity.
Qed.
Lemma cols_right a b u v : length u < a -> a <= b -> cols a b (u ++ v) = cols (a - length u) (b - length u) v.
Proof.
  intros A B. unfold cols. rewrite skipn_app, skipn_all2 by lia. cbn [app]. f_equal; [lia|]. f_equal. lia.
Qed.
Lemma fitp_app ps : forall u v, fitp ps (u ++ v) = fitp (firstn (length u) ps) u && fitp (skipn (length u) ps) v.
Proof.
  induction ps as [|p ps IH]; intros [|x u] v; cbn [app length firstn skipn fitp]; auto.
  rewrite IH. now rewrite andb_assoc.
Qed.
Lemma fitp_spaces ps : forall n, length ps = n -> forallb (fun p : ascii -> bool => p " "%char) ps = true -> fitp ps (spaces n) = true.
Proof.
  induction ps as [|p ps IH]; intros [|n] L H; try discriminate L; auto.
  change (spaces (S n)) with (" "%char :: spaces n). cbn [fitp forallb length] in *. apply andb_prop in H as [H1 H2]. rewrite H1.
  cbn [andb]. apply IH; auto.
Qed.
Lemma fitp_blank ps u q v : fitp ps (u ++ q ++ v) = true ->
  forallb (fun p : ascii -> bool => p " "%char) (firstn (length q) (skipn (length u) ps)) = true ->
  fitp ps (u ++ spaces (length q) ++ v) = true.
Proof.
  rewrite !fitp_app, !andb_true_iff. intros (A & B & C) S.
  assert (length (spaces (length q)) = length q) as LS by apply repeat_length.
  split; [auto|]. rewrite LS. split; [|auto]. apply fitp_spaces; auto.
  apply fitp_length in B. auto.
Qed.
Lemma whole l : length l = 80 -> cols 1 80 l = l.
Proof. intros L. unfold cols. cbn [Nat.sub Nat.add skipn]. apply firstn_all2. lia. Qed.
Lemma parts a b l : length l = 80 -> 1 <= a -> a < b -> b < 80 -> l = cols 1 a l ++ cols (S a) b l ++ cols (S b) 80 l.
Proof. intros L A B C. rewrite (cols_app (S a) b 80) by lia. rewrite (cols_app 1 a 80) by lia. symmetry. now apply whole. Qed.

(** columns c to d of a line whose columns a+1 to b were blanked *)
Definition blanked (a b : nat) (l : str) : str := cols 1 a l ++ spaces (b - a) ++ cols (S b) 80 l.
Lemma keep_delay_blanked l : keep_delay l = blanked 47 61 l. Proof. reflexivity. Qed.
Lemma keep_doppler_blanked l : keep_doppler l = blanked 34 47 l. Proof. reflexivity. Qed.
Section Blanked.
  Context (a b : nat) (l : str) (L : length l = 80) (A : 1 <= a) (B : a < b) (C : b < 80).
  Lemma len1 : length (cols 1 a l) = a. Proof. rewrite cols_length; lia. Qed.
  Lemma len2 : length (cols (S a) b l) = b - a. Proof. rewrite cols_length; lia. Qed.
  Lemma len3 : length (cols (S b) 80 l) = 80 - b. Proof. rewrite cols_length; lia. Qed.
  Lemma blanked_length : length (blanked a b l) = 80.
  Proof. unfold blanked. rewrite !app_length, len1, len3. unfold spaces. rewrite repeat_length. lia. Qed.
  Lemma blanked_left c d : 1 <= c -> c <= d -> d <= a -> cols c d (blanked a b l) = cols c d l.
  Proof.
    intros. transitivity (cols c d (cols 1 a l ++ cols (S a) b l ++ cols (S b) 80 l)); [|now rewrite <- parts].
    unfold blanked. rewrite !(cols_left c d) by (rewrite ?len1; lia). reflexivity.
  Qed.
  Lemma blanked_right c d : b < c -> c <= d -> cols c d (blanked a b l) = cols c d l.
  Proof.
    intros. transitivity (cols c d (cols 1 a l ++ cols (S a) b l ++ cols (S b) 80 l)); [|now rewrite <- parts].
    unfold blanked. rewrite !app_assoc. rewrite !(cols_right c d) by (rewrite ?app_length, ?len1, ?len2; unfold spaces; rewrite ?repeat_length; lia).
    rewrite !app_length, len1, len2. unfold spaces. rewrite repeat_length. reflexivity.
  Qed.
  Lemma blanked_mid : cols (S a) b (blanked a b l) = spaces (b - a).
  Proof.
    unfold blanked. rewrite cols_right by (rewrite ?len1; lia). rewrite len1. rewrite cols_left by (unfold spaces; rewrite ?repeat_length; lia).
    unfold cols. replace (b - a - (S a - a) + 1) with (b - a) by lia. replace (S a - a - 1) with 0 by lia. rewrite skipn_O.
    apply firstn_all2. unfold spaces. rewrite repeat_length. lia.
  Qed.
  Lemma blanked_fitp ps : fitp ps l = true -> forallb (fun p : ascii -> bool => p " "%char) (firstn (b - a) (skipn a ps)) = true ->
    fitp ps (blanked a b l) = true.
  Proof.
    intros F S. unfold blanked. rewrite <- len2. apply fitp_blank.
    - rewrite <- parts; auto.
    - now rewrite len1, len2.
  Qed.
  Lemma blanked_header : 4 <= a -> header_line (blanked a b l) -> header_line l.
  Proof.
    intros H. rewrite <- !is_header_iff, <- (is_header_firstn 4 l), <- (is_header_firstn 4 (blanked a b l)) by lia.
    intros E. rewrite <- E. f_equal. pose proof (blanked_left 1 4) as X. unfold cols in X. cbn [Nat.sub Nat.add skipn] in X. symmetry. apply X; lia.
  Qed.
End Blanked.

(** * What the lines of a split pair say *)
Lemma decodes_R l d : decodes l d -> is_kind "R" d = true -> laid_out radar1_layout l /\ exists t p perm prov trk shift,
  ~ header_line l /\ accepted true l t p perm prov trk /\ shift_of (cols 48 62 l) shift /\
  d = texts (common l ++
      [($"delay", implied_point 5 (cols 33 47 l)); ($"shift", shift);
       ($"frq", firstn 5 (cols 63 68 l) ++ $"." ++ skipn 5 (cols 63 68 l));
       ($"trx", cols 69 71 l); ($"packedref", cols 72 77 l); ($"stn", cols 78 80 l)] ++
      time_fields t p ++ [($"astCat", cols 72 72 l)]) ++ designation perm prov trk.
Proof.
  intros H K. destruct H as [k v Le I E|t p perm prov trk ra pra de pde NH F (D & NO & U) R0 DE
                            |t p perm prov trk shift NH F AC S|t p perm prov trk NH F (D & NO & U)
                            |t p perm prov trk x y z dp sys NH F (D & NO & U) SY P1 P2 P3|t p perm prov trk NH F (D & NO & U)|E].
  3:{ split; auto. exists t, p, perm, prov, trk, shift. split; [auto|]. split; [auto|]. split; auto. }
  1: discriminate K.
  5: discriminate K.
  all: exfalso; unfold is_kind in K; change (text_of _ $"code") with (cols 15 15 l) in K; apply streqb_eq in K;
    eapply kind_char in F as (c & C & M); [|reflexivity|reflexivity]; rewrite C in K; injection K as ->; discriminate M.
Qed.
Lemma decodes_r l d : decodes l d -> is_kind "r" d = true -> laid_out radar2_layout l /\ exists t p perm prov trk,
  ~ header_line l /\ accepted true l t p perm prov trk /\
  d = texts (common l ++
      [($"sc", cols 33 33 l); ($"delay uncertainty", implied_point 10 (cols 34 47 l));
       ($"shift uncertainty", implied_point 11 (cols 48 62 l)); ($"frq continuation", cols 63 68 l);
       ($"trx", cols 69 71 l); ($"packedref", cols 72 77 l); ($"stn", cols 78 80 l)] ++
      time_fields t p ++ [($"astCat", cols 72 72 l)]) ++ designation perm prov trk.
Proof.
  intros H K. destruct H as [k v Le I E|t p perm prov trk ra pra de pde NH F (D & NO & U) R0 DE
                            |t p perm prov trk shift NH F (D & NO & U) S|t p perm prov trk NH F AC
                            |t p perm prov trk x y z dp sys NH F (D & NO & U) SY P1 P2 P3|t p perm prov trk NH F (D & NO & U)|E].
  4:{ split; auto. exists t, p, perm, prov, trk. split; [auto|]. split; auto. }
  1: discriminate K.
  5: discriminate K.
  all: exfalso; unfold is_kind in K; change (text_of _ $"code") with (cols 15 15 l) in K; apply streqb_eq in K;
    eapply kind_char in F as (c & C & M); [|reflexivity|reflexivity]; rewrite C in K; injection K as ->; discriminate M.
Qed.
Lemma implied_blank n w : w = spaces (length w) -> implied_point n w = [].
Proof. intros E. unfold implied_point. rewrite <- E, streqb_refl. reflexivity. Qed.
Lemma spaces_app a b : spaces a ++ spaces b = spaces (a + b).
Proof. unfold spaces. symmetry. apply repeat_app. Qed.
Section Keep.
  Context (l : str) (L : length l = 80).
  Let kl := keep_delay l. Let kd := keep_doppler l.
  Lemma kl_left c d : 1 <= c -> c <= d -> d <= 47 -> cols c d kl = cols c d l.
  Proof. intros. apply (blanked_left 47 61); lia. Qed.
  Lemma kl_right c d : 61 < c -> c <= d -> cols c d kl = cols c d l.
  Proof. intros. apply (blanked_right 47 61); lia. Qed.
  Lemma kl_mid : cols 62 62 l = $" " -> cols 48 62 kl = spaces 15.
  Proof.
    intros E. rewrite <- (cols_app 48 61 62) by lia. rewrite (kl_right 62 62) by lia. rewrite E.
    unfold kl. rewrite keep_delay_blanked, (blanked_mid 47 61) by lia. reflexivity.
  Qed.
  Lemma kd_left c d : 1 <= c -> c <= d -> d <= 34 -> cols c d kd = cols c d l.
  Proof. intros. apply (blanked_left 34 47); lia. Qed.
  Lemma kd_right c d : 47 < c -> c <= d -> cols c d kd = cols c d l.
  Proof. intros. apply (blanked_right 34 47); lia. Qed.
  Lemma kd_mid33 : cols 33 34 l = spaces 2 -> cols 33 47 kd = spaces 15.
  Proof.
    intros E. rewrite <- (cols_app 33 34 47) by lia. rewrite (kd_left 33 34) by lia. rewrite E.
    unfold kd. rewrite keep_doppler_blanked, (blanked_mid 34 47) by lia. reflexivity.
  Qed.
  Lemma kd_mid34 : cols 34 34 l = $" " -> cols 34 47 kd = spaces 14.
  Proof.
    intros E. rewrite <- (cols_app 34 34 47) by lia. rewrite (kd_left 34 34) by lia. rewrite E.
    unfold kd. rewrite keep_doppler_blanked, (blanked_mid 34 47) by lia. reflexivity.
  Qed.
End Keep.
Lemma lay_radar1 l : laid_out radar1_layout l -> length l = 80.
Proof. intros F. apply laid_out_fitp in F. now apply lay80 in F. Qed.
Lemma lay_radar2 l : laid_out radar2_layout l -> length l = 80.
Proof. intros F. apply laid_out_fitp in F. now apply lay80 in F. Qed.

Ltac nhead := match goal with N : ~ header_line ?l |- ~ header_line _ => intros H; apply N; revert H; eapply blanked_header; eauto; lia end.
Lemma delay_line l d : decodes l d -> is_kind "R" d = true -> cols 62 62 l = $" " ->
  decodes (keep_delay l) (iset $"shift" [] d).
Proof.
  intros H K S. destruct (decodes_R l d H K) as (F & t & p & perm & prov & trk & shift & NH & (D & NO & U) & SH & ->).
  pose proof (lay_radar1 l F) as L.
  eassert (decodes (keep_delay l) _) as X.
  { eapply (dec_radar1 (keep_delay l) t p perm prov trk []).
    - intros Hd. apply NH. apply (blanked_header 47 61 l L); auto; lia.
    - apply laid_out_fitp. rewrite keep_delay_blanked. apply blanked_fitp; [exact L|lia|lia|lia|now apply laid_out_fitp|vm_compute; reflexivity].
    - unfold accepted. rewrite (kl_left l L 16 32), (kl_left l L 1 12), (kl_left l L 14 14), (kl_right l L 78 80) by lia. exact (conj D (conj NO U)).
    - rewrite (kl_mid l L S). reflexivity. }
  unfold common in *. repeat match type of X with context [cols ?a ?b (keep_delay l)] => first [rewrite (kl_left l L a b) in X by lia|rewrite (kl_right l L a b) in X by lia] end. exact X.
Qed.
Lemma doppler_line l d : decodes l d -> is_kind "R" d = true -> cols 33 34 l = spaces 2 ->
  decodes (keep_doppler l) (iset $"delay" [] d).
Proof.
  intros H K S. destruct (decodes_R l d H K) as (F & t & p & perm & prov & trk & shift & NH & (D & NO & U) & SH & ->).
  pose proof (lay_radar1 l F) as L.
  eassert (decodes (keep_doppler l) _) as X.
  { eapply (dec_radar1 (keep_doppler l) t p perm prov trk shift).
    - intros Hd. apply NH. apply (blanked_header 34 47 l L); auto; lia.
    - apply laid_out_fitp. rewrite keep_doppler_blanked. apply blanked_fitp; [exact L|lia|lia|lia|now apply laid_out_fitp|vm_compute; reflexivity].
    - unfold accepted. rewrite (kd_left l L 16 32), (kd_left l L 1 12), (kd_left l L 14 14), (kd_right l L 78 80) by lia. exact (conj D (conj NO U)).
    - rewrite (kd_right l L) by lia. exact SH. }
  rewrite (kd_mid33 l L S) in X. rewrite (implied_blank 5 (spaces 15)) in X by reflexivity.
  unfold common in *. repeat match type of X with context [cols ?a ?b (keep_doppler l)] => first [rewrite (kd_left l L a b) in X by lia|rewrite (kd_right l L a b) in X by lia] end. exact X.
Qed.
Lemma delay_line2 l d : decodes l d -> is_kind "r" d = true -> cols 62 62 l = $" " ->
  decodes (keep_delay l) (iset $"shift uncertainty" [] d).
Proof.
  intros H K S. destruct (decodes_r l d H K) as (F & t & p & perm & prov & trk & NH & (D & NO & U) & ->).
  pose proof (lay_radar2 l F) as L.
  eassert (decodes (keep_delay l) _) as X.
  { eapply (dec_radar2 (keep_delay l) t p perm prov trk).
    - intros Hd. apply NH. apply (blanked_header 47 61 l L); auto; lia.
    - apply laid_out_fitp. rewrite keep_delay_blanked. apply blanked_fitp; [exact L|lia|lia|lia|now apply laid_out_fitp|vm_compute; reflexivity].
    - unfold accepted. rewrite (kl_left l L 16 32), (kl_left l L 1 12), (kl_left l L 14 14), (kl_right l L 78 80) by lia. exact (conj D (conj NO U)). }
  rewrite (kl_mid l L S) in X. rewrite (implied_blank 11 (spaces 15)) in X by reflexivity.
  unfold common in *. repeat match type of X with context [cols ?a ?b (keep_delay l)] => first [rewrite (kl_left l L a b) in X by lia|rewrite (kl_right l L a b) in X by lia] end. exact X.
Qed.
Lemma doppler_line2 l d : decodes l d -> is_kind "r" d = true -> cols 34 34 l = $" " ->
  decodes (keep_doppler l) (iset $"delay uncertainty" [] d).
Proof.
  intros H K S. destruct (decodes_r l d H K) as (F & t & p & perm & prov & trk & NH & (D & NO & U) & ->).
  pose proof (lay_radar2 l F) as L.
  eassert (decodes (keep_doppler l) _) as X.
  { eapply (dec_radar2 (keep_doppler l) t p perm prov trk).
    - intros Hd. apply NH. apply (blanked_header 34 47 l L); auto; lia.
    - apply laid_out_fitp. rewrite keep_doppler_blanked. apply blanked_fitp; [exact L|lia|lia|lia|now apply laid_out_fitp|vm_compute; reflexivity].
    - unfold accepted. rewrite (kd_left l L 16 32), (kd_left l L 1 12), (kd_left l L 14 14), (kd_right l L 78 80) by lia. exact (conj D (conj NO U)). }
  rewrite (kd_mid34 l L S) in X. rewrite (implied_blank 10 (spaces 14)) in X by reflexivity.
  unfold common in *. repeat match type of X with context [cols ?a ?b (keep_doppler l)] => first [rewrite (kd_left l L a b) in X by lia|rewrite (kd_right l L a b) in X by lia] end. exact X.
Qed.
