(** Fixed-format regular expressions: no alternatives, every repetition of a fixed
    length.  They match without backtracking, column by column. *)
From Verif Require Import PyRe PyStrProofs.

Fixpoint width (r : re) : nat :=
  match r with
  | REps | REos | RAlt _ _ => O
  | RCls _ => 1
  | RSeq a b => width a + width b
  | RRep _ n (Some _) => n
  | RRep _ _ None => O
  | RGrp _ r => width r
  end.
(** fixed length *)
Fixpoint fixedb (r : re) : bool :=
  match r with
  | REps | RCls _ | REos => true
  | RSeq a b => fixedb a && fixedb b
  | RRep _ n (Some m) => Nat.eqb n m
  | RGrp _ r => fixedb r
  | RRep _ _ None | RAlt _ _ => false
  end.
(** fixed length, but for a last part that may match anything *)
Fixpoint fixedt (r : re) : bool :=
  match r with
  | RSeq a b => fixedb a && fixedt b || Nat.eqb (width a) 0 && Nat.eqb (width b) 0 && fixedt a && fixedt b
  | RRep _ O None => true
  | _ => fixedb r
  end.
Fixpoint okn (k : cls) (n : nat) (s : str) : bool :=
  match n with
  | O => true
  | S n' => match s with x :: s' => incls k x && okn k n' s' | [] => false end
  end.
Fixpoint okf (r : re) (s : str) : bool :=
  match r with
  | REps | RAlt _ _ => true
  | REos => match s with [] => true | [x] => ceqb x nl | _ => false end
  | RCls k => okn k 1 s
  | RSeq a b => okf a s && okf b (skipn (width a) s)
  | RRep k n (Some _) => okn k n s
  | RRep _ _ None => true
  | RGrp _ r => okf r s
  end.
Fixpoint capsf (r : re) (s : str) (c : caps) : caps :=
  match r with
  | RSeq a b => capsf b (skipn (width a) s) (capsf a s c)
  | RGrp i r => (i, firstn (width r) s) :: capsf r s c
  | _ => c
  end.

Lemma skipn_skipn' {A} n : forall m (l : list A), skipn m (skipn n l) = skipn (n + m) l.
Proof. induction n as [|n IH]; intros m [|x l]; cbn; auto. destruct m; reflexivity. Qed.
Lemma okn_length k n : forall s, okn k n s = true -> (n <= length s)%nat.
Proof.
  induction n as [|n IH]; intros [|x s] H; cbn in *; try lia; try discriminate.
  apply andb_prop in H as [_ H]. apply IH in H. lia.
Qed.
Lemma okf_length r : forall s, fixedb r = true -> okf r s = true -> (width r <= length s)%nat.
Proof.
  induction r as [|k|a IHa b IHb|a IHa b IHb|k mn mx|i r IH|]; intros s F H; cbn [fixedb] in F; cbn [okf width] in H |- *; try lia.
  - now apply okn_length in H.
  - apply andb_prop in F as [Fa Fb]. apply andb_prop in H as [Ha Hb].
    apply IHa in Ha; auto. apply IHb in Hb; auto. rewrite skipn_length in Hb. lia.
  - destruct mx; [|discriminate]. now apply okn_length in H.
  - auto.
Qed.

Lemma rep_fixed {A} k n : forall s (kont : str -> option A),
  rep (incls k) n (Some n) s kont = if okn k n s then kont (skipn n s) else None.
Proof.
  induction n as [|n IH]; intros s kont.
  - destruct s; reflexivity.
  - destruct s as [|x s]; cbn; auto. destruct (incls k x); cbn; auto.
    rewrite IH. destruct (okn k n s); auto. destruct (kont (skipn n s)); auto.
Qed.

Lemma mtch_fixed {A} r : forall s c (kont : str -> caps -> option A), fixedb r = true ->
  mtch r s c kont = if okf r s then kont (skipn (width r) s) (capsf r s c) else None.
Proof.
  induction r as [|k|a IHa b IHb|a IHa b IHb|k mn mx|i r IH|]; intros s c kont F; cbn in F; cbn [mtch okf width capsf].
  - reflexivity.
  - destruct s as [|x s]; cbn; auto. destruct (incls k x); auto.
  - apply andb_prop in F as [Fa Fb]. rewrite IHa by auto. destruct (okf a s); cbn; auto.
    rewrite IHb by auto. rewrite skipn_skipn'. reflexivity.
  - discriminate.
  - destruct mx as [m|]; [|discriminate]. apply Nat.eqb_eq in F as <-. apply rep_fixed.
  - rewrite IH by auto. destruct (okf r s) eqn:O; auto. f_equal. f_equal. f_equal.
    apply okf_length in O; auto. rewrite skipn_length. f_equal. lia.
  - destruct s as [|x [|y s]]; cbn; auto.
Qed.

Lemma fixedb_t r : fixedb r = true -> fixedt r = true.
Proof.
  induction r as [|k|a IHa b IHb|a IHa b IHb|k mn mx|i r IH|]; cbn; auto.
  - intros F. apply andb_prop in F as [Fa Fb]. rewrite Fa, IHb; auto.
  - destruct mn; auto. destruct mx; auto.
Qed.

(** on a string of exactly the length of the format *)
Lemma mtch_fixedt {A} : forall r s c (kont : str -> caps -> option A), fixedt r = true -> length s = width r ->
  mtch r s c kont = if okf r s then kont [] (capsf r s c) else None.
Proof.
  assert (base : forall r s c (kont : str -> caps -> option A), fixedb r = true -> length s = width r ->
            mtch r s c kont = if okf r s then kont [] (capsf r s c) else None).
  { intros r0 s c kont F L. rewrite mtch_fixed by auto. rewrite <- L, skipn_all. reflexivity. }
  intros r. induction r as [|k|a IHa b IHb|a IHa b IHb|k mn mx|i r IH|]; intros s c kont F L; try (now apply base).
  - cbn [fixedt] in F. apply orb_prop in F as [F|F].
    + apply andb_prop in F as [Fa Fb]. cbn [mtch okf width capsf] in *.
      rewrite mtch_fixed by auto. destruct (okf a s) eqn:O; cbn; auto. rewrite IHb; auto.
      rewrite skipn_length. lia.
    + apply andb_prop in F as [F Fb]. apply andb_prop in F as [F Fa]. apply andb_prop in F as [Wa Wb].
      apply Nat.eqb_eq in Wa, Wb. cbn [mtch okf width capsf] in *.
      assert (s = []) by (destruct s; cbn in *; auto; lia). subst s.
      rewrite IHa by auto. rewrite Wa. cbn [skipn]. destruct (okf a []); cbn; auto.
  - cbn [fixedt] in F. destruct mn; [|now apply base]. destruct mx as [m|]; [now apply base|].
    cbn [width] in L. destruct s; [|discriminate]. reflexivity.
Qed.

Theorem re_match_fixed r s : fixedt r = true -> length s = width r ->
  re_match r s = if okf r s then Some (capsf r s []) else None.
Proof. intros F L. unfold re_match. now rewrite mtch_fixedt by auto. Qed.

(** the conditions as a list of columns *)
Fixpoint cells (r : re) : list cls :=
  match r with
  | RCls k => [k]
  | RSeq a b => cells a ++ cells b
  | RRep k n (Some _) => repeat k n
  | RGrp _ r => cells r
  | _ => []
  end.
Fixpoint fits (ks : list cls) (s : str) : bool :=
  match ks with
  | [] => true
  | k :: ks' => match s with x :: s' => incls k x && fits ks' s' | [] => false end
  end.
Lemma cells_length r : length (cells r) = width r.
Proof.
  induction r as [|k|a IHa b IHb|a IHa b IHb|k mn mx|i r IH|]; cbn; auto.
  - rewrite app_length. lia.
  - destruct mx; cbn; auto. apply repeat_length.
Qed.
Lemma fits_app a : forall b s, fits (a ++ b) s = fits a s && fits b (skipn (length a) s).
Proof.
  induction a as [|k a IH]; intros b s; cbn; auto.
  destruct s as [|x s]; cbn.
  - destruct (length a); reflexivity.
  - rewrite IH. now rewrite andb_assoc.
Qed.
Lemma fits_repeat k n : forall s, fits (repeat k n) s = okn k n s.
Proof. induction n as [|n IH]; intros [|x s]; cbn; auto. now rewrite IH. Qed.
(** no end-of-string mark inside *)
Fixpoint plain (r : re) : bool :=
  match r with
  | REps | RCls _ => true
  | RSeq a b => plain a && plain b
  | RRep _ n (Some m) => Nat.eqb n m
  | RGrp _ r => plain r
  | _ => false
  end.
Fixpoint plain_end (r : re) : bool :=
  match r with
  | RSeq a b => plain a && plain_end b || Nat.eqb (width a) 0 && match a with RRep _ O None => true | _ => false end && plain_end b
  | REos => true
  | RRep _ O None => true
  | _ => plain r
  end.
Lemma okf_fits r : forall s, plain r = true -> okf r s = fits (cells r) s.
Proof.
  induction r as [|k|a IHa b IHb|a IHa b IHb|k mn mx|i r IH|]; intros s P; cbn in P |- *; auto; try discriminate.
  - apply andb_prop in P as [Pa Pb]. rewrite fits_app, IHa, IHb, cells_length; auto.
  - destruct mx; [|discriminate]. now rewrite fits_repeat.
Qed.
Lemma okf_fits_end r : forall s, plain_end r = true -> length s = width r -> okf r s = fits (cells r) s.
Proof.
  induction r as [|k|a IHa b IHb|a IHa b IHb|k mn mx|i r IH|]; intros s P L; try (now apply okf_fits).
  - cbn [plain_end] in P. apply orb_prop in P as [P|P].
    + apply andb_prop in P as [Pa Pb]. cbn [okf cells width] in *. rewrite fits_app, okf_fits, cells_length by auto.
      f_equal. apply IHb; auto. rewrite skipn_length. lia.
    + apply andb_prop in P as [P Pb]. apply andb_prop in P as [Wa Ma].
      destruct a as [|k|a1 a2|a1 a2|k mn mx|i a|]; try discriminate. destruct mn; try discriminate.
      destruct mx; try discriminate. cbn [okf cells width] in *. apply IHb; auto.
  - cbn [plain_end] in P. destruct mn; [|now apply okf_fits]. destruct mx as [m|]; [now apply okf_fits|]. reflexivity.
  - cbn [width] in L. destruct s; [reflexivity|discriminate].
Qed.

Theorem re_match_format r s : fixedt r = true -> plain_end r = true -> length s = width r ->
  re_match r s = if fits (cells r) s then Some (capsf r s []) else None.
Proof. intros F P L. rewrite re_match_fixed by auto. now rewrite okf_fits_end. Qed.
