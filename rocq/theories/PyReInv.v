(** Inversion of the regular-expression matcher: what a successful match says
    about the string, as an explicit formula computed from the pattern. *)
From Verif Require Export PyReProofs.

Fixpoint invn (n : nat) (k : cls) (s : str) (K : str -> Prop) : Prop :=
  match n with
  | O => K s
  | S n' => exists x s', s = x :: s' /\ incls k x = true /\ invn n' k s' K
  end.
(** what $ requires of the rest of the string *)
Definition eos (s : str) : Prop := s = [] \/ s = [nl].
Fixpoint inv (r : re) (s : str) (c : caps) (K : str -> caps -> Prop) : Prop :=
  match r with
  | REps => K s c
  | RCls k => exists x s', s = x :: s' /\ incls k x = true /\ K s' c
  | RSeq a b => inv a s c (fun s' c' => inv b s' c' K)
  | RAlt a b => inv a s c K \/ inv b s c K
  | RRep k mn mx =>
      match mx with
      | Some m => if Nat.eqb mn m then invn mn k s (fun s' => K s' c)
                  else exists w s', s = w ++ s' /\ forallb (incls k) w = true /\
                         (mn <= length w)%nat /\ (mn <= m -> length w <= m)%nat /\ K s' c
      | None => exists w s', s = w ++ s' /\ forallb (incls k) w = true /\ (mn <= length w)%nat /\ K s' c
      end
  | RGrp i r => inv r s c (fun s' c' => exists w, s = w ++ s' /\ K s' ((i, w) :: c'))
  | REos => eos s /\ K s c
  end.

Lemma invn_intro k n : forall w s' (K : str -> Prop), length w = n -> forallb (incls k) w = true -> K s' -> invn n k (w ++ s') K.
Proof.
  induction n as [|n IH]; intros [|x w] s' K Hl Hw HK; try discriminate; cbn.
  - exact HK.
  - cbn in Hw. apply andb_prop in Hw as [Hx Hw]. exists x, (w ++ s'). repeat split; auto.
Qed.
Lemma mat_inv r s c s' c' : Mat r s c s' c' -> forall K : str -> caps -> Prop, K s' c' -> inv r s c K.
Proof.
  induction 1; intros K HK; cbn [inv].
  - exact HK.
  - exists x, s. auto.
  - apply IHMat1, IHMat2, HK.
  - left. auto.
  - right. auto.
  - apply reprel_suffix in H as (p & -> & Hp & Hl & Hx). destruct mx as [m|].
    + destruct (Nat.eqb_spec mn m) as [->|E].
      * apply invn_intro; auto. specialize (Hx (le_n _)). lia.
      * exists p, s'. auto.
    + exists p, s'. auto.
  - apply IHMat. pose proof (mat_suffix _ _ _ _ _ H) as [p E]. rewrite E, grp_val in HK. exists p. auto.
  - split; [now left|exact HK].
  - split; [now right|exact HK].
Qed.
Lemma re_match_inv r s g : re_match r s = Some g -> inv r s [] (fun _ c => g = c).
Proof. intro H. apply re_match_mat in H as (s' & H). eapply mat_inv; [exact H|reflexivity]. Qed.

(** the converse, for proving that a pattern matches *)
Lemma re_match_some r s s' g : Mat r s [] s' g -> exists g', re_match r s = Some g'.
Proof.
  intro H. assert (re_match r s <> None) by (apply re_match_iff; eauto).
  destruct (re_match r s); [eauto|congruence].
Qed.

Lemma incls_one c x : incls (Cl false [(c, c)]) x = true -> x = c.
Proof.
  unfold incls, inr, cle. cbn [c_neg c_rs existsb fst snd]. rewrite orb_false_r.
  destruct ((code c <=? code x)%N && (code x <=? code c)%N) eqn:E; [|discriminate]. intros _.
  apply andb_prop in E as [E1 E2]. apply N.leb_le in E1, E2. unfold code in *.
  rewrite <- (ascii_N_embedding x), <- (ascii_N_embedding c). f_equal. lia.
Qed.

Ltac prefix_of s t :=
  match s with
  | t => constr:(@nil ascii)
  | ?x :: ?s1 => let p := prefix_of s1 t in constr:(x :: p)
  | ?a ++ ?s1 => let p := prefix_of s1 t in
      match p with nil => constr:(a) | _ => constr:(a ++ p) end
  end.
Ltac inv_step :=
  match goal with
  | H : exists _, _ |- _ => destruct H as [? H]
  | H : _ /\ _ |- _ => destruct H as [? H]
  | H : _ \/ _ |- _ => destruct H as [H|H]
  | H : incls (Cl false [(?c, ?c)]) ?x = true |- _ => apply incls_one in H; subst x
  | H : ?w ++ ?t = ?w ++ ?t |- _ => clear H
  | H : ?s = ?w ++ ?t |- _ =>
      is_var w;
      let p := prefix_of s t in
      first [ change s with (p ++ t) in H
            | replace s with (p ++ t) in H by (rewrite <- ?app_assoc; cbn [app]; rewrite <- ?app_assoc; reflexivity) ];
      apply app_inv_tail in H; symmetry in H; subst w
  | H : ?s = ?e |- _ => is_var s; subst s
  | H : False |- _ => destruct H
  end.
Ltac invert_match H :=
  apply re_match_inv in H; cbn [inv invn Nat.eqb] in H; repeat inv_step; cbn [app] in *.
