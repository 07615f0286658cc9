From Verif Require Import JsonSpec PyStrProofs XmlProofs TablesProofs.
From Verif Require Import Json JsonSpec.
From Coq Require Import Permutation.

(** * streqb *)
Lemma seq_refl s : streqb s s = true. Proof. now apply streqb_eq. Qed.

(** * firsts *)
Lemma firsts_in n l : In n (firsts l) <-> In n l.
Proof.
  revert n. induction l as [|m l IH]; intros n; cbn [firsts]; [tauto|]. cbn [In]. rewrite filter_In, IH.
  destruct (streqb n m) eqn:E.
  - apply streqb_eq in E. subst. tauto.
  - split; [tauto|]. intros [->|H]; [now left|right]. split; [exact H|reflexivity].
Qed.
Lemma firsts_nodup l : NoDup (firsts l).
Proof.
  induction l as [|m l IH]; cbn [firsts]; constructor.
  - rewrite filter_In. intros [_ H]. rewrite seq_refl in H. discriminate H.
  - now apply NoDup_filter.
Qed.
Lemma filter_swap {A} (f g : A -> bool) l : filter f (filter g l) = filter g (filter f l).
Proof.
  induction l as [|x l IH]; cbn [filter]; [reflexivity|].
  destruct (f x) eqn:F, (g x) eqn:G; cbn [filter]; rewrite ?F, ?G, IH; reflexivity.
Qed.
Lemma firsts_snoc l n : firsts (l ++ [n]) = if smem n l then firsts l else firsts l ++ [n].
Proof.
  induction l as [|m l IH]; cbn [app firsts smem existsb]; [reflexivity|].
  fold (smem n l). rewrite IH. destruct (streqb n m) eqn:E; cbn [orb].
  - apply streqb_eq in E. subst m. destruct (smem n l); [reflexivity|].
    rewrite filter_app. cbn [filter]. rewrite seq_refl. cbn [negb]. now rewrite app_nil_r.
  - destruct (smem n l); [reflexivity|]. rewrite filter_app. cbn [filter]. rewrite E. reflexivity.
Qed.
Lemma smem_in n l : smem n l = true <-> In n l.
Proof.
  unfold smem. rewrite existsb_exists. split.
  - intros (x & I & E). apply streqb_eq in E. now subst.
  - intros I. exists n. split; [exact I|apply seq_refl].
Qed.

(** * push *)
Definition nolist (v : json) : Prop := match v with JList _ => False | _ => True end.
Definition pack (vs : list json) : json := match vs with [v] => v | _ => JList vs end.
Definition vals (n : str) (l : list (str * json)) : list json := map snd (filter (fun kv => streqb (fst kv) n) l).
Definition G (l : list (str * json)) : list (str * json) := map (fun n => (n, pack (vals n l))) (firsts (map fst l)).

Lemma vals_app n a b : vals n (a ++ b) = vals n a ++ vals n b.
Proof. unfold vals. now rewrite filter_app, map_app. Qed.
Lemma vals_nonempty n l : In n (map fst l) -> vals n l <> [].
Proof.
  induction l as [|[k v] l IH]; cbn [map In]; [tauto|]. unfold vals. cbn [filter fst].
  destruct (streqb k n) eqn:E; [discriminate|]. intros [H|H]; [|exact (IH H)].
  cbn [fst] in H. subst. rewrite seq_refl in E. discriminate.
Qed.
Lemma vals_nolist n l : Forall (fun kv => nolist (snd kv)) l -> Forall nolist (vals n l).
Proof.
  intros H. unfold vals. apply Forall_forall. intros v I. apply in_map_iff in I as (kv & <- & I).
  apply filter_In in I as [I _]. rewrite Forall_forall in H. now apply H.
Qed.

Lemma dget_app {A} k (a b : list (str * A)) : dget k (a ++ b) = match dget k a with Some v => Some v | None => dget k b end.
Proof. induction a as [|[k' v] a IH]; cbn [app dget]; [reflexivity|]. destruct (streqb k k'); [reflexivity|exact IH]. Qed.
Lemma dset_app {A} k v (a b : list (str * A)) : dget k a = None -> dset k v (a ++ b) = a ++ dset k v b.
Proof.
  induction a as [|[k' w] a IH]; cbn [app dget dset]; [reflexivity|].
  destruct (streqb k k'); [discriminate|]. intros H. now rewrite IH.
Qed.
Lemma dget_map {A} (f : str -> A) k l : dget k (map (fun n => (n, f n)) l) = if smem k l then Some (f k) else None.
Proof.
  induction l as [|n l IH]; cbn [map dget smem existsb]; [reflexivity|]. fold (smem k l).
  destruct (streqb k n) eqn:E; cbn [orb]; [apply streqb_eq in E; now subst|exact IH].
Qed.
Lemma dset_map {A} (f : str -> A) k v l : NoDup l -> In k l ->
  dset k v (map (fun n => (n, f n)) l) = map (fun n => (n, if streqb n k then v else f n)) l.
Proof.
  induction l as [|n l IH]; cbn [map dset In]; [tauto|]. intros N H.
  apply NoDup_cons_iff in N as [N1 N2]. destruct (streqb k n) eqn:E.
  - apply streqb_eq in E. subst n. rewrite seq_refl. f_equal. apply map_ext_in. intros m I.
    destruct (streqb m k) eqn:F; [|reflexivity]. apply streqb_eq in F. now subst.
  - assert (streqb n k = false) as ->.
    { destruct (streqb n k) eqn:F; [|reflexivity]. apply streqb_eq in F. subst. rewrite seq_refl in E. discriminate. }
    f_equal. apply IH; [exact N2|]. destruct H as [H|H]; [|exact H]. subst. rewrite seq_refl in E. discriminate.
Qed.

Lemma push_G A l k v : dget k A = None -> nolist v -> Forall (fun kv => nolist (snd kv)) l ->
  push (A ++ G l) k v = A ++ G (l ++ [(k, v)]).
Proof.
  intros D Nv Nl. unfold push. rewrite dget_app, D. unfold G at 1. rewrite dget_map.
  assert (smem k (firsts (map fst l)) = smem k (map fst l)) as ->.
  { apply eq_true_iff_eq. rewrite !smem_in. apply firsts_in. }
  assert (forall n, streqb k n = false -> vals n (l ++ [(k, v)]) = vals n l) as K.
  { intros n E. rewrite vals_app. unfold vals at 2. cbn [filter fst]. rewrite E. apply app_nil_r. }
  assert (vals k (l ++ [(k, v)]) = vals k l ++ [v]) as K'.
  { rewrite vals_app. unfold vals at 2. cbn [filter fst]. now rewrite seq_refl. }
  destruct (smem k (map fst l)) eqn:M.
  - assert (forall w, A ++ dset k w (G l) = A ++ map (fun n => (n, if streqb n k then w else pack (vals n l))) (firsts (map fst l))) as S.
    { intros w. f_equal. unfold G. apply dset_map; [apply firsts_nodup|]. apply firsts_in, smem_in, M. }
    assert (G (l ++ [(k, v)]) = map (fun n => (n, if streqb n k then JList (vals k l ++ [v]) else pack (vals n l))) (firsts (map fst l))) as R.
    { unfold G. rewrite map_app. cbn [map fst]. rewrite firsts_snoc, M. apply map_ext. intros n.
      f_equal. destruct (streqb n k) eqn:E.
      - apply streqb_eq in E. subst n. rewrite K'. pose proof (vals_nonempty k l (proj1 (smem_in _ _) M)).
        destruct (vals k l) as [|a [|b r]]; [congruence|reflexivity|reflexivity].
      - rewrite K; [reflexivity|]. destruct (streqb k n) eqn:F; [|reflexivity]. apply streqb_eq in F. subst. rewrite seq_refl in E. discriminate. }
    pose proof (vals_nonempty k l (proj1 (smem_in _ _) M)) as NE.
    pose proof (vals_nolist k l Nl) as NL.
    destruct (vals k l) as [|a [|b r]] eqn:V; [congruence| |]; cbn [pack].
    + apply Forall_inv in NL. destruct a; cbn [nolist] in NL; try contradiction; rewrite dset_app, S, R by exact D; reflexivity.
    + rewrite dset_app, S, R by exact D. reflexivity.
  - rewrite <- app_assoc. f_equal. unfold G. rewrite map_app. cbn [map fst]. rewrite firsts_snoc, M, map_app. f_equal.
    + apply map_ext_in. intros n I. f_equal. rewrite K; [reflexivity|].
      destruct (streqb k n) eqn:F; [|reflexivity]. apply streqb_eq in F. subst n.
      apply (proj1 (firsts_in _ _)) in I. apply (proj2 (smem_in _ _)) in I. congruence.
    + cbn [map]. rewrite K'. assert (vals k l = []) as ->; [|reflexivity].
      clear -M. induction l as [|[k' w] l IH]; [reflexivity|]. cbn [map fst smem existsb] in M. apply orb_false_iff in M as [M1 M2].
      unfold vals. cbn [filter fst]. assert (streqb k' k = false) as ->.
      { destruct (streqb k' k) eqn:F; [|reflexivity]. apply streqb_eq in F. subst. rewrite seq_refl in M1. discriminate. }
      apply IH, M2.
Qed.

Lemma push_all A l : Forall (fun kv => dget (fst kv) A = None /\ nolist (snd kv)) l ->
  fold_left (fun o kv => push o (fst kv) (snd kv)) l A = A ++ G l.
Proof.
  induction l as [|kv l IH] using rev_ind; intros H.
  - unfold G. cbn. now rewrite app_nil_r.
  - apply Forall_app in H as [H1 H2]. apply Forall_inv in H2 as [D N]. rewrite fold_left_app, IH by exact H1.
    cbn [fold_left]. destruct kv as [k v]. cbn [fst snd] in *. apply push_G; [exact D|exact N|].
    eapply Forall_impl; [|exact H1]. now intros ? [].
Qed.

(** * The value of an element depends on its meaning *)
Fixpoint vx (m : xml) : json :=
  match m with
  | Elem t a s ks => finish (fold_left (fun o k => push o (xtag k) (vx k)) ks (attributes a)) s
  end.
Lemma vx_eq t a s ks : vx (Elem t a s ks) =
  finish (fold_left (fun o kv => push o (fst kv) (snd kv)) (map (fun k => (xtag k, vx k)) ks) (attributes a)) s.
Proof.
  cbn [vx]. f_equal. generalize (attributes a). induction ks as [|k ks IH]; intros o; cbn [fold_left map fst snd]; [reflexivity|]. apply IH.
Qed.

Section NodeInd.
  Variable P : xnode -> Prop.
  Hypothesis HE : forall t a ks, Forall P ks -> P (NElem t a ks).
  Hypothesis HT : forall s, P (NText s).
  Hypothesis HO : P NOther.
  Fixpoint xnode_ind' (x : xnode) : P x :=
    match x with
    | NElem t a ks => HE t a ks ((fix go l : Forall P l := match l with [] => Forall_nil P | y :: l' => Forall_cons y (xnode_ind' y) (go l') end) ks)
    | NText s => HT s
    | NOther => HO
    end.
End NodeInd.

Lemma data_chars ks : data ks = chars ks.
Proof. unfold chars. induction ks as [|[t a k|s|] ks IH]; cbn [data map concat app]; [reflexivity|exact IH|now f_equal|exact IH]. Qed.
Lemma finish_strip o s : finish o (strip s) = finish o s.
Proof. unfold finish. now rewrite strip_idem. Qed.

Lemma value_meaning x : is_element x -> value x = vx (meaning x).
Proof.
  induction x as [t a ks IH|s|] using xnode_ind'; [|intros (?&?&?&H); discriminate H..].
  intros _. cbn [value meaning vx]. rewrite finish_strip, data_chars. f_equal. generalize (attributes a) as o.
  induction ks as [|k ks IHk]; intros o; [reflexivity|]. apply Forall_cons_iff in IH as [IH1 IH2].
  cbn [flat_map]. rewrite fold_left_app. rewrite <- (IHk IH2). f_equal.
  destruct k as [t' a' ks'|s|]; [|reflexivity..]. rewrite IH1 by (repeat eexists). reflexivity.
Qed.

Lemma vx_nolist m : nolist (vx m).
Proof. destruct m as [t a s ks]. cbn [vx]. unfold finish. destruct (fold_left _ ks _), (strip s); exact I. Qed.
