(** Lemmas of C53, part 2: values. *)
From Verif Require Import PyStrProofs JsonProofs1.
From Verif Require Import Json JsonSpec JsonText JsonTextSpec JsonTextProofs1.
Local Open Scope nat_scope.

(** * Objects *)
Lemma dget_set {A} k k' (v : A) o : dget k (dset k' v o) = if streqb k k' then Some v else dget k o.
Proof.
  induction o as [|[k0 v0] o IH].
  - cbn [dset dget]. destruct (streqb k k'); reflexivity.
  - cbn [dset]. destruct (streqb k' k0) eqn:E.
    + apply streqb_eq in E. subst k0. cbn [dget]. destruct (streqb k k'); reflexivity.
    + cbn [dget]. rewrite IH. destruct (streqb k k0) eqn:Q; [|reflexivity]. apply streqb_eq in Q. subst k0. destruct (streqb k k') eqn:X; [|reflexivity].
      apply streqb_eq in X. subst k'. rewrite seq_refl in E. discriminate E.
Qed.
Lemma keys_set {A} k (v : A) o : map fst (dset k v o) = if smem k (map fst o) then map fst o else map fst o ++ [k].
Proof.
  induction o as [|[k0 v0] o IH]; [reflexivity|]. cbn [dset map fst smem existsb]. unfold smem in *. destruct (streqb k k0) eqn:E.
  - apply streqb_eq in E. subst k0. reflexivity.
  - cbn [map fst orb]. rewrite IH. destruct (existsb (streqb k) (map fst o)); reflexivity.
Qed.
Lemma first_firsts ms : first_keys ms = firsts (map fst ms).
Proof. induction ms as [|[k v] ms IH]; [reflexivity|]. cbn [first_keys map fst firsts]. now rewrite IH. Qed.
Lemma filter_none l : filter (fun m => negb (smem m [])) l = l.
Proof. induction l as [|x l IH]; [reflexivity|]. cbn [filter smem existsb negb]. f_equal. exact IH. Qed.
Lemma keys_fold ms : forall o, map fst (fold_left (fun o kv => dset (fst kv) (snd kv) o) ms o) = map fst o ++ filter (fun m => negb (smem m (map fst o))) (first_keys ms).
Proof.
  induction ms as [|[k v] ms IH]; intro o; [cbn [fold_left first_keys filter]; now rewrite app_nil_r|]. cbn [fold_left fst snd first_keys filter]. rewrite IH, keys_set.
  destruct (smem k (map fst o)) eqn:E; cbn [negb].
  - f_equal. rewrite filter_swap.
    clear IH. induction (first_keys ms) as [|m l IHl]; [reflexivity|]. cbn [filter]. destruct (negb (smem m (map fst o))) eqn:M; cbn [filter]; [|exact IHl].
    assert (streqb m k = false) as ->. { destruct (streqb m k) eqn:Q; [|reflexivity]. apply streqb_eq in Q. subst m. rewrite E in M. discriminate M. } cbn [negb]. f_equal. exact IHl.
  - rewrite <- app_assoc. cbn [app]. f_equal. f_equal. clear IH. induction (first_keys ms) as [|m l IHl]; [reflexivity|]. cbn [filter].
    unfold smem in *. rewrite existsb_app. cbn [existsb]. rewrite orb_false_r. destruct (streqb m k) eqn:Q; cbn [negb orb].
    + rewrite orb_true_r. cbn [negb]. exact IHl.
    + rewrite orb_false_r. cbn [filter]. destruct (negb (existsb (streqb m) (map fst o))); [f_equal; exact IHl|exact IHl].
Qed.
Lemma ordered_keys ms : map fst (ordered ms) = first_keys ms.
Proof. unfold ordered. rewrite keys_fold. cbn [map app]. apply filter_none. Qed.
Lemma get_fold ms : forall o k, dget k (fold_left (fun o kv => dset (fst kv) (snd kv) o) ms o) = match last_value k ms with Some w => Some w | None => dget k o end.
Proof.
  induction ms as [|[k' v] ms IH]; intros o k; [reflexivity|]. cbn [fold_left fst snd last_value]. rewrite IH, dget_set. destruct (last_value k ms); [reflexivity|].
  assert (streqb k' k = streqb k k') as ->; [|destruct (streqb k k'); reflexivity].
  destruct (streqb k k') eqn:Q.
  - apply streqb_eq in Q. subst. apply seq_refl.
  - destruct (streqb k' k) eqn:Q'; [|reflexivity]. apply streqb_eq in Q'. subst. rewrite seq_refl in Q. discriminate Q.
Qed.
Lemma get_in {A} (o : list (str * A)) k v : NoDup (map fst o) -> In (k, v) o -> dget k o = Some v.
Proof.
  induction o as [|[k' v'] o IH]; intros N I; [destruct I|]. cbn [map fst] in N. inversion_clear N as [|? ? N1 N2]. cbn [dget]. destruct I as [I|I].
  - assert (k' = k /\ v' = v) as [-> ->] by (split; congruence). now rewrite seq_refl.
  - destruct (streqb k k') eqn:Q; [|now apply IH]. apply streqb_eq in Q. subst k'. elim N1. apply (in_map fst) in I. exact I.
Qed.
Lemma ordered_object ms : object_of ms (ordered ms).
Proof.
  split; [apply ordered_keys|]. intros k v I. apply get_in in I; [|rewrite ordered_keys, first_firsts; apply firsts_nodup].
  unfold ordered in I. rewrite get_fold in I. cbn [dget] in I. destruct (last_value k ms); exact I.
Qed.
Lemma object_ordered ms o : object_of ms o -> o = ordered ms.
Proof.
  intros [K V]. destruct (ordered_object ms) as [K' V']. rewrite <- K' in K. revert K V V'. generalize (ordered ms). clear K'. induction o as [|[k v] o IH]; intros o' K V V'.
  - destruct o'; [reflexivity|discriminate K].
  - destruct o' as [|[k' v'] o']; [discriminate K|]. cbn [map fst] in K. assert (k' = k /\ map fst o = map fst o') as [-> Ko] by (split; congruence).
    pose proof (V k v (or_introl eq_refl)) as E. pose proof (V' k v' (or_introl eq_refl)) as E'. assert (v' = v) as -> by congruence. f_equal.
    apply IH; [exact Ko|intros; apply V; now right|intros; apply V'; now right].
Qed.
(** * White space *)
Lemma space_number c : json_space c = true <-> In (number_of c) [32; 9; 10; 13]%N.
Proof.
  unfold json_space. split.
  - intro H. apply orb_prop in H as [H|H]; [apply orb_prop in H as [H|H]; [apply orb_prop in H as [H|H]|]|].
    + apply Ascii.eqb_eq in H. subst. now left.
    + apply N.eqb_eq in H. right. left. now symmetry.
    + apply Ascii.eqb_eq in H. subst. right. right. now left.
    + apply N.eqb_eq in H. right. right. right. left. now symmetry.
  - intro H. rewrite <- (char_number c). destruct H as [<-|[<-|[<-|[<-|[]]]]]; vm_compute; reflexivity.
Qed.
Lemma white_skip w r : white w -> skip (w ++ r) = skip r.
Proof.
  induction w as [|c w IH]; intro H; [reflexivity|]. cbn [app skip]. assert (json_space c = true) as -> by (apply space_number; apply H; now left). apply IH. intros d I. apply H. now right.
Qed.
Lemma skip_white s : exists w, white w /\ s = w ++ skip s.
Proof.
  induction s as [|c s (w & W & E)]; [exists []; split; [intros c []|reflexivity]|]. cbn [skip]. destruct (json_space c) eqn:Q.
  - exists (c :: w). split; [|cbn [app]; now f_equal]. intros d [<-|I]; [now apply space_number|now apply W].
  - exists []. split; [intros d []|reflexivity].
Qed.
Lemma skip_dark c s : json_space c = false -> skip (c :: s) = c :: s. Proof. intro H. cbn [skip]. now rewrite H. Qed.
Lemma white_app a b : white a -> white b -> white (a ++ b).
Proof. intros A B c I. apply in_app_or in I as [I|I]; [now apply A|now apply B]. Qed.
Lemma white_nil : white []. Proof. intros c []. Qed.
Lemma space_stops c s : json_space c = true -> stops (c :: s) = true.
Proof. intro H. cbn [stops]. apply negb_true_iff. revert c H. apply (implf_ascii json_space (fun c => isdig c || ceqb c "." || ceqb c "e" || ceqb c "E")). vm_compute. reflexivity. Qed.
