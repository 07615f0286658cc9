(** Further facts about the element stack and makeADESElement. *)
From Verif Require Import PyStrProofs XmlSpec XmlProofs AdesTables TablesSpec TablesProofs.

Lemma copyTree_negative n s : n < 0 -> es_copyTree n s = Err RuntimeError.
Proof. unfold es_copyTree. intros H. apply Z.ltb_lt in H. now rewrite H. Qed.
Lemma copyTree_depth s : es_copyTree (Z.of_nat (length (opened s))) s = Err IndexError.
Proof.
  unfold es_copyTree. assert (H : (Z.of_nat (length (opened s)) <? 0) = false) by (apply Z.ltb_ge; lia).
  rewrite H, Z.ltb_irrefl. cbn [orb]. unfold pyindex. cbv zeta. rewrite H, H, Nat2Z.id.
  assert (E : nth_error (rev (opened s)) (length (opened s)) = None) by (apply nth_error_None; rewrite rev_length; lia).
  now rewrite E.
Qed.
Lemma copyTree_beyond n s : Z.of_nat (length (opened s)) < n -> es_copyTree n s = Err RuntimeError.
Proof. unfold es_copyTree. intros H. apply Z.ltb_lt in H. rewrite H. now rewrite orb_true_r. Qed.
Lemma copyTree_root s t s' : es_takeTreeAndClear s = Ok (t, s') -> es_copyTree 0 s = Ok t.
Proof.
  unfold es_takeTreeAndClear, es_copyTree. intros E.
  replace ((0 <? 0) || (Z.of_nat (length (opened s)) <? 0)) with false by (symmetry; apply orb_false_iff; split; apply Z.ltb_ge; lia).
  destruct (pyindex (rev (opened s)) 0); cbn [rbind] in *; [|discriminate]. congruence.
Qed.
Lemma take_empty s : opened s = [] -> es_takeTreeAndClear s = Err IndexError.
Proof. unfold es_takeTreeAndClear. intros ->. reflexivity. Qed.

(** * makeADESElement *)
Lemma find_app {A} (f : A -> bool) a b : find f (a ++ b) = match find f a with Some x => Some x | None => find f b end.
Proof. induction a; cbn; auto. destruct (f a); auto. Qed.
Lemma edict_get : forall l d n,
  dget n (fold_left (fun d e => dset (xtag e) e d) l d) =
  match find (fun x => streqb (xtag x) n) (rev l) with Some x => Some x | None => dget n d end.
Proof.
  induction l as [|e l IH]; intros d n; cbn [fold_left rev]; auto.
  rewrite IH, find_app. destruct (find _ (rev l)); auto. cbn [find].
  destruct (streqb (xtag e) n) eqn:E.
  - apply streqb_eq in E. subst n. apply dget_dset_eq.
  - apply dget_dset_ne. intros ->. rewrite (proj2 (streqb_eq _ _) eq_refl) in E. discriminate.
Qed.
Lemma dset_keys {A} k (v : A) d x : In x (map fst (dset k v d)) <-> x = k \/ In x (map fst d).
Proof.
  induction d as [|[k' v'] d IH]; cbn.
  - intuition.
  - destruct (streqb k k') eqn:E; cbn.
    + apply streqb_eq in E. subst. intuition.
    + rewrite IH. intuition.
Qed.
Lemma edict_keys : forall l d x, In x (map fst (fold_left (fun d e => dset (xtag e) e d) l d)) <-> In x (map xtag l) \/ In x (map fst d).
Proof.
  induction l as [|e l IH]; intros d x; cbn [fold_left map]; [cbn; tauto|]. rewrite IH, dset_keys. cbn. intuition.
Qed.
Lemma forallb_smem' l al : forallb (fun f => smem f al) l = true <-> incl l al.
Proof. rewrite forallb_forall. split; intros H x I; specialize (H x I); now apply smem_In. Qed.

Lemma make_ok T tag els x : valid_name tag = true ->
  makeADESElement T tag els = Ok x <->
  exists al rq, dget tag (allowed T) = Some al /\ dget tag (required T) = Some rq /\
    incl (map xtag els) al /\ incl rq (map xtag els) /\
    x = Elem tag [] [] (flat_map (fun n => last_with n els) al).
Proof.
  intros V. unfold makeADESElement. rewrite V. set (ed := fold_left _ els []).
  assert (KE : forall n, In n (map fst ed) <-> In n (map xtag els)).
  { intros n. unfold ed. rewrite edict_keys. cbn. tauto. }
  assert (FE : forall al, flat_map (fun e => match dget e ed with Some x => [x] | None => [] end) al = flat_map (fun n => last_with n els) al).
  { intros al. apply flat_map_ext. intros n. unfold ed, last_with. rewrite edict_get. destruct (find _ _); reflexivity. }
  destruct (dget tag (allowed T)) as [al|]; [|split; [discriminate|intros (? & ? & K & _); discriminate]].
  destruct (dget tag (required T)) as [rq|]; [|split; [discriminate|intros (? & ? & _ & K & _); discriminate]].
  destruct (forallb (fun k => smem k al) (map fst ed)) eqn:A; cbn [negb].
  - apply forallb_smem' in A. destruct (forallb (fun k => smem k (map fst ed)) rq) eqn:B; cbn [negb].
    + apply forallb_smem' in B. rewrite FE. split.
      * intros E. assert (x = Elem tag [] [] (flat_map (fun n => last_with n els) al)) by congruence.
        exists al, rq. repeat split; auto.
        -- intros n I. apply A. now apply KE.
        -- intros n I. apply KE. now apply B.
      * intros (al' & rq' & Ea & Er & _ & _ & ->). congruence.
    + split; [discriminate|]. intros (al' & rq' & Ea & Er & _ & I2 & _). exfalso.
      assert (forallb (fun k => smem k (map fst ed)) rq = true); [|congruence]. apply forallb_smem'.
      inversion Er; subst. intros n I. apply KE. auto.
  - split; [discriminate|]. intros (al' & rq' & Ea & Er & I1 & _ & _). exfalso.
    assert (forallb (fun k => smem k al) (map fst ed) = true); [|congruence]. apply forallb_smem'.
    inversion Ea; subst. intros n I. apply I1. now apply KE.
Qed.
