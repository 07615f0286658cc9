(** Lemmas about Back80Spec, part 4: the fields of an element, and the columns made from them. *)
From Verif Require Import PyStrProofs JustSpec JustProofs AdesMasterTables TablesProofs.
From Verif Require Import XmlToMpc80 Mpc80 Mpc80Spec Line80Spec LineProofs1 PackSpec PackProofs13 DocSpec DocProofs2.
From Verif Require Import Back80Spec Back80Proofs1 Back80Proofs2 Back80Proofs3.
Local Open Scope nat_scope.

(** * The fields of an element, read again *)
Definition shown (text : str -> str) (k : str) : option str := match strip (text k) with [] => None | v => Some v end.
Definition read_kid (d : list (str * str)) (e : xml) : list (str * str) :=
  let '(t, x) := getElementTagText e in match x with [] => d | _ => dset t x d end.
Lemma read_leaf d x v : read_kid d (leaf x v) = match strip v with [] => d | _ => dset x (strip v) d end.
Proof. reflexivity. Qed.
Lemma element_fold (text : str -> str) k : forall fs d,
  dget k (fold_left read_kid (flat_map (fun x => match strip (text x) with [] => [] | v => [leaf x v] end) fs) d) =
  if smem k fs then match strip (text k) with [] => dget k d | v => Some v end else dget k d.
Proof.
  induction fs as [|f fs IH]; intros d; [reflexivity|]. cbn [flat_map]. rewrite fold_left_app. unfold smem. cbn [existsb]. fold (smem k fs).
  destruct (strip (text f)) as [|c v] eqn:E.
  - cbn [fold_left]. rewrite IH. destruct (streqb k f) eqn:K; [|reflexivity]. apply streqb_eq in K. subst f. rewrite E. now destruct (smem k fs).
  - cbn [fold_left]. rewrite read_leaf. rewrite <- E, strip_idem, E. rewrite IH, get_set.
    destruct (streqb k f) eqn:K; [|reflexivity]. apply streqb_eq in K. subst f. rewrite E. now destruct (smem k fs).
Qed.
Lemma element_get tag fs text k : dget k (subDict_of (element tag fs text)) = if smem k fs then shown text k else None.
Proof. exact (element_fold text k fs []). Qed.

(** * The columns made from the fields *)
Lemma cat_back c : In c catalogue_letters -> texty (catalogue [c]) /\ astCat80 (catalogue [c]) = Ok [c].
Proof.
  intros I. assert (forall c, implb (cmem c catalogue_letters) (streqb (strip (catalogue [c])) (catalogue [c]) && negb (streqb (catalogue [c]) []) &&
    match astCat80 (catalogue [c]) with Ok r => streqb r [c] | Err _ => false end) = true) as K by (apply forall_ascii; vm_compute; reflexivity).
  specialize (K c). apply cmem_in in I. rewrite I in K. cbn [implb] in K. apply andb_prop in K as [K K3]. apply andb_prop in K as [K1 K2].
  apply streqb_eq in K1. split; [split; [exact K1|]|].
  - intros E. rewrite E in K2. discriminate K2.
  - destruct (astCat80 (catalogue [c])) as [r|]; [|discriminate K3]. apply streqb_eq in K3. now subst r.
Qed.
Lemma tidy1 c : tidy [c] -> pyspace c = false.
Proof. intros T. destruct (pyspace c) eqn:E; [|reflexivity]. exfalso. unfold tidy in T. pose proof (strip_is_trimmed [c]) as K. rewrite T in K. unfold trimmed in K. rewrite E in K. discriminate K. Qed.
Lemma band_back c : band80 [c] = Ok [c].
Proof.
  assert (forall c, match band80 [c] with Ok r => streqb r [c] | Err _ => false end = true) as K by (apply forall_ascii; vm_compute; reflexivity).
  specialize (K c). destruct (band80 [c]) as [r|]; [|discriminate K]. apply streqb_eq in K. now subst r.
Qed.
(** column 14: the program's text, and the note *)
Definition note_texts (site : bool) (c : ascii) : str * str := (* notes, prog *)
  if site then ([], if ceqb c " " then [] else match packProgID [c] with Ok p => p | Err _ => [] end) else ([c], []).
Definition note_column (notes prog : option str) : res str :=
  do n0 <- chat (match notes with Some n => n | None => $" " end) 0;
  match prog with Some ((_ :: _) as p) => unpackProgID p | _ => Ok [n0] end.
Definition seen_text (s : str) : option str := match strip s with [] => None | v => Some v end.
Lemma note_back (site : bool) c : In c (if site then validProgramCodes else validNotes) ->
  note_column (seen_text (fst (note_texts site c))) (seen_text (snd (note_texts site c))) = Ok [c].
Proof.
  set (P := fun (site : bool) c => match note_column (seen_text (fst (note_texts site c))) (seen_text (snd (note_texts site c))) with Ok r => streqb r [c] | Err _ => false end).
  intros I. assert (P site c = true) as K.
  { apply cmem_in in I. destruct site; revert c I.
    - apply (impl_ascii (fun c => cmem c validProgramCodes) (P true)). vm_compute. reflexivity.
    - apply (impl_ascii (fun c => cmem c validNotes) (P false)). vm_compute. reflexivity. }
  unfold P in K. destruct (note_column _ _) as [r|]; [|discriminate K]. apply streqb_eq in K. now subst r.
Qed.
Lemma note0 (site : bool) c : In c (if site then validProgramCodes else validNotes) ->
  exists n0, chat (match seen_text (fst (note_texts site c)) with Some n => n | None => $" " end) 0 = Ok n0.
Proof. intros I. pose proof (note_back site c I) as H. unfold note_column in H. destruct (chat _ 0); [eauto|discriminate H]. Qed.
