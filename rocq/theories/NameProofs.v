(** Lemmas of C25_texts. *)
From Verif Require Import PyStrProofs Xml NameSpec.
Local Open Scope N_scope.
Definition withinb (r : list (N * N)) (c : ascii) : bool := existsb (fun p => (fst p <=? Ascii.N_of_ascii c) && (Ascii.N_of_ascii c <=? snd p)) r.
Lemma withinb_iff r c : withinb r c = true <-> within r c.
Proof.
  unfold withinb, within. rewrite existsb_exists. split.
  - intros ([lo hi] & I & H). apply andb_prop in H as [A B]. exists lo, hi. split; [exact I|]. split; [now apply N.leb_le in A|now apply N.leb_le in B].
  - intros (lo & hi & I & A & B). exists (lo, hi). split; [exact I|]. apply andb_true_intro. split; now apply N.leb_le.
Qed.
Lemma start_same c : name_start c = withinb start_ranges c.
Proof. apply Bool.eqb_prop. revert c. apply forall_ascii. vm_compute. reflexivity. Qed.
Lemma name_same c : name_char c = withinb name_ranges c.
Proof. apply Bool.eqb_prop. revert c. apply forall_ascii. vm_compute. reflexivity. Qed.
Lemma text_same c : ((32 <=? code c) || (code c =? 9) || (code c =? 10) || (code c =? 13)) = withinb text_ranges c.
Proof. apply Bool.eqb_prop. revert c. apply (forall_ascii (fun c => Bool.eqb ((32 <=? code c) || (code c =? 9) || (code c =? 10) || (code c =? 13)) (withinb text_ranges c))). vm_compute. reflexivity. Qed.
Lemma all_iff (f : ascii -> bool) r s : (forall c, f c = withinb r c) -> forallb f s = true <-> Forall (within r) s.
Proof.
  intro E. rewrite forallb_forall, Forall_forall. split; intros H c I.
  - apply withinb_iff. rewrite <- E. now apply H.
  - rewrite E. apply withinb_iff. now apply H.
Qed.
Lemma name_iff s : valid_name s = true <-> xml_name s.
Proof.
  destruct s as [|c s]; [split; [discriminate|intros []]|]. cbn [valid_name xml_name]. rewrite Bool.andb_true_iff, start_same, withinb_iff. now rewrite (all_iff _ _ s name_same).
Qed.
Lemma text_iff s : valid_text s = true <-> xml_text s.
Proof. apply (all_iff _ _ s text_same). Qed.
Lemma pairs_iff a : forallb (fun kv => valid_name (fst kv) && valid_text (snd kv))%bool a = true <-> Forall (fun kv => xml_name (fst kv) /\ xml_text (snd kv)) a.
Proof.
  rewrite forallb_forall, Forall_forall. split; intros H kv I; specialize (H kv I).
  - apply andb_prop in H as [H1 H2]. split; [now apply name_iff|now apply text_iff].
  - apply andb_true_intro. split; [now apply name_iff|now apply text_iff].
Qed.
Lemma three_iff t x a : (valid_name t && valid_text x && forallb (fun kv => valid_name (fst kv) && valid_text (snd kv)) a)%bool = true <->
  xml_name t /\ xml_text x /\ Forall (fun kv => xml_name (fst kv) /\ xml_text (snd kv)) a.
Proof. rewrite !Bool.andb_true_iff, <- (pairs_iff a), <- (name_iff t), <- (text_iff x). now rewrite and_assoc. Qed.
Lemma init_iff t x a : (exists s, es_init t x a = Ok s) <-> xml_name t /\ xml_text x /\ Forall (fun kv => xml_name (fst kv) /\ xml_text (snd kv)) a.
Proof.
  rewrite <- three_iff. unfold es_init, newElement. destruct (_ && _ && _)%bool; cbn [rbind]; (split; [intros [s H]; first [discriminate H|reflexivity]|intros H; first [discriminate H|now eexists]]).
Qed.
