(** C51: the listing that readxmlpy prints of a document. *)
From Verif Require Import Xml ReadXml ReadXmlSpec ReadXmlProofs.
Local Open Scope list_scope.

(** Every element is listed once, in document order, with its depth. *)
Theorem C51_elements : forall doc, listable doc ->
  exists ls, readxmlpy doc = written ls /\ Forall one_line ls /\ lists ls (preorder 0 doc).
Proof. exact (fun doc L => element_lines doc L 0). Qed.
Print Assumptions C51_elements.

(** Nothing but white space is lost: documents with the same listing are the same. *)
Theorem C51_reads_back : forall doc1 doc2, listable doc1 -> listable doc2 ->
  readxmlpy doc1 = readxmlpy doc2 -> same doc1 doc2.
Proof.
  exact (fun a b A B H => proj1 (print_inj a b 0 [] [] A B (or_introl eq_refl) (or_introl eq_refl) (eq_trans (app_nil_r _) (eq_trans H (eq_sym (app_nil_r _)))))).
Qed.
Print Assumptions C51_reads_back.

(** * Examples *)
Definition leaf (t x : str) : xml := Elem t [] x [].
Definition ex_doc : xml :=
  Elem $"ades" [($"version", $"2022")] (nl :: $"  ")
    [Elem $"obsBlock" [] (nl :: $"    ")
      [Elem $"obsContext" [] [] [Elem $"submitter" [] [] [leaf $"name" $"J. Doe"]];
       Elem $"obsData" [] [] [Elem $"optical" [] [nl] [leaf $"trkSub" $"a1"; leaf $"obsTime" $"2024-01-01T00:00:00Z"; leaf $"remarks" []]]]].
(** a name, decided *)
Lemma name_by t : (match t with [] => false | _ => forallb (fun c => negb (existsb (ceqb c) [" "%char; ":"%char; nl])) t end) = true -> a_name t.
Proof.
  intro H. destruct t as [|c t]; [discriminate H|]. split; [discriminate|]. intros x I J. rewrite forallb_forall in H. specialize (H x I). apply Bool.negb_true_iff in H.
  assert (existsb (ceqb x) [" "%char; ":"%char; nl] = true) as X by (apply existsb_exists; exists x; split; [exact J|apply PyStrProofs.ceqb_refl]). congruence.
Qed.
Lemma one_line_by s : existsb (ceqb nl) s = false -> one_line s.
Proof. intros H I. assert (existsb (ceqb nl) s = true) as X by (apply existsb_exists; exists nl; split; [exact I|apply PyStrProofs.ceqb_refl]). congruence. Qed.
Lemma text_by s : forallb pyspace s || negb (existsb (ceqb nl) s) && negb (existsb (ceqb "{") s) = true -> simple_text s.
Proof.
  intro H. apply Bool.orb_true_iff in H. destruct H as [H|H]; [left; now apply blank_forallb|]. right. apply Bool.andb_true_iff in H. destruct H as [H1 H2]. apply Bool.negb_true_iff in H1, H2. split; [now apply one_line_by|].
  intro I. assert (existsb (ceqb "{") s = true) as X by (apply existsb_exists; exists "{"%char; split; [exact I|apply PyStrProofs.ceqb_refl]). congruence.
Qed.
Lemma no_attributes : simple_attributes [].
Proof. intros k v []. Qed.
Lemma simple_by s : forallb (fun c => ((32 <=? code c) && (code c <=? 126))%N && negb (ceqb c "'") && negb (ceqb c "\")) s = true -> simple s.
Proof.
  intros H c I. rewrite forallb_forall in H. specialize (H c I). rewrite !Bool.andb_true_iff, !Bool.negb_true_iff, !N.leb_le in H. destruct H as (((A & B) & C) & D).
  split; [now split|]. split; intro E; subst c; [now rewrite PyStrProofs.ceqb_refl in C|now rewrite PyStrProofs.ceqb_refl in D].
Qed.
Ltac plainly := first [apply name_by; vm_compute; reflexivity|apply one_line_by; vm_compute; reflexivity|apply text_by; vm_compute; reflexivity|apply no_attributes|discriminate].
Lemma ex_listable : listable ex_doc.
Proof.
  assert (simple_attributes [($"version", $"2022")]) as V.
  { intros k v [E|[]]. injection E as <- <-. split; apply simple_by; vm_compute; reflexivity. }
  unfold ex_doc, leaf. apply listable_other; [plainly|plainly|exact V|plainly|]. constructor; [|constructor].
  apply listable_other; [plainly..|]. constructor; [|constructor; [|constructor]].
  - apply listable_other; [plainly..|]. constructor; [|constructor]. apply listable_other; [plainly..|]. constructor; [|constructor]. apply listable_other; [plainly..|]. constructor.
  - apply listable_other; [plainly..|]. constructor; [|constructor]. apply listable_optical; [plainly..|]. repeat (apply Forall_cons; [apply value; plainly|]). constructor.
Qed.
(** what is printed *)
Example C51_example : listable ex_doc /\ readxmlpy ex_doc = written
  [$" ades: {'version': '2022'}"; $"   obsBlock"; $"     obsContext"; $"       submitter"; $"         name: J. Doe";
   $"     obsData"; $"       optical"; $"         OPTICAL ELEMENT LIST FOUND"; $"         trkSub = a1"; $"         obsTime = 2024-01-01T00:00:00Z"; $"         remarks = None"].
Proof. split; [exact ex_listable|]. vm_compute. reflexivity. Qed.

(** Without the conditions on optical records the listing loses content: an element inside a
    value, an attribute of a value, and the difference between no text and the text None. *)
Theorem C51_content_refuted :
  ~ forall doc1 doc2, readxmlpy doc1 = readxmlpy doc2 -> same doc1 doc2.
Proof.
  intro H. specialize (H (Elem $"optical" [] [] [Elem $"a" [] $"1" [leaf $"b" $"2"]]) (Elem $"optical" [] [] [leaf $"a" $"1"]) eq_refl).
  inversion H as [? ? ? ? ? ? _ F]; subst. inversion F as [|? ? ? ? S _]; subst. inversion S as [? ? ? ? ? ? _ F']; subst. inversion F'.
Qed.
Print Assumptions C51_content_refuted.
Example C51_lost :
  readxmlpy (Elem $"optical" [] [] [Elem $"a" [($"k", $"v")] $"1" []]) = readxmlpy (Elem $"optical" [] [] [leaf $"a" $"1"]) /\
  readxmlpy (Elem $"optical" [] [] [leaf $"a" []]) = readxmlpy (Elem $"optical" [] [] [leaf $"a" $"None"]) /\
  readxmlpy (leaf $"a" $"1: {'k': 'v'}") = readxmlpy (Elem $"a" [($"k", $"v")] $"1" []) /\
  readxmlpy (Elem $"a" [] $"1" [leaf $"b" []]) = readxmlpy (leaf $"a" ($"1" ++ nl :: $"   b")).
Proof. vm_compute. repeat split. Qed.
