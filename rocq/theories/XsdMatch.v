(** A matcher for patterns, sound for [matches]: used to show that concrete
    documents are valid. *)
From Verif Require Import PyStrProofs SchemaCheck.
From Verif Require Import XsdPattern.
Local Open Scope nat_scope.

(** what may remain after a prefix in the language *)
Fixpoint rest_of (n : nat) (p : pat) (s : str) : list str :=
  match n with
  | O => []
  | S n' =>
      match p with
      | PSet neg rs => match s with c :: t => if xorb neg (in_ranges rs c) then [t] else [] | [] => [] end
      | PEps => [s]
      | PSeq a b => flat_map (rest_of n' b) (rest_of n' a s)
      | PAlt a b => rest_of n' a s ++ rest_of n' b s
      | PRep a mn mx =>
          (if Nat.eqb mn 0 then [s] else []) ++
          match mx with
          | Some O => []
          | _ => flat_map (fun t => if Nat.ltb (length t) (length s) then rest_of n' (PRep a (mn - 1) (option_map Nat.pred mx)) t else []) (rest_of n' a s)
          end
      end
  end.
Lemma rest_sound n : forall p s r, In r (rest_of n p s) -> exists x, s = x ++ r /\ lang p x.
Proof.
  induction n as [|n IH]; [intros p s r []|]. intros p s r H. destruct p as [neg rs| |a b|a b|a mn mx]; cbn [rest_of] in H.
  - destruct s as [|c t]; [destruct H|]. destruct (xorb neg (in_ranges rs c)) eqn:E; [|destruct H]. destruct H as [<-|[]].
    exists [c]. split; [reflexivity|]. exists c. now split.
  - destruct H as [<-|[]]. exists []. now split.
  - apply in_flat_map in H as (t & H1 & H2). apply IH in H1 as (x & -> & Hx). apply IH in H2 as (y & -> & Hy).
    exists (x ++ y). split; [apply app_assoc|]. exists x, y. auto.
  - apply in_app_iff in H as [H|H]; apply IH in H as (x & -> & Hx); exists x; (split; [reflexivity|]); [now left|now right].
  - apply in_app_iff in H as [H|H].
    + destruct (Nat.eqb_spec mn 0) as [->|]; [|destruct H]. destruct H as [<-|[]]. exists []. split; [reflexivity|]. exists []. split; [reflexivity|]. split; [constructor|].
      split; [apply le_n|]. destruct mx; [apply Nat.le_0_l|exact I].
    + assert (match mx with Some O => False | _ => True end /\
        In r (flat_map (fun t => if Nat.ltb (length t) (length s) then rest_of n (PRep a (mn - 1) (option_map Nat.pred mx)) t else []) (rest_of n a s))) as [M K]
        by (destruct mx as [[|k]|]; [destruct H| |]; (split; [exact I|exact H])).
      clear H. apply in_flat_map in K as (t & H1 & H2). destruct (Nat.ltb _ _); [|destruct H2]. apply IH in H1 as (x & -> & Hx). apply IH in H2 as (y & -> & l & -> & Hl & B1 & B2).
      exists (x ++ concat l). split; [apply app_assoc|]. exists (x :: l). split; [reflexivity|]. split; [now constructor|]. cbn [length]. split; [lia|].
      destruct mx as [[|k]|]; [destruct M|cbn in B2; lia|exact I].
Qed.
Definition matchb (p s : str) : bool :=
  match pattern p with Some a => existsb nullb (rest_of (10 + 3 * length p + 3 * length s) a s) | None => false end.
Lemma matchb_sound p s : matchb p s = true -> matches p s.
Proof.
  unfold matchb. destruct (pattern p) as [a|] eqn:E; [|intro H; discriminate H]. intro H. apply existsb_exists in H as (r & I & N).
  destruct r; [|discriminate N]. apply rest_sound in I as (x & -> & Hx). exists a. split; [exact E|]. now rewrite app_nil_r.
Qed.
Definition facet_is (k : str) (f : str * str) : bool := streqb (fst f) k.
Definition step_b (s : str) (fs : facets) : bool :=
  (if existsb (facet_is $"xsd:pattern") fs then existsb (fun f => facet_is $"xsd:pattern" f && matchb (snd f) s) fs else true) &&
  (if existsb (facet_is $"xsd:enumeration") fs then existsb (fun f => facet_is $"xsd:enumeration" f && streqb (snd f) s) fs else true) &&
  forallb (fun f => if facet_is $"xsd:minLength" f then Nat.leb (value (snd f)) (length s) else true) fs &&
  forallb (fun f => if facet_is $"xsd:maxLength" f then Nat.leb (length s) (value (snd f)) else true) fs.
Lemma has_facet k fs : (exists v, In (k, v) fs) -> existsb (facet_is k) fs = true.
Proof. intros (v & I). apply existsb_exists. exists (k, v). split; [exact I|]. unfold facet_is. cbn [fst]. now apply streqb_eq. Qed.
Lemma step_sound s fs : step_b s fs = true -> step_allows s fs.
Proof.
  unfold step_b. intro H. apply andb_prop in H as [H H4]. apply andb_prop in H as [H H3]. apply andb_prop in H as [H1 H2]. rewrite forallb_forall in H3, H4.
  split; [|split; [|split]].
  - intro E. rewrite (has_facet _ _ E) in H1. apply existsb_exists in H1 as ([k p] & I & H1). apply andb_prop in H1 as [K M]. apply streqb_eq in K. cbn [fst] in K. subst k.
    exists p. split; [exact I|]. now apply matchb_sound.
  - intro E. rewrite (has_facet _ _ E) in H2. apply existsb_exists in H2 as ([k p] & I & H2). apply andb_prop in H2 as [K M]. apply streqb_eq in K, M. cbn [fst snd] in K, M. now subst.
  - intros v I. specialize (H3 _ I). change (facet_is $"xsd:minLength" ($"xsd:minLength", v)) with true in H3. now apply Nat.leb_le in H3.
  - intros v I. specialize (H4 _ I). change (facet_is $"xsd:maxLength" ($"xsd:maxLength", v)) with true in H4. now apply Nat.leb_le in H4.
Qed.
(** texts are checked, other built-in types not *)
Definition texts (d : derivation) (s : str) : Prop := fst d = $"xsd:string" -> Forall (step_allows s) (snd d).
Lemma texts_read : reads_texts texts. Proof. intros st s. unfold texts. cbn [fst snd]. split; auto. Qed.
Definition texts_b (d : derivation) (s : str) : bool := if streqb (fst d) $"xsd:string" then forallb (step_b s) (snd d) else true.
Lemma texts_sound d s : texts_b d s = true -> texts d s.
Proof.
  unfold texts_b, texts. intros H E. rewrite E in H. change (streqb $"xsd:string" $"xsd:string") with true in H. cbn iota in H. rewrite forallb_forall in H.
  apply Forall_forall. intros fs I. now apply step_sound, H.
Qed.
