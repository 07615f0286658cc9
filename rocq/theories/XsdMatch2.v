(** A checker for numbers, sound for [number_allows]: used to show that concrete
    documents are valid. *)
From Verif Require Import PyStrProofs SchemaCheck SchemaProofs3 XsdMatch ValueProofs2.
From Verif Require Import Schema XsdSpec XsdPattern ValueSpec PropsValue.
Local Open Scope nat_scope.

(** the value of a numeral *)
Definition split_sign (s : str) : str * str :=
  match s with c :: t => if ceqb c "-" then ($"-", t) else if ceqb c "+" then ($"+", t) else ([], s) | [] => ([], []) end.
Definition split_point (s : str) : str * option str :=
  match splitc "." s with [a] => (a, None) | [a; b] => (a, Some b) | _ => ([], None) end.
Definition num_of (s : str) : option Q :=
  let (sg, w) := split_sign s in
  let '(a, b) := split_point w in
  let bb := match b with Some x => x | None => [] end in
  if streqb s (sg ++ a ++ match b with Some x => $"." ++ x | None => [] end) then
    if forallb isdig (a ++ bb) then
      match a ++ bb with
      | [] => None
      | _ => Some ((if streqb sg $"-" then -1 else 1) * (inject_Z (decval (a ++ bb)) / inject_Z (10 ^ Z.of_nat (length bb))))%Q
      end
    else None
  else None.
Lemma num_sound s q : num_of s = Some q -> decimal_value s q.
Proof.
  unfold num_of. cbv zeta. destruct (split_sign s) as [sg w] eqn:S. destruct (split_point w) as [a b].
  assert (In sg [[]; $"+"; $"-"]) as I.
  { unfold split_sign in S. destruct s as [|c t]; [injection S as <- <-; now left|]. destruct (ceqb c "-"); [injection S as <- <-; right; right; now left|].
    destruct (ceqb c "+"); injection S as <- <-; [right; now left|now left]. }
  destruct (streqb s _) eqn:E; [|intro H; discriminate H]. apply streqb_eq in E. destruct (forallb isdig _) eqn:D; [|intro H; discriminate H].
  intro H. exists sg, a, (match b with Some x => x | None => [] end). split.
  { destruct b as [x|]; [now right|]. left. rewrite app_nil_r in E. now split. }
  split; [exact I|]. split; [exact D|]. clear E D. destruct b as [x|]; [set (z := a ++ x) in *|set (z := a ++ []) in *]; (destruct z; [discriminate H|]; split; [intro X; discriminate X|]; injection H as <-; apply Qeq_refl).
Qed.
Definition limit_b (k : str) (ok : Q -> bool) (fs : facets) : bool :=
  forallb (fun f => if facet_is k f then match num_of (snd f) with Some r => ok r | None => false end else true) fs.
Definition number_b (s : str) (q : Q) (fs : facets) : bool :=
  (if existsb (facet_is $"xsd:pattern") fs then existsb (fun f => if facet_is $"xsd:pattern" f then matchb (snd f) s else false) fs else true) &&
  (if existsb (facet_is $"xsd:enumeration") fs then existsb (fun f => if facet_is $"xsd:enumeration" f then match num_of (snd f) with Some r => Qeq_bool r q | None => false end else false) fs else true) &&
  limit_b $"xsd:minInclusive" (fun r => Qle_bool r q) fs && limit_b $"xsd:maxInclusive" (fun r => Qle_bool q r) fs &&
  limit_b $"xsd:minExclusive" (fun r => negb (Qle_bool q r)) fs && limit_b $"xsd:maxExclusive" (fun r => negb (Qle_bool r q)) fs.
Lemma limit_sound k ok fs v r : limit_b k ok fs = true -> In (k, v) fs -> decimal_value v r -> exists r', (r == r')%Q /\ ok r' = true.
Proof.
  intros H I D. unfold limit_b in H. rewrite forallb_forall in H. specialize (H _ I). unfold facet_is in H. cbn [fst snd] in H.
  rewrite (proj2 (streqb_eq k k) eq_refl) in H. destruct (num_of v) as [r'|] eqn:N; [|discriminate H]. exists r'. split; [|exact H]. exact (decimal_fun v r r' D (num_sound v r' N)).
Qed.
Lemma number_sound s q fs : number_b s q fs = true -> number_allows s q fs.
Proof.
  unfold number_b. intro H. apply andb_prop in H as [H H6]. apply andb_prop in H as [H H5]. apply andb_prop in H as [H H4]. apply andb_prop in H as [H H3]. apply andb_prop in H as [H1 H2].
  split; [|split; [|split; [|split; [|split]]]].
  - intro E. rewrite (has_facet _ _ E) in H1. apply existsb_exists in H1 as ([k p] & I & H1). unfold facet_is in H1. cbn [fst snd] in H1. destruct (streqb k $"xsd:pattern") eqn:K; [|discriminate H1].
    apply streqb_eq in K. subst k. exists p. split; [exact I|]. now apply matchb_sound.
  - intro E. rewrite (has_facet _ _ E) in H2. apply existsb_exists in H2 as ([k p] & I & H2). unfold facet_is in H2. cbn [fst snd] in H2. destruct (streqb k $"xsd:enumeration") eqn:K; [|discriminate H2].
    apply streqb_eq in K. subst k. exists p. split; [exact I|]. destruct (num_of p) as [r|] eqn:N; [|discriminate H2]. apply Qeq_bool_iff in H2. exact (decimal_eq p r q H2 (num_sound p r N)).
  - intros v r I D. destruct (limit_sound _ _ _ v r H3 I D) as (r' & E & O). apply Qle_bool_iff in O. now rewrite E.
  - intros v r I D. destruct (limit_sound _ _ _ v r H4 I D) as (r' & E & O). apply Qle_bool_iff in O. now rewrite E.
  - intros v r I D. destruct (limit_sound _ _ _ v r H5 I D) as (r' & E & O). rewrite E. apply Qnot_le_lt. intro L. apply Qle_bool_iff in L. rewrite L in O. discriminate O.
  - intros v r I D. destruct (limit_sound _ _ _ v r H6 I D) as (r' & E & O). rewrite E. apply Qnot_le_lt. intro L. apply Qle_bool_iff in L. rewrite L in O. discriminate O.
Qed.
(** for the reading of PropsValue *)
Definition values_b (d : derivation) (s : str) : bool :=
  let (b, steps) := d in
  if streqb b $"xsd:decimal" then match num_of (trim s) with Some q => forallb (number_b (trim s) q) steps | None => false end
  else if streqb b $"xsd:integer" then if existsb (ceqb ".") (trim s) then false else match num_of (trim s) with Some q => forallb (number_b (trim s) q) steps | None => false end
  else forallb (step_b s) steps.
Lemma values_sound d s : values_b d s = true -> reading d s.
Proof.
  unfold values_b, reading. destruct d as [b steps].
  assert (match num_of (trim s) with Some q => forallb (number_b (trim s) q) steps | None => false end = true -> exists q, decimal_value (trim s) q /\ Forall (number_allows (trim s) q) steps) as K.
  { destruct (num_of (trim s)) as [q|] eqn:N; [|intro H; discriminate H]. intro H. exists q. split; [now apply num_sound|]. rewrite forallb_forall in H. apply Forall_forall. intros fs I. now apply number_sound, H. }
  destruct (streqb b $"xsd:decimal"); [exact K|]. destruct (streqb b $"xsd:integer").
  - destruct (existsb (ceqb ".") (trim s)) eqn:P; [intro H; discriminate H|]. intro H. split; [|now apply K]. intro I. assert (existsb (ceqb ".") (trim s) = true) as X by (apply existsb_exists; exists "."%char; split; [exact I|reflexivity]). rewrite X in P. discriminate P.
  - intro H. rewrite forallb_forall in H. apply Forall_forall. intros fs I. now apply step_sound, H.
Qed.
Lemma valid_values S e : SchemaCheck.checks values_b S 30 e = true -> valid reading S e.
Proof. intro H. apply (valid_weaken (fun d s => values_b d s = true) reading S e values_sound). now apply (checks_valid values_b S 30). Qed.
