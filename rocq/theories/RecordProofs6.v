(** The elements above the records, in both schemas. *)
From Verif Require Import SchemaSpec PyStrProofs SchemaProofs3 RecordProofs1 RecordProofs2 RecordProofs3 RecordProofs4 RecordProofs5 AdesMasterTables.
From Verif Require Import Schema XsdSpec SchemaSpec XsdFiles ValidSpec.
Local Open Scope nat_scope.

Definition both : list xml := [general_xsd; submit_xsd].
Definition named (S : xml) (tags : list string) (qs : list xml) : bool :=
  forallb (fun q => match attr $"ref" q with Some r => declared S r && smem r (map lit tags) | None => false end) qs &&
  forallb (fun n => smem $n (map pname qs)) tags.
(** references to declared elements *)
Lemma fits_ref F S r q e : attr $"ref" q = Some r -> declared S r = true -> (fits F S q e <-> xtag e = r /\ valid F S e).
Proof.
  intros R D. unfold fits, pname, ptype. rewrite R. split; intros [E V]; (split; [exact E|]); subst r.
  - now apply valid_declared.
  - now apply (valid_declared F S e D).
Qed.
Lemma fits_named F S tags qs e : named S tags qs = true ->
  ((exists q, In q qs /\ fits F S q e) <-> In (xtag e) (map lit tags) /\ valid F S e).
Proof.
  intro H. apply andb_prop in H as [H1 H2]. rewrite forallb_forall in H1, H2. split.
  - intros (q & I & X). specialize (H1 q I). destruct (attr $"ref" q) as [r|] eqn:R; [|discriminate H1]. apply andb_prop in H1 as [D M]. apply smem_iff in M.
    apply (fits_ref F S r q e R D) in X as [-> V]. now split.
  - intros [I V]. apply in_map_iff in I as (n & E & I). specialize (H2 n I). apply smem_iff in H2. apply in_map_iff in H2 as (q & E' & J). exists q. split; [exact J|].
    specialize (H1 q J). destruct (attr $"ref" q) as [r|] eqn:R; [|discriminate H1]. apply andb_prop in H1 as [D _]. apply (fits_ref F S r q e R D). split; [|exact V].
    unfold pname in E'. rewrite R in E'. congruence.
Qed.
(** local elements of simple types *)
Definition no_complex (S : xml) (t : str) : bool := match component S $"xsd:complexType" t with Some _ => false | None => true end.
Lemma value_type F S t e : no_complex S t = true -> (valid_type F S t e <-> has_value F S t e).
Proof.
  unfold no_complex. intro N. split.
  - intro V. apply valid_type_inv in V as [(Hs & K & A)|(ct & C & _)]; [now repeat split|]. rewrite C in N. discriminate N.
  - intros (A & K & Hs). now apply valid_simple.
Qed.
Definition flag (b : bool) : str := if b then $"1" else $"0".
Definition part_of (S : xml) (q : xml) : option (str * str * bool) :=
  match attr $"ref" q, attr $"name" q, attr $"type" q with None, Some n, Some t => if no_complex S t then Some (n, t, needed q) else None | _, _, _ => None end.
Fixpoint same_parts (S : xml) (ps : list (string * string * bool)) (qs : list xml) : bool :=
  match ps, qs with
  | [], [] => true
  | (n, t, b) :: ps', q :: qs' =>
      match part_of S q with Some (n', t', b') => streqb $n n' && streqb $t t' && Bool.eqb b b' && same_parts S ps' qs' | None => false end
  | _, _ => false
  end.
Lemma part_fits F S q n t b e : part_of S q = Some (n, t, b) -> (fits F S q e <-> xtag e = n /\ has_value F S t e) /\ pname q = n /\ needed q = b.
Proof.
  unfold part_of, fits, pname, ptype. destruct (attr $"ref" q); [intro H; discriminate H|]. destruct (attr $"name" q) as [n'|] eqn:N; [|intro H; discriminate H].
  destruct (attr $"type" q) as [t'|] eqn:T; [|intro H; discriminate H]. destruct (no_complex S t') eqn:C; [|intro H; discriminate H]. intro H. injection H as -> -> <-.
  rewrite (attr_text_some _ _ _ N), (attr_text_some _ _ _ T). split; [|now split]. now rewrite (value_type F S t e C).
Qed.
Lemma same_parts_in S ps : forall qs, same_parts S ps qs = true ->
  (forall q, In q qs -> exists n t b, In (n, t, b) ps /\ part_of S q = Some ($n, $t, b)) /\
  (forall n t b, In (n, t, b) ps -> exists q, In q qs /\ part_of S q = Some ($n, $t, b)).
Proof.
  induction ps as [|[[n t] b] ps IH]; intros [|q qs] H; try discriminate H; [split; [intros q []|intros n t b []]|]. cbn [same_parts] in H.
  destruct (part_of S q) as [[[n' t'] b']|] eqn:P; [|discriminate H]. apply andb_prop in H as [H R]. apply andb_prop in H as [H B]. apply andb_prop in H as [N T].
  apply streqb_eq in N, T. apply Bool.eqb_prop in B. subst n' t' b'. destruct (IH qs R) as [I1 I2]. split.
  - intros q' [<-|I]; [exists n, t, b; split; [now left|exact P]|]. destruct (I1 q' I) as (n' & t' & b' & J & E). exists n', t', b'. split; [now right|exact E].
  - intros n' t' b' [E|I]; [injection E as <- <- <-; exists q; split; [now left|exact P]|]. destruct (I2 n' t' b' I) as (q' & J & E). exists q'. split; [now right|exact E].
Qed.
Definition composed_ok (S : xml) (tag : str) (ps : list (string * string * bool)) : bool :=
  declared S tag && parts_type S (type_of_tag S tag) && same_parts S ps (xkids (the S (type_of_tag S tag))).
Lemma composed_valid F S ps e : composed_ok S (xtag e) ps = true -> (valid F S e <-> composed F S ps e).
Proof.
  intro H. apply andb_prop in H as [H Q]. apply andb_prop in H as [D P]. rewrite (valid_declared F S e D), (parts_valid F S _ e P). destruct (same_parts_in S ps _ Q) as [Q1 Q2].
  unfold composed, assorted. split.
  - intros (B & N & A1 & A2). split; [exact B|]. split; [exact N|]. split.
    + intros k I. destruct (A1 k I) as (q & J & X). destruct (Q1 q J) as (n & t & b & K & E). exists n, t, b. split; [exact K|]. exact (proj1 (proj1 (part_fits F S q _ _ _ k E)) X).
    + intros n t I. destruct (Q2 n t true I) as (q & J & E). destruct (part_fits F S q _ _ _ e E) as (_ & <- & M). now apply A2.
  - intros (B & N & A1 & A2). split; [exact B|]. split; [exact N|]. split.
    + intros k I. destruct (A1 k I) as (n & t & b & K & X). destruct (Q2 n t b K) as (q & J & E). exists q. split; [exact J|]. exact (proj2 (proj1 (part_fits F S q _ _ _ k E)) X).
    + intros q I M. destruct (Q1 q I) as (n & t & b & K & E). destruct (part_fits F S q _ _ _ e E) as (_ & -> & M'). rewrite M' in M. subst b. now apply (A2 n t).
Qed.
Definition listed_ok (S : xml) (tag : str) (n t : string) : bool :=
  declared S tag && list_type S (type_of_tag S tag) &&
  match part_of S (the_item S (type_of_tag S tag)) with Some (n', t', _) => streqb $n n' && streqb $t t' | None => false end.
Lemma listed_valid F S n t e : listed_ok S (xtag e) n t = true -> (valid F S e <-> listed F S n t e).
Proof.
  intro H. apply andb_prop in H as [H Q]. apply andb_prop in H as [D P]. rewrite (valid_declared F S e D), (list_valid F S _ e P). unfold listed.
  destruct (part_of _ _) as [[[n' t'] b']|] eqn:E; [|discriminate Q]. apply andb_prop in Q as [Q1 Q2]. apply streqb_eq in Q1, Q2. subst n' t'. rewrite Forall_forall. split.
  - intros (B & K & A). split; [exact B|]. split; [exact K|]. intros k I. exact (proj1 (proj1 (part_fits F S _ _ _ _ k E)) (A k I)).
  - intros (B & K & A). split; [exact B|]. split; [exact K|]. intros k I. exact (proj2 (proj1 (part_fits F S _ _ _ _ k E)) (A k I)).
Qed.
Ltac sweep := intros S I; destruct I as [<-|[<-|[]]]; vm_compute; reflexivity.
Lemma ok_composed : forall S, In S both ->
  forallb (fun x => composed_ok S $(fst x) (snd x)) [("observatory", observatory_parts); ("submitter", submitter_parts); ("telescope", telescope_parts); ("software", software_parts)]%string = true.
Proof. sweep. Qed.
Lemma ok_listed : forall S, In S both ->
  forallb (fun x => listed_ok S $x "name" "StringTypeW100") ["observers"; "measurers"; "coinvestigators"; "collaborators"]%string && listed_ok S $"comment" "line" "StringTypeW100" = true.
Proof. sweep. Qed.
(** the header *)
Definition ctx_type (S : xml) : str := type_of_tag S $"obsContext".
Lemma ok_context : forall S, In S both -> declared S $"obsContext" && parts_type S (ctx_type S) && named S context_parts (xkids (the S (ctx_type S))) &&
  same_list (map pname (filter needed (xkids (the S (ctx_type S))))) (map lit context_needed) = true.
Proof. sweep. Qed.
Lemma context_valid F S e : In S both -> xtag e = $"obsContext" ->
  (valid F S e <-> bare e /\ NoDup (map xtag (xkids e)) /\ (forall k, In k (xkids e) -> In (xtag k) (map lit context_parts) /\ valid F S k) /\
   incl (map lit context_needed) (map xtag (xkids e))).
Proof.
  intros I T. pose proof (ok_context S I) as H. apply andb_prop in H as [H N]. apply andb_prop in H as [H M]. apply andb_prop in H as [D P]. apply same_list_eq in N.
  rewrite <- T in D. rewrite (valid_declared F S e D). rewrite T. rewrite (parts_valid F S _ e P). unfold assorted, ctx_type in *.
  assert ((forall q, In q (xkids (the S (type_of_tag S $"obsContext"))) -> needed q = true -> In (pname q) (map xtag (xkids e))) <-> incl (map lit context_needed) (map xtag (xkids e))) as ->.
  { rewrite <- N. split.
    - intros H x J. apply in_map_iff in J as (q & <- & J). apply filter_In in J as [J K]. now apply H.
    - intros H q J K. apply H. apply in_map. apply filter_In. now split. }
  split.
  - intros (B & U & A & R). split; [exact B|]. split; [exact U|]. split; [|exact R]. intros k J. apply (fits_named F S _ _ k M). now apply A.
  - intros (B & U & A & R). split; [exact B|]. split; [exact U|]. split; [|exact R]. intros k J. apply (fits_named F S _ _ k M). now apply A.
Qed.
(** the data of a block *)
Lemma ok_data : forall S, In S both -> declared S $"obsData" && data_type S (type_of_tag S $"obsData") &&
  same_list (map pname (xkids (the S (type_of_tag S $"obsData")))) (map lit record_names) && named S record_names (xkids (the S (type_of_tag S $"obsData"))) = true.
Proof. sweep. Qed.
Lemma obsData_valid F S e : In S both -> xtag e = $"obsData" ->
  (valid F S e <-> bare e /\ xkids e <> [] /\ exists kind, In kind (map lit record_names) /\ forall k, In k (xkids e) -> xtag k = kind /\ valid F S k).
Proof.
  intros I T. pose proof (ok_data S I) as H. apply andb_prop in H as [H M]. apply andb_prop in H as [H N]. apply andb_prop in H as [D P]. apply same_list_eq in N.
  rewrite <- T in D. rewrite (valid_declared F S e D). rewrite T. rewrite (data_valid F S _ e P). rewrite <- N. apply andb_prop in M as [M _]. rewrite forallb_forall in M. split.
  - intros (B & K & q & J & A). split; [exact B|]. split; [exact K|]. exists (pname q). split; [now apply in_map|]. intros k L. rewrite Forall_forall in A. specialize (A k L). specialize (M q J).
    destruct (attr $"ref" q) as [r|] eqn:R; [|discriminate M]. apply andb_prop in M as [M _]. apply (fits_ref F S r q k R M) in A as [E V]. split; [|exact V]. unfold pname. now rewrite R.
  - intros (B & K & kind & J & A). split; [exact B|]. split; [exact K|]. apply in_map_iff in J as (q & <- & J). exists q. split; [exact J|]. apply Forall_forall. intros k L. specialize (A k L). specialize (M q J).
    destruct (attr $"ref" q) as [r|] eqn:R; [|discriminate M]. apply andb_prop in M as [M _]. apply (fits_ref F S r q k R M). unfold pname in A. now rewrite R in A.
Qed.
(** a block *)
Lemma ok_block : forall S, In S both -> declared S $"obsBlock" && pair_type S (type_of_tag S $"obsBlock") &&
  match map (attr $"ref") (xkids (the S (type_of_tag S $"obsBlock"))) with [Some a; Some b] => streqb a $"obsContext" && streqb b $"obsData" && declared S a && declared S b | _ => false end = true.
Proof. sweep. Qed.
Lemma obsBlock_valid F S e : In S both -> xtag e = $"obsBlock" ->
  (valid F S e <-> bare e /\ exists c d, xkids e = [c; d] /\ xtag c = $"obsContext" /\ valid F S c /\ xtag d = $"obsData" /\ valid F S d).
Proof.
  intros I T. pose proof (ok_block S I) as H. apply andb_prop in H as [H M]. apply andb_prop in H as [D P].
  rewrite <- T in D. rewrite (valid_declared F S e D). rewrite T. rewrite (pair_valid F S _ e P). destruct (xkids (the S (type_of_tag S $"obsBlock"))) as [|p [|q [|]]]; try discriminate M.
  { cbn [map] in M. destruct (attr $"ref" p); discriminate M. }
  2:{ cbn [map] in M. destruct (attr $"ref" p); [|discriminate M]. destruct (attr $"ref" q); discriminate M. }
  cbn [map] in M. destruct (attr $"ref" p) as [a|] eqn:R1; [|discriminate M]. destruct (attr $"ref" q) as [b|] eqn:R2; [|discriminate M].
  apply andb_prop in M as [M D2]. apply andb_prop in M as [M D1]. apply andb_prop in M as [E1 E2]. apply streqb_eq in E1, E2. subst a b. split.
  - intros (B & p' & q' & a & b & E & K & X & Y). injection E as <- <-. split; [exact B|]. exists a, b. apply (fits_ref F S _ p a R1 D1) in X as [X1 X2]. apply (fits_ref F S _ q b R2 D2) in Y as [Y1 Y2]. now repeat split.
  - intros (B & c & d & K & X1 & X2 & Y1 & Y2). split; [exact B|]. exists p, q, c, d. split; [reflexivity|]. split; [exact K|]. split; [now apply (fits_ref F S _ p c R1 D1)|now apply (fits_ref F S _ q d R2 D2)].
Qed.
(** the document *)
Definition root_names (S : xml) : list string := if streqb (type_of_tag S $"ades") $"ADESType" then (if may_be_empty S $"ADESType" then record_names ++ residual_names ++ ["obsBlock"%string] else ["obsBlock"%string]) else [].
Lemma ok_root : forall S, In S both -> declared S $"ades" && root_type S (type_of_tag S $"ades") && named S (root_names S) (xkids (the S (type_of_tag S $"ades"))) = true.
Proof. sweep. Qed.
Definition version_only (S : xml) : bool :=
  match component S $"xsd:complexType" (type_of_tag S $"ades") with
  | Some ct => match filter (has_tag $"xsd:attribute") (xkids ct) with [d] => (match attr $"name" d with Some n => streqb n $"version" | None => false end) && streqb (attr_text $"type" d) $"VersionType" && attr_is $"use" $"required" d | _ => false end
  | None => false end.
Lemma ok_version : forall S, In S both -> version_only S = true.
Proof. sweep. Qed.
Lemma root_kids F S e : In S both -> xtag e = $"ades" ->
  (valid F S e <-> blank_text (xtext e) = true /\
   (forall k v, In (k, v) (xattrs e) -> k = $"version" /\ simple F S $"VersionType" v) /\ (exists v, In ($"version", v) (xattrs e)) /\
   (forall k, In k (xkids e) -> In (xtag k) (map lit (root_names S)) /\ valid F S k) /\ (xkids e = [] -> may_be_empty S (type_of_tag S $"ades") = true)).
Proof.
  intros I T. pose proof (ok_root S I) as H. apply andb_prop in H as [H N]. apply andb_prop in H as [D R]. pose proof (ok_version S I) as V. unfold version_only in V.
  rewrite <- T in D. rewrite (valid_declared F S e D). rewrite T. destruct (component S $"xsd:complexType" (type_of_tag S $"ades")) as [ct|] eqn:C; [|discriminate V].
  rewrite (root_valid F S _ ct e R C).
  assert (attributes_ok F S ct (xattrs e) <-> (forall k v, In (k, v) (xattrs e) -> k = $"version" /\ simple F S $"VersionType" v) /\ (exists v, In ($"version", v) (xattrs e))) as ->.
  { destruct (filter (has_tag $"xsd:attribute") (xkids ct)) as [|d [|]] eqn:Fl; try discriminate V. apply andb_prop in V as [V V3]. apply andb_prop in V as [V1 V2]. apply streqb_eq in V2.
    destruct (attr $"name" d) as [n|] eqn:Nd; [|discriminate V1]. apply streqb_eq in V1. subst n.
    assert (In d (xkids ct) /\ xtag d = $"xsd:attribute") as [Id Td].
    { assert (In d (filter (has_tag $"xsd:attribute") (xkids ct))) as J by (rewrite Fl; now left). apply filter_In in J as [J1 J2]. split; [exact J1|now apply streqb_eq]. }
    assert (forall d', In d' (xkids ct) -> xtag d' = $"xsd:attribute" -> d' = d) as Only.
    { intros d' J1 J2. assert (In d' (filter (has_tag $"xsd:attribute") (xkids ct))) as J by (apply filter_In; split; [exact J1|unfold has_tag; rewrite J2; now apply streqb_eq]). rewrite Fl in J. now destruct J as [<-|[]]. }
    unfold attributes_ok. split.
    - intros [A1 A2]. split.
      + intros k v J. destruct (A1 k v J) as (d' & J1 & J2 & J3 & J4). rewrite (Only d' J1 J2) in *. rewrite Nd in J3. injection J3 as <-. rewrite V2 in J4. now split.
      + destruct (A2 d Id Td V3) as (v & J). exists v. now rewrite (attr_text_some _ _ _ Nd) in J.
    - intros [A1 A2]. split.
      + intros k v J. destruct (A1 k v J) as [-> W]. exists d. rewrite V2. now repeat split.
      + intros d' J1 J2 _. rewrite (Only d' J1 J2), (attr_text_some _ _ _ Nd). exact A2. }
  split.
  - intros (B & (A1 & A2) & K1 & K2). split; [exact B|]. split; [exact A1|]. split; [exact A2|]. split; [|exact K2]. intros k J. apply (fits_named F S _ _ k N). now apply K1.
  - intros (B & A1 & A2 & K1 & K2). split; [exact B|]. split; [now split|]. split; [|exact K2]. intros k J. apply (fits_named F S _ _ k N). now apply K1.
Qed.
Lemma root_general : root_names general_xsd = (record_names ++ residual_names ++ ["obsBlock"%string])%list /\ may_be_empty general_xsd (type_of_tag general_xsd $"ades") = true.
Proof. vm_compute. now split. Qed.
Lemma root_submit : root_names submit_xsd = ["obsBlock"%string] /\ may_be_empty submit_xsd (type_of_tag submit_xsd $"ades") = false.
Proof. vm_compute. now split. Qed.
