(** A checker for documents, sound for [valid]: used to show that concrete
    documents are valid. *)
From Verif Require Import SchemaSpec PyStrProofs.
From Verif Require Import Schema XsdSpec SchemaSpec.
Local Open Scope nat_scope.

Definition nullb {A} (l : list A) : bool := match l with [] => true | _ => false end.
Fixpoint picks {A} (l : list A) : list (A * list A) :=
  match l with [] => [] | x :: l' => (x, l') :: map (fun y => (fst y, x :: snd y)) (picks l') end.
Fixpoint seqs {A B} (f : B -> list A -> list (list A)) (ps : list B) (ks : list A) : list (list A) :=
  match ps with [] => [ks] | p :: ps' => flat_map (seqs f ps') (f p ks) end.
Fixpoint reps {A} (f : list A -> list (list A)) (k : nat) (ks : list A) : list (list A) :=
  match k with O => [] | S k' => let r := f ks in r ++ flat_map (fun x => if Nat.ltb (length x) (length ks) then reps f k' x else []) r end.
Fixpoint alls {A B} (f : B -> list A -> list (list A)) (ps : list B) (ks : list A) : list (list A) :=
  match ps with
  | [] => [ks]
  | p :: ps' => (if existsb nullb (f p []) then alls f ps' ks else []) ++
      flat_map (fun x => if existsb nullb (f p [fst x]) then alls f ps' (snd x) else []) (picks ks)
  end.
Section Check.
Variable f : derivation -> str -> bool.
Variable T : xml.
Fixpoint derivs (n : nat) (t : str) : list derivation :=
  match n with
  | O => []
  | S n' => (if builtin t then [(t, [])] else []) ++
      match component T $"xsd:simpleType" t with
      | Some st => flat_map (fun r => if has_tag $"xsd:restriction" r
                      then map (fun d => (fst d, facets_of r :: snd d)) (derivs n' (attr_text $"base" r)) else []) (xkids st)
      | None => [] end
  end.
Fixpoint simple_b (n : nat) (t s : str) : bool :=
  match n with
  | O => false
  | S n' => existsb (fun d => f d s) (derivs n t) ||
      match component T $"xsd:simpleType" t with
      | Some st => existsb (fun u => has_tag $"xsd:union" u && existsb (fun m => simple_b n' m s) (split_ws (attr_text $"memberTypes" u))) (xkids st)
      | None => false end
  end.
Definition attrs_b (n : nat) (ct : xml) (a : list (str * str)) : bool :=
  forallb (fun kv => existsb (fun d => has_tag $"xsd:attribute" d && attr_is $"name" (fst kv) d && simple_b n (attr_text $"type" d) (snd kv)) (xkids ct)) a &&
  forallb (fun d => negb (has_tag $"xsd:attribute" d && attr_is $"use" $"required" d) || existsb (fun kv => streqb (fst kv) (attr_text $"name" d)) a) (xkids ct).
Definition step (tp : xml -> list xml -> list (list xml)) (n : nat) (p : xml) (ks : list xml) : list (list xml) :=
  (if attr_is $"minOccurs" $"0" p then [ks] else []) ++
  (if attr_is $"maxOccurs" $"unbounded" p then reps (tp p) n ks else tp p ks).
Fixpoint vt (n : nat) (t : str) (e : xml) : bool :=
  match n with
  | O => false
  | S n' => (simple_b n t (xtext e) && nullb (xkids e) && nullb (xattrs e)) ||
      match component T $"xsd:complexType" t with
      | Some ct => blank_text (xtext e) && attrs_b n ct (xattrs e) && existsb nullb (seqs (step (tm n') n') (filter is_particle (xkids ct)) (xkids e))
      | None => false end
  end
with tm (n : nat) (p : xml) (ks : list xml) : list (list xml) :=
  match n with
  | O => []
  | S n' =>
      if has_tag $"xsd:element" p then
        match ks with
        | [] => []
        | e :: rest =>
            match attr $"ref" p with
            | Some r => match component T $"xsd:element" r with
                        | Some d => if (if streqb (xtag e) r then vt n' (attr_text $"type" d) e else false) then [rest] else []
                        | None => [] end
            | None => match attr $"name" p, attr $"type" p with
                      | Some m, Some t => if (if streqb (xtag e) m then vt n' t e else false) then [rest] else []
                      | _, _ => [] end
            end
        end
      else if has_tag $"xsd:group" p then
        match attr $"ref" p with
        | Some r => match component T $"xsd:group" r with Some g => seqs (step (tm n') n') (xkids g) ks | None => [] end
        | None => [] end
      else if has_tag $"xsd:sequence" p then seqs (step (tm n') n') (xkids p) ks
      else if has_tag $"xsd:choice" p then flat_map (fun q => step (tm n') n' q ks) (xkids p)
      else if has_tag $"xsd:all" p then (if existsb nullb (alls (step (tm n') n') (xkids p) ks) then [[]] else [])
      else []
  end.
Definition checks (n : nat) (e : xml) : bool :=
  match component T $"xsd:element" (xtag e) with Some d => vt n (attr_text $"type" d) e | None => false end.

Notation F := (fun d s => f d s = true).
Lemma derivs_ok n : forall t d, In d (derivs n t) -> derives T t d.
Proof.
  induction n as [|n IH]; intros t d I; cbn [derivs] in I; [destruct I|]. apply in_app_iff in I as [I|I].
  - destruct (builtin t) eqn:B; [|destruct I]. destruct I as [<-|[]]. now constructor.
  - destruct (component T _ t) as [st|] eqn:C; [|destruct I]. apply in_flat_map in I as (r & I & J).
    destruct (has_tag _ r) eqn:R; [|destruct J]. apply streqb_eq in R. apply in_map_iff in J as ((b & l) & <- & J). cbn [fst snd].
    exact (der_restriction T t st r b l C I R (IH _ _ J)).
Qed.
Lemma simple_ok n : forall t s, simple_b n t s = true -> simple F T t s.
Proof.
  induction n as [|n IH]; intros t s H; [discriminate H|]. cbn [simple_b] in H. apply orb_true_iff in H as [H|H].
  - apply existsb_exists in H as (d & I & H). apply (simple_derived F T t d s); [now apply (derivs_ok (S n))|exact H].
  - destruct (component T _ t) as [st|] eqn:C; [|discriminate H]. apply existsb_exists in H as (u & I & H). apply andb_true_iff in H as [R H].
    apply streqb_eq in R. apply existsb_exists in H as (m & J & H). exact (simple_union F T t st u m s C I R J (IH _ _ H)).
Qed.
Lemma attr_is_some k v x : attr_is k v x = true -> attr k x = Some v.
Proof. unfold attr_is. destruct (attr k x); [|discriminate]. intros H. apply streqb_eq in H. now subst. Qed.
Lemma attrs_ok n ct a : attrs_b n ct a = true -> attributes_ok F T ct a.
Proof.
  unfold attrs_b. intros H. apply andb_true_iff in H as [H1 H2]. rewrite forallb_forall in H1, H2. split.
  - intros k v I. specialize (H1 _ I). apply existsb_exists in H1 as (d & J & H). cbn [fst snd] in H. apply andb_true_iff in H as [H H3].
    apply andb_true_iff in H as [H H4]. exists d. split; [exact J|]. split; [now apply streqb_eq|]. split; [now apply attr_is_some|now apply (simple_ok n)].
  - intros d I R U. specialize (H2 _ I). unfold has_tag in H2. rewrite R, U, streqb_refl in H2. cbn [andb negb orb] in H2.
    apply existsb_exists in H2 as ((k & v) & J & H). cbn [fst] in H. apply streqb_eq in H. subst k. now exists v.
Qed.

Definition term_sound (tp : xml -> list xml -> list (list xml)) : Prop :=
  forall p ks r, In r (tp p ks) -> exists a, ks = a ++ r /\ term F T p a.
Lemma reps_ok tp p k : term_sound tp -> forall ks r, In r (reps (tp p) k ks) -> exists a m, ks = a ++ r /\ 1 <= m /\ times F T p m a.
Proof.
  intros H. induction k as [|k IH]; intros ks r I; cbn [reps] in I; [destruct I|]. apply in_app_iff in I as [I|I].
  - destruct (H _ _ _ I) as (a & -> & K). exists a, 1. split; [reflexivity|]. split; [lia|]. rewrite <- (app_nil_r a). constructor; [exact K|constructor].
  - apply in_flat_map in I as (x & I & J). destruct (Nat.ltb _ _); [|destruct J]. destruct (H _ _ _ I) as (a & -> & K). destruct (IH _ _ J) as (b & m & -> & _ & L).
    exists (a ++ b), (S m). split; [apply app_assoc|]. split; [lia|]. now constructor.
Qed.
Lemma step_ok tp n p ks r : term_sound tp -> In r (step tp n p ks) -> exists a, ks = a ++ r /\ particle F T p a.
Proof.
  intros H I. unfold step in I. apply in_app_iff in I as [I|I].
  - destruct (attr_is $"minOccurs" $"0" p) eqn:M; [|destruct I]. destruct I as [<-|[]]. exists []. split; [reflexivity|].
    apply (particle_times F T p 0); [constructor|]. split; [now left|right; lia].
  - destruct (attr_is $"maxOccurs" $"unbounded" p) eqn:M.
    + destruct (reps_ok tp p n H _ _ I) as (a & m & -> & L & K). exists a. split; [reflexivity|]. apply (particle_times F T p m); [exact K|].
      split; [right; exact L|now left].
    + destruct (H _ _ _ I) as (a & -> & K). exists a. split; [reflexivity|]. apply (particle_times F T p 1).
      * rewrite <- (app_nil_r a). constructor; [exact K|constructor].
      * split; right; lia.
Qed.
Definition particle_sound (g : xml -> list xml -> list (list xml)) : Prop :=
  forall p ks r, In r (g p ks) -> exists a, ks = a ++ r /\ particle F T p a.
Lemma seqs_ok g ps : particle_sound g -> forall ks r, In r (seqs g ps ks) -> exists a, ks = a ++ r /\ sequence F T ps a.
Proof.
  intros H. induction ps as [|p ps IH]; intros ks r I; cbn [seqs] in I.
  - destruct I as [<-|[]]. exists []. split; [reflexivity|constructor].
  - apply in_flat_map in I as (x & I & J). destruct (H _ _ _ I) as (a & -> & K). destruct (IH _ _ J) as (b & -> & L).
    exists (a ++ b). split; [apply app_assoc|]. now constructor.
Qed.
Lemma picks_ok {A} (l : list A) x r : In (x, r) (picks l) -> Permutation l (x :: r).
Proof.
  revert x r. induction l as [|y l IH]; intros x r I; cbn [picks] in I; [destruct I|]. destruct I as [[= <- <-]|I]; [apply Permutation_refl|].
  apply in_map_iff in I as ((x' & r') & [= <- <-] & I). cbn [fst snd]. apply IH in I. rewrite I. constructor.
Qed.
Lemma nullb_ok {A} (l : list (list A)) : existsb nullb l = true -> In [] l.
Proof. intros H. apply existsb_exists in H as (x & I & H). now destruct x. Qed.
Lemma alls_ok g ps : particle_sound g -> forall ks, In [] (alls g ps ks) -> exists a, Permutation ks a /\ sequence F T ps a.
Proof.
  intros H. induction ps as [|p ps IH]; intros ks I; cbn [alls] in I.
  - destruct I as [->|[]]. exists []. split; constructor.
  - apply in_app_iff in I as [I|I].
    + destruct (existsb nullb (g p [])) eqn:E; [|destruct I]. apply nullb_ok, H in E as (b & E & K). rewrite app_nil_r in E. subst b.
      destruct (IH _ I) as (a & P & L). exists ([] ++ a). split; [exact P|]. now constructor.
    + apply in_flat_map in I as ((x & r) & I & J). cbn [fst snd] in J. destruct (existsb nullb (g p [x])) eqn:E; [|destruct J].
      apply nullb_ok, H in E as (b & E & K). rewrite app_nil_r in E. subst b. destruct (IH _ J) as (a & P & L).
      exists ([x] ++ a). split; [|now constructor]. apply picks_ok in I. rewrite I. cbn [app]. now rewrite P.
Qed.
Lemma check_sound n : (forall t e, vt n t e = true -> valid_type F T t e) /\ term_sound (tm n).
Proof.
  induction n as [|n [IH1 IH2]]; [split; [discriminate|intros p ks r []]|].
  assert (SP : particle_sound (step (tm n) n)) by (intros p ks r; now apply step_ok).
  split.
  - intros t e H. cbn [vt] in H. apply orb_true_iff in H as [H|H].
    + apply andb_true_iff in H as [H H3]. apply andb_true_iff in H as [H H2]. apply valid_simple; [now apply (simple_ok (S n))| |].
      * now destruct (xkids e).
      * now destruct (xattrs e).
    + destruct (component T _ t) as [ct|] eqn:C; [|discriminate H]. apply andb_true_iff in H as [H H3]. apply andb_true_iff in H as [H1 H2].
      apply (valid_complex F T t ct e C H1); [now apply (attrs_ok (S n))|]. apply nullb_ok in H3.
      destruct (seqs_ok _ _ SP _ _ H3) as (a & E & K). rewrite app_nil_r in E. now rewrite E.
  - intros p ks r I. cbn [tm] in I. destruct (has_tag $"xsd:element" p) eqn:T1.
    { apply streqb_eq in T1. destruct ks as [|e rest]; [destruct I|]. destruct (attr $"ref" p) as [r'|] eqn:A.
      - destruct (component T _ r') as [d|] eqn:C; [|destruct I]. destruct (if streqb (xtag e) r' then vt n (attr_text $"type" d) e else false) eqn:E; [|destruct I]. change (streqb (xtag e) r' && vt n (attr_text $"type" d) e = true) in E.
        destruct I as [<-|[]]. apply andb_true_iff in E as [E1 E2]. apply streqb_eq in E1. exists [e]. split; [reflexivity|].
        exact (term_ref F T p r' d e T1 A C E1 (IH1 _ _ E2)).
      - destruct (attr $"name" p) as [m|] eqn:A1; [|destruct I]. destruct (attr $"type" p) as [t|] eqn:A2; [|destruct I].
        destruct (if streqb (xtag e) m then vt n t e else false) eqn:E; [|destruct I]. change (streqb (xtag e) m && vt n t e = true) in E.
        destruct I as [<-|[]]. apply andb_true_iff in E as [E1 E2]. apply streqb_eq in E1. exists [e]. split; [reflexivity|].
        exact (term_local F T p m t e T1 A A1 A2 E1 (IH1 _ _ E2)). }
    destruct (has_tag $"xsd:group" p) eqn:T2.
    { apply streqb_eq in T2. destruct (attr $"ref" p) as [r'|] eqn:A; [|destruct I]. destruct (component T _ r') as [g|] eqn:C; [|destruct I].
      destruct (seqs_ok _ _ SP _ _ I) as (a & -> & K). exists a. split; [reflexivity|]. exact (term_group F T p r' g a T2 A C K). }
    destruct (has_tag $"xsd:sequence" p) eqn:T3.
    { apply streqb_eq in T3. destruct (seqs_ok _ _ SP _ _ I) as (a & -> & K). exists a. split; [reflexivity|]. now apply term_sequence. }
    destruct (has_tag $"xsd:choice" p) eqn:T4.
    { apply streqb_eq in T4. apply in_flat_map in I as (q & Q & I). destruct (SP _ _ _ I) as (a & -> & K). exists a. split; [reflexivity|].
      now apply (term_choice F T p q). }
    destruct (has_tag $"xsd:all" p) eqn:T5; [|destruct I].
    apply streqb_eq in T5. destruct (existsb nullb _) eqn:E; [|destruct I]. destruct I as [<-|[]]. apply nullb_ok in E.
    destruct (alls_ok _ _ SP _ E) as (a & P & K). exists ks. split; [now rewrite app_nil_r|]. now apply (term_all F T p ks a).
Qed.
Lemma checks_valid n e : checks n e = true -> valid F T e.
Proof.
  unfold checks. destruct (component T _ (xtag e)) as [d|] eqn:C; [|discriminate]. intros H. exists d. split; [exact C|]. now apply (check_sound n).
Qed.
End Check.
