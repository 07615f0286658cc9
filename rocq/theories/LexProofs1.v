(** Lemmas of C48, part 1: what the simple types say about the characters of a value. *)
From Verif Require Import PyStrProofs SchemaProofs1 SchemaProofs2 SchemaProofs3 RecordProofs1.
From Verif Require Import XsdPattern XsdFiles IdSpec IdProofs3 IdProofs4 IdProofs5 ValueSpec ValueProofs1 ValueProofs14 LexSpec.
Local Open Scope nat_scope.

(** * The characters of a pattern *)
Fixpoint chars (p : pat) (c : ascii) : bool :=
  match p with
  | PSet neg rs => xorb neg (in_ranges rs c)
  | PEps => false
  | PSeq a b | PAlt a b => if chars a c then true else chars b c
  | PRep a _ _ => chars a c
  end.
Fixpoint nullable (p : pat) : bool :=
  match p with
  | PSet _ _ => false
  | PEps => true
  | PSeq a b => nullable a && nullable b
  | PAlt a b => nullable a || nullable b
  | PRep a mn _ => nullable a || Nat.eqb mn 0
  end.
Fixpoint first (p : pat) (c : ascii) : bool :=
  match p with
  | PSet neg rs => xorb neg (in_ranges rs c)
  | PEps => false
  | PSeq a b => if first a c then true else (if nullable a then first b c else false)
  | PAlt a b => if first a c then true else first b c
  | PRep a _ _ => first a c
  end.
Lemma forallb_imp {X} (f g : X -> bool) l : (forall x, f x = true -> g x = true) -> forallb f l = true -> forallb g l = true.
Proof. rewrite !forallb_forall. auto. Qed.
Lemma lang_chars p : forall s, lang p s -> forallb (chars p) s = true.
Proof.
  induction p as [neg rs| |a IHa b IHb|a IHa b IHb|a IHa mn mx]; intros s H; cbn [lang chars] in *.
  - destruct H as (c & -> & H). cbn [forallb]. now rewrite H.
  - now subst.
  - destruct H as (x & y & -> & Hx & Hy). rewrite forallb_app. apply andb_true_intro. split.
    + apply (forallb_imp (chars a)); [intros c ->; reflexivity|now apply IHa].
    + apply (forallb_imp (chars b)); [intros c ->; now destruct (chars a c)|now apply IHb].
  - destruct H as [H|H]; [apply (forallb_imp (chars a)); [intros c ->; reflexivity|now apply IHa]|].
    apply (forallb_imp (chars b)); [intros c ->; now destruct (chars a c)|now apply IHb].
  - destruct H as (l & -> & H & _). assert (forallb (chars a) (concat l) = true) as K; [|exact K].
    induction H as [|x l Hx _ IH]; [reflexivity|]. cbn [concat]. rewrite forallb_app, IH, (IHa x Hx). reflexivity.
Qed.
Lemma lang_nullable p : lang p [] -> nullable p = true.
Proof.
  induction p as [neg rs| |a IHa b IHb|a IHa b IHb|a IHa mn mx]; intro H; cbn [lang nullable] in *.
  - destruct H as (c & H & _). discriminate H.
  - reflexivity.
  - destruct H as (x & y & E & Hx & Hy). symmetry in E. apply app_eq_nil in E as [-> ->]. now rewrite IHa, IHb.
  - destruct H as [H|H]; [now rewrite IHa|]. rewrite IHb by exact H. apply orb_true_r.
  - destruct H as (l & E & H & M & _). destruct l as [|x l]; [cbn [length] in M; replace mn with 0 by lia; apply orb_true_r|].
    cbn [concat] in E. symmetry in E. apply app_eq_nil in E as [-> _]. inversion_clear H. now rewrite IHa.
Qed.
Lemma lang_first p : forall c s, lang p (c :: s) -> first p c = true.
Proof.
  induction p as [neg rs| |a IHa b IHb|a IHa b IHb|a IHa mn mx]; intros c s H; cbn [lang first] in *.
  - destruct H as (c' & E & H). injection E as -> _. exact H.
  - discriminate H.
  - destruct H as (x & y & E & Hx & Hy). destruct x as [|c' x].
    + cbn [app] in E. subst y. rewrite (lang_nullable a Hx), (IHb c s Hy). now destruct (first a c).
    + injection E as -> ->. now rewrite (IHa c' x Hx).
  - destruct H as [H|H]; [now rewrite (IHa c s H)|]. rewrite (IHb c s H). now destruct (first a c).
  - destruct H as (l & E & H & _). revert E. induction H as [|x l Hx _ IH]; intro E; [discriminate E|]. cbn [concat] in E.
    destruct x as [|c' x]; [now apply IH|]. injection E as -> ->. exact (IHa c' x Hx).
Qed.

(** * All ways to derive a simple type *)
Fixpoint derivs (T : xml) (n : nat) (t : str) : option (list derivation) :=
  match n with
  | O => None
  | S n' =>
      let add := fix add (l : list xml) : option (list derivation) :=
        match l with
        | [] => Some []
        | c :: l' =>
            match (if has_tag $"xsd:restriction" c then
                     match derivs T n' (attr_text $"base" c) with Some ds => Some (map (fun d => (fst d, facets_of c :: snd d)) ds) | None => None end
                   else if has_tag $"xsd:union" c then
                     (fix members (ms : list str) : option (list derivation) :=
                        match ms with [] => Some [] | m :: ms' => match derivs T n' m, members ms' with Some a, Some b => Some (a ++ b) | _, _ => None end end)
                       (split_ws (attr_text $"memberTypes" c))
                   else Some []), add l' with
            | Some a, Some b => Some (a ++ b) | _, _ => None end
        end in
      match component T $"xsd:simpleType" t with
      | Some st => if builtin t then None else add (xkids st)
      | None => Some (if builtin t then [(t, [])] else [])
      end
  end.
Lemma derivs_complete F T n : forall t ds, derivs T n t = Some ds ->
  (forall d, derives T t d -> In d ds) /\ (forall s, simple F T t s -> exists d, In d ds /\ F d s).
Proof.
  induction n as [|n IH]; intros t ds H; [discriminate H|]. cbn [derivs] in H.
  set (members := fix members (ms : list str) : option (list derivation) :=
                        match ms with [] => Some [] | m :: ms' => match derivs T n m, members ms' with Some a, Some b => Some (a ++ b) | _, _ => None end end) in H.
  set (one := fun c : xml => if has_tag $"xsd:restriction" c then
                     match derivs T n (attr_text $"base" c) with Some ds => Some (map (fun d => (fst d, facets_of c :: snd d)) ds) | None => None end
                   else if has_tag $"xsd:union" c then members (split_ws (attr_text $"memberTypes" c)) else Some []).
  set (add := fix add (l : list xml) : option (list derivation) :=
        match l with [] => Some [] | c :: l' => match one c, add l' with Some a, Some b => Some (a ++ b) | _, _ => None end end).
  assert (match component T $"xsd:simpleType" t with Some st => if builtin t then None else add (xkids st) | None => Some (if builtin t then [(t, [])] else []) end = Some ds) as H' by exact H.
  clear H. 
  assert (forall l ds, add l = Some ds -> forall c, In c l -> exists dc, one c = Some dc /\ incl dc ds) as A.
  { clear H'. induction l as [|c l IHl]; intros ds0 E c0 I; [destruct I|]. cbn [add] in E. destruct (one c) as [a|] eqn:O; [|discriminate E]. fold add in E. destruct (add l) as [b|] eqn:Ad; [|discriminate E].
    injection E as <-. destruct I as [<-|I]; [exists a; split; [exact O|intros x J; apply in_or_app; now left]|].
    destruct (IHl b eq_refl c0 I) as (dc & E & J). exists dc. split; [exact E|]. intros x K. apply in_or_app. right. now apply J. }
  assert (forall ms ds, members ms = Some ds -> forall m, In m ms -> exists dm, derivs T n m = Some dm /\ incl dm ds) as M.
  { clear H'. induction ms as [|m ms IHm]; intros ds0 E m0 I; [destruct I|]. cbn [members] in E. fold members in E. destruct (derivs T n m) as [a|] eqn:O; [|discriminate E]. destruct (members ms) as [b|] eqn:Ad; [|discriminate E].
    injection E as <-. destruct I as [<-|I]; [exists a; split; [exact O|intros x J; apply in_or_app; now left]|].
    destruct (IHm b eq_refl m0 I) as (dc & E & J). exists dc. split; [exact E|]. intros x K. apply in_or_app. right. now apply J. }
  assert (forall d, derives T t d -> In d ds) as D.
  { intros d Hd. apply derives_inv in Hd as [(B & ->)|(st & r & b & d' & Co & I & R & Hd & ->)].
    - rewrite B in H'. destruct (component T _ t); [discriminate H'|]. injection H' as <-. now left.
    - rewrite Co in H'. destruct (builtin t); [discriminate H'|]. destruct (A _ _ H' r I) as (dc & E & J). apply J. unfold one in E. rewrite (proj2 (streqb_eq _ _) R : has_tag $"xsd:restriction" r = true) in E.
      destruct (derivs T n (attr_text $"base" r)) as [db|] eqn:Db; [|discriminate E]. injection E as <-. apply in_map_iff. exists (b, d'). split; [reflexivity|]. now apply (IH _ _ Db). }
  split; [exact D|]. intros s Hs. apply simple_inv in Hs as [(d & Hd & HF)|(st & u & m & Co & I & U & J & Hs)]; [exists d; split; [now apply D|exact HF]|].
  rewrite Co in H'. destruct (builtin t); [discriminate H'|]. destruct (A _ _ H' u I) as (dc & E & K). unfold one in E.
  unfold has_tag in E. rewrite U in E. change (streqb $"xsd:union" $"xsd:restriction") with false in E. change (streqb $"xsd:union" $"xsd:union") with true in E. cbv iota in E.
  destruct (M _ _ E m J) as (dm & Em & L). destruct (proj2 (IH _ _ Em) s Hs) as (d & Id & HF). exists d. split; [apply K, L, Id|exact HF].
Qed.

(** * Tests on derivations from xsd:string *)
Section Tests.
Variable F : derivation -> str -> Prop.
Variable RT : reads_texts F.
Definition all_chars : list ascii := map (fun n => ascii_of_nat n) (seq 0 256).
Lemma every_char (f : ascii -> bool) : forallb f all_chars = true -> forall c, f c = true.
Proof.
  intros H c. rewrite forallb_forall in H. apply H. apply in_map_iff. exists (nat_of_ascii c). split; [apply ascii_nat_embedding|]. apply in_seq. pose proof (nat_ascii_bounded c). lia.
Qed.
Definition pats (fs : facets) : list str := map snd (filter (fun f => streqb (fst f) $"xsd:pattern") fs).
Definition enums (fs : facets) : list str := map snd (filter (fun f => streqb (fst f) $"xsd:enumeration") fs).
Lemma pats_in fs p : In p (pats fs) <-> In ($"xsd:pattern", p) fs.
Proof.
  unfold pats. rewrite in_map_iff. split.
  - intros ([k q] & E & I). apply filter_In in I as [I K]. apply streqb_eq in K. cbn [fst snd] in *. now subst.
  - intro I. exists ($"xsd:pattern", p). split; [reflexivity|]. apply filter_In. split; [exact I|now apply streqb_eq].
Qed.
Lemma enums_in fs p : In p (enums fs) <-> In ($"xsd:enumeration", p) fs.
Proof.
  unfold enums. rewrite in_map_iff. split.
  - intros ([k q] & E & I). apply filter_In in I as [I K]. apply streqb_eq in K. cbn [fst snd] in *. now subst.
  - intro I. exists ($"xsd:enumeration", p). split; [reflexivity|]. apply filter_In. split; [exact I|now apply streqb_eq].
Qed.
(** one step restricts by patterns with the property P or values with the property V *)
Definition restricts (P : pat -> bool) (V : str -> bool) (fs : facets) : bool :=
  (match pats fs with [] => false | ps => forallb (fun p => match pattern p with Some a => P a | None => true end) ps end) ||
  (match enums fs with [] => false | vs => forallb V vs end).
Lemma restricts_ok P V fs s : restricts P V fs = true -> step_allows s fs -> (exists a, P a = true /\ lang a s) \/ V s = true.
Proof.
  intros H (A & B & _). apply orb_prop in H as [H|H].
  - left. destruct (pats fs) as [|p ps] eqn:E; [discriminate H|]. rewrite <- E in H. destruct A as (q & I & a & Pa & L).
    + exists p. apply pats_in. rewrite E. now left.
    + exists a. split; [|exact L]. apply pats_in in I. rewrite forallb_forall in H. specialize (H q I). now rewrite Pa in H.
  - right. destruct (enums fs) as [|p ps] eqn:E; [discriminate H|]. rewrite <- E in H. rewrite forallb_forall in H. apply H. apply enums_in. apply B. exists p. apply enums_in. rewrite E. now left.
Qed.
Definition bounded (ok : ascii -> bool) (steps : list facets) : bool :=
  existsb (restricts (fun a => forallb (fun c => if chars a c then ok c else true) all_chars) (forallb ok)) steps.
Lemma bounded_ok ok steps s : bounded ok steps = true -> F ($"xsd:string", steps) s -> forallb ok s = true.
Proof.
  intros H V. apply RT in V. apply existsb_exists in H as (fs & I & H). rewrite Forall_forall in V. destruct (restricts_ok _ _ fs s H (V fs I)) as [(a & P & L)|P]; [|exact P].
  apply lang_chars in L. revert L. apply forallb_imp. intros c C. pose proof (every_char _ P c) as Q. cbv beta in Q. now rewrite C in Q.
Qed.
(** not empty, and beginning with good characters *)
Definition begins (ok : ascii -> bool) (steps : list facets) : bool :=
  existsb (restricts (fun a => negb (nullable a) && forallb (fun c => if first a c then ok c else true) all_chars) (fun v => match v with c :: _ => ok c | [] => false end)) steps.
Lemma begins_ok ok steps s : begins ok steps = true -> F ($"xsd:string", steps) s -> exists c r, s = c :: r /\ ok c = true.
Proof.
  intros H V. apply RT in V. apply existsb_exists in H as (fs & I & H). rewrite Forall_forall in V. destruct (restricts_ok _ _ fs s H (V fs I)) as [(a & P & L)|P].
  - apply andb_prop in P as [P1 P2]. destruct s as [|c r]; [rewrite (lang_nullable a L) in P1; discriminate P1|]. exists c, r. split; [reflexivity|].
    apply lang_first in L. pose proof (every_char _ P2 c) as Q. cbv beta in Q. now rewrite L in Q.
  - destruct s as [|c r]; [discriminate P|]. now exists c, r.
Qed.
(** a step with the pattern of StringType *)
Definition stringy (steps : list facets) : bool := existsb (fun fs => match pats fs with [p] => streqb p string_pattern | _ => false end) steps.
Lemma stringy_ok steps s : stringy steps = true -> F ($"xsd:string", steps) s -> existsb solid_char s = true.
Proof.
  intros H V. apply RT in V. apply existsb_exists in H as (fs & I & H). rewrite Forall_forall in V. destruct (V fs I) as (A & _). destruct (pats fs) as [|p [|]] eqn:E; try discriminate H. apply streqb_eq in H. subst p.
  destruct A as (q & J & M); [exists string_pattern; apply pats_in; rewrite E; now left|]. apply pats_in in J. rewrite E in J. destruct J as [<-|[]]. now apply string_lang in M.
Qed.
End Tests.
