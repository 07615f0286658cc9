From Verif Require Import SchemaSpec PyStrProofs XmlProofs TablesProofs SchemaProofs1.
From Verif Require Import Schema XsdSpec SchemaSpec.
Local Open Scope nat_scope.

(** * Which elements may occur: a closed set of (tag, type) *)
Definition tmem (tag type : str) (N : list (str * str)) : bool :=
  existsb (fun x => streqb tag (fst x) && streqb type (snd x)) N.
Lemma tmem_in tag type N : tmem tag type N = true -> In tag (map fst N).
Proof.
  unfold tmem. rewrite existsb_exists. intros ((a & b) & I & E). apply andb_true_iff in E as [E _]. cbn [fst snd] in *. apply streqb_eq in E. subst a.
  apply in_map_iff. now exists (tag, b).
Qed.
Section Closed.
Variable S : xml.
Variable N : list (str * str).
Variable G : list str.
Fixpoint covers (p : xml) : bool :=
  let kids := match p with Elem _ _ _ ks => forallb covers ks end in
  if has_tag $"xsd:element" p then
    match attr $"ref" p with
    | Some r => match component S $"xsd:element" r with Some d => tmem r (attr_text $"type" d) N | None => true end
    | None => match attr $"name" p, attr $"type" p with Some n, Some t => tmem n t N | _, _ => true end
    end
  else if has_tag $"xsd:group" p then match attr $"ref" p with Some r => smem r G | None => true end
  else if has_tag $"xsd:any" p then false
  else kids.
Definition closed : bool :=
  forallb (fun x => match component S $"xsd:complexType" (snd x) with
                    | Some c => forallb covers (filter is_particle (xkids c)) | None => true end) N &&
  forallb (fun g => match component S $"xsd:group" g with Some c => forallb covers (xkids c) | None => true end) G.
Hypothesis C : closed = true.

Definition inside (e : xml) : Prop := forall d, In d (descendants e) -> In (xtag d) (map fst N).
Definition inside_all (ks : list xml) : Prop := forall k, In k ks -> In (xtag k) (map fst N) /\ inside k.
Lemma inside_app a b : inside_all a -> inside_all b -> inside_all (a ++ b).
Proof. intros H1 H2 k I. apply in_app_iff in I as [I|I]; auto. Qed.
Lemma covers_kids p : covers p = true -> xtag p <> $"xsd:element" -> xtag p <> $"xsd:group" -> forallb covers (xkids p) = true.
Proof.
  destruct p as [t a s ks]. cbn [covers]. unfold has_tag. cbn [xtag xkids]. intros H N1 N2.
  destruct (streqb t $"xsd:element") eqn:E1; [apply streqb_eq in E1; contradiction|].
  destruct (streqb t $"xsd:group") eqn:E2; [apply streqb_eq in E2; contradiction|].
  destruct (streqb t $"xsd:any"); [discriminate H|exact H].
Qed.
Lemma inside_kids e : inside_all (xkids e) -> inside e.
Proof.
  destruct e as [t a s ks]. cbn [xkids]. intros H d I. cbn [descendants] in I. apply in_flat_map in I as (k & I & [<-|J]).
  - now apply H.
  - now apply (H k).
Qed.

Variable F : derivation -> str -> Prop.
Lemma closed_content :
  (forall t e, valid_type F S t e -> forall n, tmem n t N = true -> inside e) /\
  (forall p ks, particle F S p ks -> covers p = true -> inside_all ks) /\
  (forall p n ks, times F S p n ks -> covers p = true -> inside_all ks) /\
  (forall ps ks, sequence F S ps ks -> forallb covers ps = true -> inside_all ks) /\
  (forall p ks, term F S p ks -> covers p = true -> inside_all ks) /\
  (forall ks, laxly F S ks -> True).
Proof.
  apply content_ind.
  - intros t e _ K _ n _. apply inside_kids. rewrite K. intros k [].
  - intros t ct e Co _ _ _ IH n T. apply inside_kids, IH. unfold closed in C. apply andb_true_iff in C as [C1 _].
    rewrite forallb_forall in C1. unfold tmem in T. apply existsb_exists in T as ((a & b) & I & E). apply andb_true_iff in E as [_ E].
    cbn [snd] in E. apply streqb_eq in E. subst b. specialize (C1 _ I). cbn [snd] in C1. now rewrite Co in C1.
  - intros p n ks _ IH _ H. now apply IH.
  - intros p _ k [].
  - intros p n a b _ IH1 _ IH2 H. apply inside_app; [now apply IH1|now apply IH2].
  - intros _ k [].
  - intros p ps a b _ IH1 _ IH2 H. cbn [forallb] in H. apply andb_true_iff in H as [H1 H2]. apply inside_app; [now apply IH1|now apply IH2].
  - intros p r d e T A Co Te _ IH H k [<-|[]]. destruct p as [t a s ks]. cbn [covers] in H. unfold has_tag in H. cbn [xtag] in *. subst t.
    change (streqb $"xsd:element" $"xsd:element") with true in H. cbv iota in H. rewrite A, Co in H. rewrite Te. split; [now apply tmem_in in H|now apply (IH r)].
  - intros p n t' e T A A1 A2 Te _ IH H k [<-|[]]. destruct p as [t a s ks]. cbn [covers] in H. unfold has_tag in H. cbn [xtag] in *. subst t.
    change (streqb $"xsd:element" $"xsd:element") with true in H. cbv iota in H. rewrite A, A1, A2 in H. rewrite Te. split; [now apply tmem_in in H|now apply (IH n)].
  - intros p r g ks T A Co _ IH H. apply IH. destruct p as [t a s ks']. cbn [covers] in H. unfold has_tag in H. cbn [xtag] in *. subst t.
    change (streqb $"xsd:group" $"xsd:element") with false in H. change (streqb $"xsd:group" $"xsd:group") with true in H. cbv iota in H. rewrite A in H.
    unfold closed in C. apply andb_true_iff in C as [_ C2]. rewrite forallb_forall in C2. unfold smem in H. apply existsb_exists in H as (r' & I & E).
    apply streqb_eq in E. subst r'. specialize (C2 _ I). now rewrite Co in C2.
  - intros p ks T _ IH H. apply IH, covers_kids; [exact H|rewrite T; discriminate..].
  - intros p q ks T I _ IH H. apply IH. apply covers_kids in H; [|rewrite T; discriminate..]. rewrite forallb_forall in H. now apply H.
  - intros p ks ks' T P _ IH H k I. apply IH; [|now apply (Permutation_in k P)]. apply covers_kids; [exact H|rewrite T; discriminate..].
  - intros p e T _ _ H. exfalso. destruct p as [t a s ks']. cbn [covers] in H. unfold has_tag in H. cbn [xtag] in *. subst t. discriminate H.
  - exact I.
  - intros. exact I.
  - intros. exact I.
Qed.
Lemma closed_valid e d t : valid F S e -> component S $"xsd:element" (xtag e) = Some d -> attr_text $"type" d = t -> tmem (xtag e) t N = true -> inside e.
Proof. intros (d' & C' & V) K <- T. rewrite K in C'. injection C' as <-. now apply (proj1 closed_content _ _ V (xtag e)). Qed.
End Closed.

(** * Elements declared at the top are valid wherever they occur *)
Section Deep.
Variable S : xml.
Fixpoint fine (p : xml) : bool :=
  match p with Elem _ _ _ ks =>
    (if has_tag $"xsd:element" p
     then match attr $"ref" p, attr $"name" p with
          | None, Some n => match component S $"xsd:element" n with Some _ => false | None => true end
          | _, _ => true end
     else true) && forallb fine ks end.
Definition no_clash : bool :=
  forallb (fun c => if has_tag $"xsd:complexType" c || has_tag $"xsd:group" c then forallb fine (xkids c) else true) (xkids S).
Hypothesis C : no_clash = true.
Variable F : derivation -> str -> Prop.

Definition right (d : xml) : Prop := forall c, component S $"xsd:element" (xtag d) = Some c -> valid_type F S (attr_text $"type" c) d.
Definition all_right (e : xml) : Prop := forall d, In d (descendants e) -> right d.
Definition list_right (ks : list xml) : Prop := forall k, In k ks -> right k /\ all_right k.
Lemma list_right_app a b : list_right a -> list_right b -> list_right (a ++ b).
Proof. intros H1 H2 k I. apply in_app_iff in I as [I|I]; auto. Qed.
Lemma all_right_kids e : list_right (xkids e) -> all_right e.
Proof.
  destruct e as [t a s ks]. cbn [xkids]. intros H d I. cbn [descendants] in I. apply in_flat_map in I as (k & I & [<-|J]).
  - now apply H.
  - now apply (H k).
Qed.
Lemma fine_kids p : fine p = true -> forallb fine (xkids p) = true.
Proof. destruct p. cbn [fine xkids]. intros H. now apply andb_true_iff in H. Qed.
Lemma fine_of k n c : component S k n = Some c -> k = $"xsd:complexType" \/ k = $"xsd:group" -> forallb fine (xkids c) = true.
Proof.
  intros K D. pose proof (component_tag _ _ _ _ K) as T. unfold component in K. apply find_some in K as [I _]. unfold no_clash in C.
  rewrite forallb_forall in C. specialize (C _ I). unfold has_tag in C. rewrite T in C. destruct D as [-> | ->]; exact C.
Qed.
Lemma deep_content :
  (forall t e, valid_type F S t e -> all_right e) /\
  (forall p ks, particle F S p ks -> fine p = true -> list_right ks) /\
  (forall p n ks, times F S p n ks -> fine p = true -> list_right ks) /\
  (forall ps ks, sequence F S ps ks -> forallb fine ps = true -> list_right ks) /\
  (forall p ks, term F S p ks -> fine p = true -> list_right ks) /\
  (forall ks, laxly F S ks -> list_right ks).
Proof.
  apply (content_ind F S (fun t e => all_right e)).
  - intros t e _ K _. apply all_right_kids. rewrite K. intros k [].
  - intros t ct e Co _ _ _ IH. apply all_right_kids, IH. assert (H : forallb fine (xkids ct) = true) by (apply (fine_of _ _ _ Co); now left).
    rewrite forallb_forall in *. intros x I. apply filter_In in I as [I _]. now apply H.
  - intros p n ks _ IH _ H. now apply IH.
  - intros p _ k [].
  - intros p n a b _ IH1 _ IH2 H. apply list_right_app; [now apply IH1|now apply IH2].
  - intros _ k [].
  - intros p ps a b _ IH1 _ IH2 H. cbn [forallb] in H. apply andb_true_iff in H as [H1 H2]. apply list_right_app; [now apply IH1|now apply IH2].
  - intros p r d e T A Co Te V IH H k [<-|[]]. split; [|exact IH]. intros c K. rewrite Te in K. rewrite K in Co. injection Co as ->. exact V.
  - intros p n t' e T A A1 A2 Te V IH H k [<-|[]]. split; [|exact IH]. intros c K. exfalso. destruct p as [t a s ks]. cbn [fine] in H.
    unfold has_tag in H. cbn [xtag] in *. subst t. change (streqb $"xsd:element" $"xsd:element") with true in H. cbv iota in H.
    rewrite A, A1 in H. rewrite <- Te, K in H. discriminate H.
  - intros p r g ks T A Co _ IH H. apply IH. apply (fine_of _ _ _ Co). now right.
  - intros p ks T _ IH H. apply IH, fine_kids, H.
  - intros p q ks T I _ IH H. apply IH. apply fine_kids in H. rewrite forallb_forall in H. now apply H.
  - intros p ks ks' T P _ IH H k I. apply IH; [now apply fine_kids|now apply (Permutation_in k P)].
  - intros p e T _ IH H. exact IH.
  - intros k [].
  - intros e d l Co V IH1 _ IH2 k [<-|I]; [|now apply IH2]. split; [|exact IH1]. intros c K. rewrite K in Co. injection Co as ->. exact V.
  - intros e l Co _ IH1 _ IH2 k [<-|I]; [|now apply IH2]. split; [intros c K; rewrite K in Co; discriminate Co|]. now apply all_right_kids.
Qed.
Lemma valid_everywhere e d c : valid F S e -> d = e \/ In d (descendants e) -> component S $"xsd:element" (xtag d) = Some c ->
  valid_type F S (attr_text $"type" c) d.
Proof.
  intros (d' & C' & V) [-> | I] K.
  - rewrite K in C'. now injection C' as <-.
  - exact (proj1 deep_content _ _ V d I c K).
Qed.
End Deep.

(** * Order and presence of the elements of a type *)
Lemma sub_refl l : subsequence l l. Proof. induction l; constructor; assumption. Qed.
Lemma sub_suffix a b l : (exists p, b = p ++ a) -> subsequence l a -> subsequence l b.
Proof. intros (p & ->) H. induction p; [exact H|]. cbn [app]. now constructor. Qed.
Lemma sub_in a b : subsequence a b -> incl a b.
Proof. induction 1; intros y I; [destruct I|destruct I as [->|I]; [now left|right; auto]|right; auto]. Qed.
Fixpoint past (r : str) (A : list str) : option (list str) :=
  match A with [] => None | x :: A' => if streqb r x then Some A' else past r A' end.
Definition shorter (a b : list str) := if Nat.leb (length a) (length b) then a else b.
Fixpoint chain (f : xml -> list str -> option (list str)) (ps : list xml) (A : list str) : option (list str) :=
  match ps with [] => Some A | p :: ps' => match f p A with Some B => chain f ps' B | None => None end end.
Fixpoint branches (f : xml -> list str -> option (list str)) (ps : list xml) (A : list str) : option (list str) :=
  match ps with
  | [] => Some A
  | p :: ps' => match f p A, branches f ps' A with Some B, Some B' => Some (shorter B B') | _, _ => None end
  end.
Section Order.
Variable S : xml.
Fixpoint after (n : nat) (p : xml) (A : list str) : option (list str) :=
  match n with
  | O => None
  | Datatypes.S n' =>
      if attr_is $"maxOccurs" $"unbounded" p then None
      else if has_tag $"xsd:element" p then match attr $"ref" p with Some r => past r A | None => None end
      else if has_tag $"xsd:group" p then
        match attr $"ref" p with
        | Some r => match component S $"xsd:group" r with Some g => chain (after n') (xkids g) A | None => None end
        | None => None end
      else if has_tag $"xsd:sequence" p then chain (after n') (xkids p) A
      else if has_tag $"xsd:choice" p then branches (after n') (xkids p) A
      else None
  end.
Definition suffix (B A : list str) := exists p, A = p ++ B.
Lemma suffix_refl A : suffix A A. Proof. now exists []. Qed.
Lemma suffix_trans A B C : suffix C B -> suffix B A -> suffix C A.
Proof. intros (p & ->) (q & ->). exists (q ++ p). now rewrite app_assoc. Qed.
Lemma past_suffix r A B : past r A = Some B -> suffix (r :: B) A.
Proof.
  induction A as [|x A IH]; cbn [past]; [discriminate|]. destruct (streqb r x) eqn:E.
  - intros [= <-]. apply streqb_eq in E. subst x. apply suffix_refl.
  - intros H. destruct (IH H) as (p & ->). now exists (x :: p).
Qed.
Lemma suffix_cons x A B : suffix (x :: B) A -> suffix B A.
Proof. intros (p & ->). exists (p ++ [x]). now rewrite <- app_assoc. Qed.
Lemma suffix_both A B C : suffix B A -> suffix C A -> length B <= length C -> suffix B C.
Proof.
  intros (p & ->) (q & E) L. revert q E. induction p as [|x p IH]; intros q E; cbn [app] in E.
  - destruct q as [|y q]; [cbn in E; subst C; apply suffix_refl|]. exfalso. apply (f_equal (@length _)) in E. cbn [length app] in E.
    rewrite app_length in E. lia.
  - destruct q as [|y q]; [cbn in E; subst C; now exists (x :: p)|]. injection E as _ E. now apply (IH q).
Qed.
Lemma shorter_suffix A B C : suffix B A -> suffix C A -> suffix (shorter B C) B /\ suffix (shorter B C) C /\ suffix (shorter B C) A.
Proof.
  intros H1 H2. unfold shorter. destruct (Nat.leb_spec (length B) (length C)) as [L|L].
  - split; [apply suffix_refl|]. split; [now apply (suffix_both A)|exact H1].
  - split; [apply (suffix_both A); [exact H2|exact H1|lia]|]. split; [apply suffix_refl|exact H2].
Qed.
Lemma chain_suffix f ps : (forall p A B, In p ps -> f p A = Some B -> suffix B A) -> forall A B, chain f ps A = Some B -> suffix B A.
Proof.
  induction ps as [|p ps IH]; intros H A B E; cbn [chain] in E; [injection E as <-; apply suffix_refl|].
  destruct (f p A) as [C|] eqn:E1; [|discriminate E]. apply suffix_trans with C.
  - apply IH; [|exact E]. intros q A' B' I. apply H. now right.
  - apply (H p); [now left|exact E1].
Qed.
Lemma branches_suffix f ps A B : (forall p A B, In p ps -> f p A = Some B -> suffix B A) -> branches f ps A = Some B ->
  suffix B A /\ forall p, In p ps -> exists C, f p A = Some C /\ suffix B C.
Proof.
  revert B. induction ps as [|p ps IH]; intros B H E; cbn [branches] in E.
  - injection E as <-. split; [apply suffix_refl|]. intros q [].
  - destruct (f p A) as [C|] eqn:E1; [|discriminate E]. destruct (branches f ps A) as [C'|] eqn:E2; [|discriminate E]. injection E as <-.
    destruct (IH C') as (H1 & H2); [intros q A' B' I; apply H; now right|reflexivity|].
    destruct (shorter_suffix A C C') as (K1 & K2 & K3); [apply (H p); [now left|exact E1]|exact H1|].
    split; [exact K3|]. intros q [<-|I].
    + exists C. now split.
    + destruct (H2 q I) as (D & E' & K). exists D. split; [exact E'|]. now apply suffix_trans with C'.
Qed.
Lemma after_suffix n : forall p A B, after n p A = Some B -> suffix B A.
Proof.
  induction n as [|n IH]; intros p A B E; cbn [after] in E; [discriminate E|].
  destruct (attr_is _ _ p); [discriminate E|]. destruct (has_tag $"xsd:element" p).
  { destruct (attr $"ref" p); [|discriminate E]. now apply past_suffix, suffix_cons in E. }
  destruct (has_tag $"xsd:group" p).
  { destruct (attr $"ref" p); [|discriminate E]. destruct (component S _ _); [|discriminate E]. apply chain_suffix in E; [exact E|]. intros q A' B' _. apply IH. }
  destruct (has_tag $"xsd:sequence" p).
  { apply chain_suffix in E; [exact E|]. intros q A' B' _. apply IH. }
  destruct (has_tag $"xsd:choice" p); [|discriminate E]. apply branches_suffix in E; [now destruct E|]. intros q A' B' _. apply IH.
Qed.

Variable F : derivation -> str -> Prop.
Definition leads (ks : list xml) (A B : list str) : Prop := forall l, subsequence l B -> subsequence (map xtag ks ++ l) A.
Lemma leads_nil A B : suffix B A -> leads [] A B. Proof. intros H l K. cbn [map app]. now apply (sub_suffix B). Qed.
Lemma leads_app a b A B C : leads a A B -> leads b B C -> leads (a ++ b) A C.
Proof. intros H1 H2 l K. rewrite map_app, <- app_assoc. now apply H1, H2. Qed.
Lemma order_content :
  (forall t e, valid_type F S t e -> True) /\
  (forall p ks, particle F S p ks -> forall n A B, after n p A = Some B -> leads ks A B) /\
  (forall p m ks, times F S p m ks -> m <= 1 -> forall n A B, after n p A = Some B -> leads ks A B) /\
  (forall ps ks, sequence F S ps ks -> forall n A B, chain (after n) ps A = Some B -> leads ks A B) /\
  (forall p ks, term F S p ks -> forall n A B, after n p A = Some B -> leads ks A B) /\
  (forall ks, laxly F S ks -> True).
Proof.
  apply content_ind.
  - intros. exact I.
  - intros. exact I.
  - intros p m ks _ IH (_ & O) n A B E. apply (IH) with n; [|exact E]. destruct O as [O|O]; [|exact O]. destruct n; cbn [after] in E; [discriminate E|].
    rewrite O in E. discriminate E.
  - intros p _ n A B E. apply leads_nil. now apply (after_suffix n p).
  - intros p m a b _ IH1 Ht _ L n A B E. assert (m = 0) as -> by lia. inversion Ht; subst. rewrite app_nil_r. now apply IH1 with n.
  - intros n A B E. cbn [chain] in E. injection E as <-. apply leads_nil, suffix_refl.
  - intros p ps a b _ IH1 _ IH2 n A B E. cbn [chain] in E. destruct (after n p A) as [C|] eqn:E1; [|discriminate E].
    apply leads_app with C; [now apply IH1 with n|now apply IH2 with n].
  - intros p r d e T A' Co Te _ _ n A B E. destruct n; cbn [after] in E; [discriminate E|]. destruct (attr_is _ _ p); [discriminate E|].
    unfold has_tag in E. rewrite T in E. change (streqb $"xsd:element" $"xsd:element") with true in E. cbv iota in E. rewrite A' in E.
    apply past_suffix in E. intros l K. cbn [map app]. rewrite Te. apply (sub_suffix (r :: B)); [exact E|now constructor].
  - intros p n' t' e T A' A1 A2 Te _ _ n A B E. destruct n; cbn [after] in E; [discriminate E|]. destruct (attr_is _ _ p); [discriminate E|].
    unfold has_tag in E. rewrite T in E. change (streqb $"xsd:element" $"xsd:element") with true in E. cbv iota in E. rewrite A' in E. discriminate E.
  - intros p r g ks T A' Co _ IH n A B E. destruct n; cbn [after] in E; [discriminate E|]. destruct (attr_is _ _ p); [discriminate E|].
    unfold has_tag in E. rewrite T in E. change (streqb $"xsd:group" $"xsd:element") with false in E. change (streqb $"xsd:group" $"xsd:group") with true in E.
    cbv iota in E. rewrite A', Co in E. now apply IH with n.
  - intros p ks T _ IH n A B E. destruct n; cbn [after] in E; [discriminate E|]. destruct (attr_is _ _ p); [discriminate E|].
    unfold has_tag in E. rewrite T in E. change (streqb $"xsd:sequence" $"xsd:element") with false in E. change (streqb $"xsd:sequence" $"xsd:group") with false in E.
    change (streqb $"xsd:sequence" $"xsd:sequence") with true in E. cbv iota in E. now apply IH with n.
  - intros p q ks T I _ IH n A B E. destruct n; cbn [after] in E; [discriminate E|]. destruct (attr_is _ _ p); [discriminate E|].
    unfold has_tag in E. rewrite T in E. change (streqb $"xsd:choice" $"xsd:element") with false in E. change (streqb $"xsd:choice" $"xsd:group") with false in E.
    change (streqb $"xsd:choice" $"xsd:sequence") with false in E. change (streqb $"xsd:choice" $"xsd:choice") with true in E. cbv iota in E.
    apply branches_suffix in E; [|intros q' A1 B1 _; apply after_suffix]. destruct E as (_ & E). destruct (E q I) as (C & E1 & K).
    intros l L. apply (IH n A C E1). now apply (sub_suffix B).
  - intros p ks ks' T P _ _ n A B E. destruct n; cbn [after] in E; [discriminate E|]. destruct (attr_is _ _ p); [discriminate E|].
    unfold has_tag in E. rewrite T in E. discriminate E.
  - intros p e T _ _ n A B E. destruct n; cbn [after] in E; [discriminate E|]. destruct (attr_is _ _ p); [discriminate E|].
    unfold has_tag in E. rewrite T in E. discriminate E.
  - exact I.
  - intros. exact I.
  - intros. exact I.
Qed.

Fixpoint must (n : nat) (tag : str) (p : xml) : bool :=
  match n with
  | O => false
  | Datatypes.S n' =>
      if attr_is $"minOccurs" $"0" p then false
      else if has_tag $"xsd:element" p then
        match attr $"ref" p with Some r => streqb r tag | None => match attr $"name" p with Some m => streqb m tag | None => false end end
      else if has_tag $"xsd:group" p then
        match attr $"ref" p with
        | Some r => match component S $"xsd:group" r with Some g => existsb (must n' tag) (xkids g) | None => false end
        | None => false end
      else if has_tag $"xsd:sequence" p || has_tag $"xsd:all" p then existsb (must n' tag) (xkids p)
      else if has_tag $"xsd:choice" p then forallb (must n' tag) (xkids p)
      else false
  end.
Definition there (tag : str) (ks : list xml) : Prop := In tag (map xtag ks).
Lemma there_app tag a b : there tag a \/ there tag b -> there tag (a ++ b).
Proof. unfold there. rewrite map_app, in_app_iff. tauto. Qed.
Lemma must_content tag :
  (forall t e, valid_type F S t e -> True) /\
  (forall p ks, particle F S p ks -> forall n, must n tag p = true -> there tag ks) /\
  (forall p m ks, times F S p m ks -> 1 <= m -> forall n, must n tag p = true -> there tag ks) /\
  (forall ps ks, sequence F S ps ks -> forall n, existsb (must n tag) ps = true -> there tag ks) /\
  (forall p ks, term F S p ks -> forall n, must n tag p = true -> there tag ks) /\
  (forall ks, laxly F S ks -> True).
Proof.
  apply content_ind.
  - intros. exact I.
  - intros. exact I.
  - intros p m ks _ IH (O & _) n E. apply IH with n; [|exact E]. destruct O as [O|O]; [|exact O]. destruct n; cbn [must] in E; [discriminate E|].
    rewrite O in E. discriminate E.
  - intros p L. lia.
  - intros p m a b _ IH1 _ _ _ n E. apply there_app. left. now apply IH1 with n.
  - intros n E. discriminate E.
  - intros p ps a b _ IH1 _ IH2 n E. cbn [existsb] in E. apply there_app. apply orb_true_iff in E as [E|E]; [left; now apply IH1 with n|right; now apply IH2 with n].
  - intros p r d e T A' Co Te _ _ n E. destruct n; cbn [must] in E; [discriminate E|]. destruct (attr_is _ _ p); [discriminate E|].
    unfold has_tag in E. rewrite T in E. change (streqb $"xsd:element" $"xsd:element") with true in E. cbv iota in E. rewrite A' in E.
    apply streqb_eq in E. left. now rewrite Te.
  - intros p n' t' e T A' A1 A2 Te _ _ n E. destruct n; cbn [must] in E; [discriminate E|]. destruct (attr_is _ _ p); [discriminate E|].
    unfold has_tag in E. rewrite T in E. change (streqb $"xsd:element" $"xsd:element") with true in E. cbv iota in E. rewrite A', A1 in E.
    apply streqb_eq in E. left. now rewrite Te.
  - intros p r g ks T A' Co _ IH n E. destruct n; cbn [must] in E; [discriminate E|]. destruct (attr_is _ _ p); [discriminate E|].
    unfold has_tag in E. rewrite T in E. change (streqb $"xsd:group" $"xsd:element") with false in E. change (streqb $"xsd:group" $"xsd:group") with true in E.
    cbv iota in E. rewrite A', Co in E. now apply IH with n.
  - intros p ks T _ IH n E. destruct n; cbn [must] in E; [discriminate E|]. destruct (attr_is _ _ p); [discriminate E|].
    unfold has_tag in E. rewrite T in E. change (streqb $"xsd:sequence" $"xsd:element") with false in E. change (streqb $"xsd:sequence" $"xsd:group") with false in E.
    change (streqb $"xsd:sequence" $"xsd:sequence") with true in E. cbn [orb] in E. cbv iota in E. now apply IH with n.
  - intros p q ks T I _ IH n E. destruct n; cbn [must] in E; [discriminate E|]. destruct (attr_is _ _ p); [discriminate E|].
    unfold has_tag in E. rewrite T in E. change (streqb $"xsd:choice" $"xsd:element") with false in E. change (streqb $"xsd:choice" $"xsd:group") with false in E.
    change (streqb $"xsd:choice" $"xsd:sequence") with false in E. change (streqb $"xsd:choice" $"xsd:all") with false in E.
    change (streqb $"xsd:choice" $"xsd:choice") with true in E. cbn [orb] in E. cbv iota in E. rewrite forallb_forall in E. apply IH with n. now apply E.
  - intros p ks ks' T P _ IH n E. destruct n; cbn [must] in E; [discriminate E|]. destruct (attr_is _ _ p); [discriminate E|].
    unfold has_tag in E. rewrite T in E. change (streqb $"xsd:all" $"xsd:element") with false in E. change (streqb $"xsd:all" $"xsd:group") with false in E.
    change (streqb $"xsd:all" $"xsd:sequence") with false in E. change (streqb $"xsd:all" $"xsd:all") with true in E. cbn [orb] in E. cbv iota in E.
    specialize (IH n E). unfold there in *. apply (Permutation_in tag (Permutation_map xtag (Permutation_sym P))). exact IH.
  - intros p e T _ _ n E. destruct n; cbn [must] in E; [discriminate E|]. destruct (attr_is _ _ p); [discriminate E|].
    unfold has_tag in E. rewrite T in E. discriminate E.
  - exact I.
  - intros. exact I.
  - intros. exact I.
Qed.

(** the check for one complex type *)
Definition row_ok (n : nat) (t : str) (al rq : list str) : bool :=
  match component S $"xsd:complexType" t with
  | Some c => match chain (after n) (filter is_particle (xkids c)) al with Some _ => true | None => false end &&
              forallb (fun r => existsb (must n r) (filter is_particle (xkids c))) rq && negb (builtin t) &&
              match component S $"xsd:simpleType" t with Some _ => false | None => true end
  | None => false end.
Lemma row_valid n t al rq e : row_ok n t al rq = true -> valid_type F S t e -> subsequence (map xtag (xkids e)) al /\ incl rq (map xtag (xkids e)).
Proof.
  unfold row_ok. destruct (component S $"xsd:complexType" t) as [c|] eqn:Co; [|discriminate]. intros H V.
  apply andb_true_iff in H as [H H3]. apply andb_true_iff in H as [H H2]. apply andb_true_iff in H as [H0 H1]. apply negb_true_iff in H2.
  inversion V as [t' e' Hs K A|t' ct e' Co' B A Sq]; subst t' e'.
  - exfalso. destruct Hs as [t d s D HF|t st u m s D].
    + destruct D as [t D|t st r b d D]; [congruence|]. rewrite D in H3. discriminate H3.
    + rewrite D in H3. discriminate H3.
  - rewrite Co in Co'. injection Co' as <-. split.
    + destruct (chain _ _ _) as [B'|] eqn:E; [|discriminate H0].
      destruct order_content as (_ & _ & _ & O & _). specialize (O _ _ Sq n al B' E []). rewrite app_nil_r in O. apply O.
      clear. induction B'; constructor; assumption.
    + intros r I. rewrite forallb_forall in H1. specialize (H1 r I). destruct (must_content r) as (_ & _ & _ & O & _). exact (O _ _ Sq n H1).
Qed.
Fixpoint within (n : nat) (A : list str) (p : xml) : bool :=
  match n with
  | O => false
  | Datatypes.S n' =>
      if has_tag $"xsd:element" p then
        match attr $"ref" p with Some r => smem r A | None => match attr $"name" p with Some m => smem m A | None => true end end
      else if has_tag $"xsd:group" p then
        match attr $"ref" p with
        | Some r => match component S $"xsd:group" r with Some g => forallb (within n' A) (xkids g) | None => true end
        | None => true end
      else if has_tag $"xsd:any" p then false
      else forallb (within n' A) (xkids p)
  end.
Lemma smem_in k l : smem k l = true -> In k l.
Proof. unfold smem. rewrite existsb_exists. intros (x & I & E). apply streqb_eq in E. now subst. Qed.
Lemma within_content A :
  (forall t e, valid_type F S t e -> True) /\
  (forall p ks, particle F S p ks -> forall n, within n A p = true -> incl (map xtag ks) A) /\
  (forall p m ks, times F S p m ks -> forall n, within n A p = true -> incl (map xtag ks) A) /\
  (forall ps ks, sequence F S ps ks -> forall n, forallb (within n A) ps = true -> incl (map xtag ks) A) /\
  (forall p ks, term F S p ks -> forall n, within n A p = true -> incl (map xtag ks) A) /\
  (forall ks, laxly F S ks -> True).
Proof.
  apply content_ind.
  - intros. exact I.
  - intros. exact I.
  - intros p m ks _ IH _ n E. now apply IH with n.
  - intros p n _ x [].
  - intros p m a b _ IH1 _ IH2 n E. rewrite map_app. apply incl_app; [now apply IH1 with n|now apply IH2 with n].
  - intros n _ x [].
  - intros p ps a b _ IH1 _ IH2 n E. cbn [forallb] in E. apply andb_true_iff in E as [E1 E2]. rewrite map_app. apply incl_app; [now apply IH1 with n|now apply IH2 with n].
  - intros p r d e T A' Co Te _ _ n E. destruct n; cbn [within] in E; [discriminate E|].
    unfold has_tag in E. rewrite T in E. change (streqb $"xsd:element" $"xsd:element") with true in E. cbv iota in E. rewrite A' in E.
    intros x [<-|[]]. rewrite Te. now apply smem_in.
  - intros p n' t' e T A' A1 A2 Te _ _ n E. destruct n; cbn [within] in E; [discriminate E|].
    unfold has_tag in E. rewrite T in E. change (streqb $"xsd:element" $"xsd:element") with true in E. cbv iota in E. rewrite A', A1 in E.
    intros x [<-|[]]. rewrite Te. now apply smem_in.
  - intros p r g ks T A' Co _ IH n E. destruct n; cbn [within] in E; [discriminate E|].
    unfold has_tag in E. rewrite T in E. change (streqb $"xsd:group" $"xsd:element") with false in E. change (streqb $"xsd:group" $"xsd:group") with true in E.
    cbv iota in E. rewrite A', Co in E. now apply IH with n.
  - intros p ks T _ IH n E. destruct n; cbn [within] in E; [discriminate E|]. unfold has_tag in E. rewrite T in E.
    now apply IH with n.
  - intros p q ks T I _ IH n E. destruct n; cbn [within] in E; [discriminate E|]. unfold has_tag in E. rewrite T in E.
    change (forallb (within n A) (xkids p) = true) in E. rewrite forallb_forall in E. apply IH with n. now apply E.
  - intros p ks ks' T P _ IH n E. destruct n; cbn [within] in E; [discriminate E|]. unfold has_tag in E. rewrite T in E.
    intros x J. apply (IH n E). exact (Permutation_in x (Permutation_map xtag P) J).
  - intros p e T _ _ n E. destruct n; cbn [within] in E; [discriminate E|]. unfold has_tag in E. rewrite T in E. discriminate E.
  - exact I.
  - intros. exact I.
  - intros. exact I.
Qed.
Definition kids_ok (n : nat) (t : str) (al rq : list str) : bool :=
  match component S $"xsd:complexType" t with
  | Some c => forallb (within n al) (filter is_particle (xkids c)) &&
              forallb (fun r => existsb (must n r) (filter is_particle (xkids c))) rq && negb (builtin t) &&
              match component S $"xsd:simpleType" t with Some _ => false | None => true end
  | None => false end.
Lemma kids_valid n t al rq e : kids_ok n t al rq = true -> valid_type F S t e -> incl (map xtag (xkids e)) al /\ incl rq (map xtag (xkids e)).
Proof.
  unfold kids_ok. destruct (component S $"xsd:complexType" t) as [c|] eqn:Co; [|discriminate]. intros H V.
  apply andb_true_iff in H as [H H3]. apply andb_true_iff in H as [H H2]. apply andb_true_iff in H as [H0 H1]. apply negb_true_iff in H2.
  inversion V as [t' e' Hs K A|t' ct e' Co' B A Sq]; subst t' e'.
  - exfalso. destruct Hs as [t d s D HF|t st u m s D].
    + destruct D as [t D|t st r b d D]; [congruence|]. rewrite D in H3. discriminate H3.
    + rewrite D in H3. discriminate H3.
  - rewrite Co in Co'. injection Co' as <-. split.
    + destruct (within_content al) as (_ & _ & _ & O & _). exact (O _ _ Sq n H0).
    + intros r I. rewrite forallb_forall in H1. specialize (H1 r I). destruct (must_content r) as (_ & _ & _ & O & _). exact (O _ _ Sq n H1).
Qed.
End Order.
