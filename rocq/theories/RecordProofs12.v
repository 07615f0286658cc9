(** Records with arbitrary children, for the two schemas. *)
From Verif Require Import SchemaSpec PyStrProofs SchemaProofs1 SchemaProofs2 SchemaProofs3 RecordProofs1 RecordProofs2 RecordProofs3 RecordProofs4 RecordProofs5 RecordProofs11 AdesMasterTables.
From Verif Require Import Schema XsdSpec SchemaSpec XsdFiles ValidSpec ValidSpec2.
From Verif Require Import RecordSpec.
Local Open Scope nat_scope.

Lemma occurs_hk ks x : occurs_in ks x = hk ks x.
Proof.
  unfold occurs_in, hk, smem. induction ks as [|k ks IH]; [reflexivity|]. cbn [existsb map]. rewrite IH. f_equal.
  destruct (streqb (xtag k) x) eqn:E; symmetry; [apply streqb_eq in E; subst; now apply streqb_eq|]. destruct (streqb x (xtag k)) eqn:E'; [|reflexivity].
  apply streqb_eq in E'. subst. rewrite (proj2 (streqb_eq _ _) eq_refl) in E. discriminate E.
Qed.
Lemma in_order_incl {X} (a l : list X) : in_order a l -> incl a l.
Proof. induction 1 as [l|x a l H IH|x a l H IH]; intros y I; [destruct I| |right; now apply IH]. destruct I as [->|I]; [now left|right; now apply IH]. Qed.
Lemma filter_in_order {X} (f : X -> bool) l : in_order (filter f l) l.
Proof. induction l as [|x l IH]; [constructor|]. cbn [filter]. destruct (f x); now constructor. Qed.
Lemma in_order_filter (a l : list str) : NoDup l -> in_order a l -> a = filter (fun x => smem x a) l.
Proof.
  intros N H. induction H as [l|x a l H IH|x a l H IH].
  - symmetry. induction l as [|x l IHl]; [reflexivity|]. cbn [filter smem existsb]. apply IHl. now inversion N.
  - inversion_clear N as [|? ? NI N']. cbn [filter]. assert (smem x (x :: a) = true) as -> by (apply smem_iff; now left). f_equal.
    rewrite (IH N') at 1. apply filter_ext_in. intros y I. destruct (smem y a) eqn:E.
    + symmetry. apply smem_iff. right. now apply smem_iff.
    + symmetry. destruct (smem y (x :: a)) eqn:E'; [|reflexivity]. apply smem_iff in E' as [->|E']; [contradiction|]. apply smem_iff in E'. congruence.
  - inversion_clear N as [|? ? NI N']. cbn [filter]. destruct (smem x a) eqn:E; [|now apply IH]. apply smem_iff in E. destruct (NI (in_order_incl _ _ H _ E)).
Qed.
Fixpoint nodupb (l : list str) : bool := match l with [] => true | x :: l' => negb (smem x l') && nodupb l' end.
Lemma nodupb_ok l : nodupb l = true -> NoDup l.
Proof.
  induction l as [|x l IH]; [constructor|]. cbn [nodupb]. intro H. apply andb_prop in H as [H1 H2]. constructor; [|now apply IH].
  intro I. apply smem_iff in I. rewrite I in H1. discriminate H1.
Qed.
Lemma fields_nodup k : In k kinds6 -> NoDup (fields k).
Proof. intro I. apply nodupb_ok. revert k I. assert (forallb (fun k => nodupb (fields k)) kinds6 = true) as H by (vm_compute; reflexivity). rewrite forallb_forall in H. exact H. Qed.

(** for any schema and table *)
Lemma record_all F S n t A e : record_ok S n t A = true -> NoDup A -> incl (flat_map (tagsof S n) (model S t)) A ->
  (valid_type F S t e <-> bare e /\ in_order (map xtag (xkids e)) A /\
    absent (marks (xkids e)) (missing S n t A) = true /\
    sem (hk (xkids e)) (FAll (map (pform S n) (model S t))) = true /\ Forall (child_ok F S) (xkids e)).
Proof.
  intros H N In. apply andb_prop in H as [H1 H2]. set (ks := xkids e). set (T := flat_map (tagsof S n) (model S t)).
  assert (sem (hk ks) (FAll (map (pform S n) (model S t))) = forallb (ppev S ks n) (model S t)) as ->.
  { cbn [sem]. rewrite forallb_map'. apply forallb_ext'. intro x. unfold ppev. rewrite pev_sem. apply sem_ext. intro y. symmetry. apply has_marks. }
  assert (inorder A T ks <-> in_order (map xtag ks) A /\ absent (marks ks) (missing S n t A) = true) as O.
  { split.
    - intro O. split.
      + rewrite O. unfold restrict. rewrite <- (filter_ext_in' (fun x => smem x T && hk ks x) (hk ks) (filter (fun x => smem x T) A)).
        2:{ intros x I. apply filter_In in I as [_ ->]. reflexivity. }
        assert (filter (fun x => smem x T && hk ks x) (filter (fun x => smem x T) A) = filter (fun x => smem x T && hk ks x) A) as ->; [|apply filter_in_order].
        clear. induction A as [|x l IH]; [reflexivity|]. cbn [filter]. destruct (smem x T) eqn:E; cbn [filter andb]; rewrite ?E; cbn [andb]; [|exact IH]. now rewrite IH.
      + apply absent_in. intros x I. rewrite has_marks. apply filter_In in I as [_ I]. apply negb_true_iff in I. apply (hk_out ks T x (inorder_incl _ _ _ O)). intro K. apply smem_iff in K. unfold T in K. congruence.
    - intros [O Ab]. unfold inorder. rewrite absent_in in Ab. rewrite (in_order_filter _ _ N O) at 1. unfold restrict.
      assert (forall l, incl l A -> filter (fun x => smem x (map xtag ks)) l = filter (hk ks) (filter (fun x => smem x T) l)) as K; [|apply K; intros x I; exact I].
      induction l as [|x l IH]; [reflexivity|]. intro J. cbn [filter]. fold (hk ks x). rewrite (IH (fun y I => J y (or_intror I))). destruct (smem x T) eqn:E; [reflexivity|].
      cbn [filter]. destruct (hk ks x) eqn:Hx; [|reflexivity]. specialize (Ab x). rewrite has_marks in Ab. rewrite Ab in Hx; [discriminate Hx|]. apply filter_In. split; [apply J; now left|]. unfold T in E. now rewrite E. }
  pose proof (all_decided F S A n (model S t) ks H2) as D. fold T in D. split.
  - intro V. assert (xattrs e = []) as AE by exact (plain_attrs F S t e H1 V). apply (complex_valid F S t e H1 AE) in V as [B Sq].
    apply D in Sq as (P1 & P2 & P3). apply O in P1 as [P1 P1']. split; [now split|]. tauto.
  - intros ([AE B] & P1 & P1' & P2 & P3). apply (complex_valid F S t e H1 AE). split; [exact B|]. apply D. split; [now apply O|]. tauto.
Qed.
Lemma complete_ext k h h' : (forall x, h x = h' x) -> In k kinds6 -> complete k h = complete k h'.
Proof. intros E I. rewrite <- !(general_complete k _ I). now apply sem_ext. Qed.
Lemma kids_valid F S ks : Forall (child_ok F S) ks <-> forall k, In k ks -> valid F S k.
Proof. rewrite Forall_forall. split; intros H k I; exact (H k I). Qed.
Lemma offered_in S k N : covers S N k = true -> incl (flat_map (tagsof S 12) (model S (type_of_tag S k))) (fields k).
Proof. fold (offered S k). intros C x I. apply andb_prop in C as [_ C]. rewrite forallb_forall in C. apply smem_iff. now apply C. Qed.
Lemma s_kind_sem S k h : sem h (FAll (map (pform S 12) (model S (type_of_tag S k)))) = sem h (s_kind S k).
Proof. unfold s_kind. now rewrite s_sem. Qed.
Lemma general_any F k e : xtag e = k -> In k kinds6 ->
  (valid F general_xsd e <-> bare e /\ in_order (map xtag (xkids e)) (fields k) /\
   complete k (occurs_in (xkids e)) = true /\ forall k, In k (xkids e) -> valid F general_xsd k).
Proof.
  intros X I. assert (declared general_xsd k = true) as D.
  { pose proof declared_kinds as H. apply andb_prop in H as [_ H]. rewrite forallb_forall in H. now apply H. }
  rewrite <- X in D. rewrite (valid_declared F general_xsd e D). rewrite X.
  pose proof general_ok as G. rewrite forallb_forall in G.
  rewrite (record_all F general_xsd 12 (type_of_tag general_xsd k) (fields k) e (G k I) (fields_nodup k I) (offered_in general_xsd k [] (general_covers k I))).
  pose proof general_all as M. rewrite forallb_forall in M. specialize (M k I). destruct (missing _ _ _ _); [|discriminate M].
  rewrite (s_kind_sem general_xsd k).
  rewrite (general_complete k _ I). rewrite kids_valid. rewrite (complete_ext k _ _ (fun x => eq_sym (occurs_hk (xkids e) x)) I).
  split; [intros (A & B & _ & C)|intros (A & B & C); split; [exact A|]; split; [exact B|]; split; [reflexivity|exact C]]. split; [exact A|]. split; [exact B|exact C].
Qed.
Lemma submit_any F k e : xtag e = k -> In k (firstn 4 kinds6) ->
  (valid F submit_xsd e <-> bare e /\ in_order (map xtag (xkids e)) (fields k) /\
   (forall x, In x (map lit reserved) -> occurs_in (xkids e) x = false) /\
   complete k (occurs_in (xkids e)) = true /\ forall k, In k (xkids e) -> valid F submit_xsd k).
Proof.
  intros X I. assert (In k kinds6) as I6 by (rewrite <- (firstn_skipn 4 kinds6); apply in_or_app; now left). assert (declared submit_xsd k = true) as D.
  { pose proof declared_kinds as H. apply andb_prop in H as [H _]. rewrite forallb_forall in H. specialize (H k I). apply andb_prop in H as [_ H]. exact H. }
  rewrite <- X in D. rewrite (valid_declared F submit_xsd e D). rewrite X.
  pose proof submit_ok as G. rewrite forallb_forall in G.
  rewrite (record_all F submit_xsd 12 (type_of_tag submit_xsd k) (fields k) e (G k I) (fields_nodup k I6) (offered_in submit_xsd k _ (submit_covers k I))).
  rewrite (reserved_missing k I). rewrite (s_kind_sem submit_xsd k). rewrite kids_valid.
  assert (in_order (map xtag (xkids e)) (fields k) -> (absent (marks (xkids e)) (reserved_fields k) = true <-> (forall x, In x (map lit reserved) -> occurs_in (xkids e) x = false))) as R.
  { intro O. rewrite absent_in. unfold reserved_fields. split.
    - intros H x J. rewrite occurs_hk. destruct (hk (xkids e) x) eqn:E; [|reflexivity]. exfalso. assert (In x (fields k)) as J' by (apply (in_order_incl _ _ O); now apply hk_in).
      rewrite <- has_marks in E. assert (has (marks (xkids e)) x = false) as Q by (apply H; apply filter_In; split; [exact J'|now apply smem_iff]). congruence.
    - intros H x J. apply filter_In in J as [J K]. rewrite has_marks, <- occurs_hk. apply H. now apply smem_iff. }
  assert (absent (marks (xkids e)) (reserved_fields k) = true -> sem (hk (xkids e)) (s_kind submit_xsd k) = complete k (occurs_in (xkids e))) as C.
  { intro Ab. rewrite (complete_ext k _ _ (occurs_hk (xkids e)) I6). apply (submit_complete k _ I). rewrite <- Ab. unfold absent. apply forallb_ext'. intro x. now rewrite has_marks. }
  split.
  - intros (A & B & Ab & Sm & V). rewrite (C Ab) in Sm. split; [exact A|]. split; [exact B|]. split; [now apply R|]. split; [exact Sm|exact V].
  - intros (A & B & Ab & Sm & V). apply R in Ab; [|exact B]. split; [exact A|]. split; [exact B|]. split; [exact Ab|]. split; [now rewrite (C Ab)|exact V].
Qed.
