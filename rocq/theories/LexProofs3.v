(** Lemmas of C48, part 3: records of valid documents can be written. *)
From Verif Require Import SchemaSpec PyStrProofs PsvLines RoundProofs2 SchemaProofs1 SchemaProofs2 SchemaProofs3 RecordProofs1 RecordProofs2 RecordProofs3 RecordProofs4 RecordProofs6 RecordProofs12 AdesMasterTables.
From Verif Require Import Schema XsdSpec SchemaSpec XsdPattern XsdFiles ValueSpec ValidSpec ValidSpec2 LexSpec LexProofs1 LexProofs2.
Local Open Scope nat_scope.

(** * Values of a record *)
Lemma rec_value_child r c : NoDup (map xtag (xkids r)) -> In c (xkids r) -> rec_value r (xtag c) = strip (xtext c).
Proof.
  intros N I. unfold rec_value.
  destruct (find _ (rev (xkids r))) as [c'|] eqn:Fd.
  - apply find_some in Fd as [I' H]. apply andb_prop in H as [H _]. apply streqb_eq in H. apply in_rev in I'.
    assert (c' = c) as ->; [|reflexivity]. revert N I I' H. generalize (xkids r). intro ks. induction ks as [|k ks IH]; [intros _ []|].
    cbn [map]. intros N I I' H. inversion_clear N as [|? ? NI N']. destruct I as [->|I], I' as [->|I']; try reflexivity.
    + exfalso. apply NI. rewrite <- H. now apply in_map.
    + exfalso. apply NI. rewrite H. now apply in_map.
    + now apply IH.
  - destruct (strip (xtext c)) as [|a s] eqn:E; [reflexivity|]. exfalso.
    assert (nonblank (xtext c) = true) as B by (apply nonblank_strip; rewrite E; intro Q; discriminate Q).
    pose proof (find_none _ _ Fd c (proj1 (in_rev _ _) I)) as H. cbn beta in H. rewrite B, (proj2 (streqb_eq _ _) eq_refl) in H. discriminate H.
Qed.
Lemma rec_value_some r x : rec_value r x <> [] -> exists c, In c (xkids r) /\ xtag c = x /\ rec_value r x = strip (xtext c).
Proof.
  unfold rec_value. destruct (find _ (rev (xkids r))) as [c|] eqn:Fd; [|congruence]. intros _. exists c.
  apply find_some in Fd as [I' H]. apply andb_prop in H as [H _]. apply streqb_eq in H. apply in_rev in I'. now split.
Qed.
Lemma in_order_nodup {X} (a l : list X) : in_order a l -> NoDup l -> NoDup a.
Proof.
  induction 1 as [l|x a l H IH|x a l H IH]; intro N; [constructor| |]; inversion_clear N as [|? ? NI N']; [|now apply IH].
  constructor; [|now apply IH]. intro I. apply NI. exact (in_order_incl _ _ H _ I).
Qed.
(** what is needed of a record: its children in order, with values *)
Definition good_child (k : str) (c : xml) : Prop :=
  xattrs c = [] /\ xkids c = [] /\ strip (xtext c) <> [] /\ writable_value ades_tables k (xtag c) (strip (xtext c)).
Definition good_record (k : str) (r : xml) : Prop :=
  xtag r = k /\ In k kinds4 /\ bare r /\ in_order (map xtag (xkids r)) (fields k) /\
  (exists rq, dget k (required ades_tables) = Some rq /\ incl rq (map xtag (xkids r))) /\
  Forall (good_child k) (xkids r) /\
  exists c, In c (xkids r) /\ xtag c = $"obsTime" /\ ~ starts_alpha (strip (xtext c)).
Lemma kinds4_6 k : In k kinds4 -> In k kinds6.
Proof. intro I. unfold kinds4 in I. apply (firstn_In 4) in I || (rewrite <- (firstn_skipn 4 kinds6); apply in_or_app; now left). Qed.
Lemma order_fields k : order_of ades_tables k = fields k. Proof. reflexivity. Qed.
Lemma last_remarks : forallb (fun k => streqb (last_column ades_tables k) $"remarks") kinds4 = true. Proof. vm_compute. reflexivity. Qed.
Lemma last_is k : In k kinds4 -> last_column ades_tables k = $"remarks".
Proof. pose proof last_remarks as H. rewrite forallb_forall in H. intro I. apply streqb_eq. exact (H k I). Qed.
Lemma good_writable k r : good_record k r -> writable_record ades_tables k r.
Proof.
  intros (T & K & B & O & (rq & R & Rq) & G & (c & Ic & Tc & A)). rewrite Forall_forall in G.
  pose proof (in_order_nodup _ _ O (fields_nodup k (kinds4_6 k K))) as N.
  split; [exact T|]. split; [|split; [|split]].
  - intros x V. destruct (rec_value_some r x V) as (c' & I' & T' & E). rewrite E. subst x. destruct (G c' I') as (_ & _ & _ & W).
    split; [|exact W]. rewrite order_fields. apply (in_order_incl _ _ O). now apply in_map.
  - intros rq' x R' I. rewrite R in R'. assert (rq = rq') as <- by congruence. apply Rq in I. apply in_map_iff in I as (c' & <- & I').
    rewrite (rec_value_child r c' N I'). now apply G.
  - exists (xtag c). rewrite (rec_value_child r c N Ic). split; [now apply G|exact A].
  - exists (xtag c). rewrite (rec_value_child r c N Ic). split; [now apply G|]. rewrite (last_is k K), Tc. intro Q. apply (f_equal (fun s => streqb s $"remarks")) in Q. vm_compute in Q. discriminate Q.
Qed.
Lemma blank_strip s : blank_text s = true -> strip s = [].
Proof. intro H. now apply strip_nil_iff. Qed.
Lemma good_normal k r : good_record k r -> normal_record ades_tables r = trim_texts r.
Proof.
  intros (T & K & (B1 & B2) & O & _ & G & _). rewrite Forall_forall in G.
  pose proof (fields_nodup k (kinds4_6 k K)) as NF. pose proof (in_order_nodup _ _ O NF) as N.
  unfold normal_record. rewrite T, order_fields.
  assert (filter (fun x => negb (streqb (rec_value r x) [])) (fields k) = map xtag (xkids r)) as ->.
  { rewrite (in_order_filter _ _ NF O) at 1. apply filter_ext_in. intros x I. apply Bool.eq_iff_eq_true. rewrite negb_true_iff, smem_iff. split.
    - intro H. assert (rec_value r x <> []) as V by (intro Q; rewrite Q in H; discriminate H). destruct (rec_value_some r x V) as (c & Ic & <- & _). now apply in_map.
    - intro H. apply in_map_iff in H as (c & <- & Ic). rewrite (rec_value_child r c N Ic). destruct (G c Ic) as (_ & _ & V & _).
      destruct (streqb (strip (xtext c)) []) eqn:Q; [|reflexivity]. apply streqb_eq in Q. contradiction. }
  rewrite map_map. destruct r as [tg at_ tx ks]. cbn [xtag xattrs xtext xkids trim_texts] in *. subst tg at_. f_equal; [symmetry; now apply blank_strip|].
  apply map_ext_in. intros c Ic. pose proof (rec_value_child (Elem k [] tx ks) c N Ic) as V. unfold rec_value in *. rewrite V.
  destruct (G c Ic) as (A1 & A2 & _). destruct c as [t a s l]. cbn [xtag xattrs xtext xkids trim_texts] in *. subst a l. reflexivity.
Qed.
