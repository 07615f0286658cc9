From Verif Require Import JsonSpec PyStrProofs XmlProofs TablesProofs JsonProofs1.
From Verif Require Import Json JsonSpec.
From Coq Require Import Permutation.

Lemma forallb_filter_id {A} (f : A -> bool) l : forallb f l = true -> filter f l = l.
Proof. induction l as [|a l IH]; cbn [forallb filter]; [reflexivity|]. intros H. apply andb_true_iff in H as [-> H]. now rewrite IH. Qed.

(** * Bringing items of the same name together *)
Section Gather.
  Context {A : Type} (tg : A -> str).
  Definition sel (n : str) (l : list A) : list A := filter (fun k => streqb (tg k) n) l.
  Definition gat (l : list A) : list A := flat_map (fun n => sel n l) (firsts (map tg l)).

  Lemma sel_none n l : ~ In n (map tg l) -> sel n l = [].
  Proof.
    unfold sel. induction l as [|a l IH]; cbn [map In filter]; [reflexivity|]. intros H.
    destruct (streqb (tg a) n) eqn:E; [apply streqb_eq in E; tauto|]. apply IH. tauto.
  Qed.
  Lemma sel_sel n m l : sel n (sel m l) = if streqb n m then sel n l else [].
  Proof.
    unfold sel. induction l as [|a l IH]; cbn [filter]; [destruct (streqb n m); reflexivity|].
    destruct (streqb (tg a) m) eqn:E; cbn [filter]; rewrite IH.
    - apply streqb_eq in E. subst m. destruct (streqb (tg a) n) eqn:F.
      + apply streqb_eq in F. rewrite <- F, seq_refl. reflexivity.
      + destruct (streqb n (tg a)) eqn:F'; [|reflexivity]. apply streqb_eq in F'. rewrite F', seq_refl in F. discriminate.
    - destruct (streqb n m) eqn:F; [|reflexivity]. apply streqb_eq in F. subst m. now rewrite E.
  Qed.
  Lemma sel_flat n l F : NoDup F -> sel n (flat_map (fun m => sel m l) F) = if smem n F then sel n l else [].
  Proof.
    induction F as [|m F IH]; cbn [flat_map smem existsb]; [reflexivity|]. fold (smem n F). intros N.
    apply NoDup_cons_iff in N as [N1 N2]. unfold sel at 1. rewrite filter_app. fold (sel n (sel m l)). fold (sel n (flat_map (fun m => sel m l) F)).
    rewrite sel_sel, (IH N2). destruct (streqb n m) eqn:E; cbn [orb]; [|reflexivity].
    apply streqb_eq in E. subst m. destruct (smem n F) eqn:M; [apply smem_in in M; tauto|]. apply app_nil_r.
  Qed.
  Lemma sel_gat n l : sel n (gat l) = sel n l.
  Proof.
    unfold gat. rewrite sel_flat by apply firsts_nodup. destruct (smem n _) eqn:M; [reflexivity|].
    symmetry. apply sel_none. intros H. apply (proj2 (firsts_in _ _)), (proj2 (smem_in _ _)) in H. congruence.
  Qed.
  Lemma sel_tags n l : map tg (sel n l) = repeat n (length (sel n l)).
  Proof.
    unfold sel. induction l as [|a l IH]; cbn [filter]; [reflexivity|]. destruct (streqb (tg a) n) eqn:E; [|exact IH].
    apply streqb_eq in E. cbn [map length repeat]. now rewrite IH, E.
  Qed.
  Lemma sel_some n l : In n (map tg l) -> exists c, length (sel n l) = S c.
  Proof.
    unfold sel. induction l as [|a l IH]; cbn [map In filter]; [tauto|].
    destruct (streqb (tg a) n) eqn:E; [eexists; reflexivity|]. intros [H|H]; [|exact (IH H)].
    rewrite H, seq_refl in E. discriminate.
  Qed.
  Lemma filter_repeat (f : str -> bool) n c : filter f (repeat n c) = if f n then repeat n c else [].
  Proof. induction c as [|c IH]; cbn [repeat filter]; [destruct (f n); reflexivity|]. rewrite IH. destruct (f n); reflexivity. Qed.
  Lemma firsts_repeat n c r : ~ In n r -> firsts (repeat n (S c) ++ r) = n :: firsts r.
  Proof.
    intros H. induction c as [|c IH].
    - cbn [repeat app firsts]. f_equal. apply forallb_filter_id, forallb_forall. intros m I.
      apply (proj1 (firsts_in _ _)) in I. destruct (streqb m n) eqn:E; [|reflexivity]. apply streqb_eq in E. now subst.
    - change (repeat n (S (S c)) ++ r) with (n :: (repeat n (S c) ++ r)). cbn [firsts]. rewrite IH. cbn [filter].
      rewrite seq_refl. cbn [negb]. f_equal. apply forallb_filter_id, forallb_forall. intros m I.
      apply (proj1 (firsts_in _ _)) in I. destruct (streqb m n) eqn:E; [|reflexivity]. apply streqb_eq in E. now subst.
  Qed.
  Lemma firsts_flat l F : NoDup F -> (forall n, In n F -> In n (map tg l)) -> firsts (map tg (flat_map (fun m => sel m l) F)) = F.
  Proof.
    induction F as [|n F IH]; [reflexivity|]. intros N H. apply NoDup_cons_iff in N as [N1 N2].
    cbn [flat_map]. rewrite map_app, sel_tags. destruct (sel_some n l (H n (or_introl eq_refl))) as (c & ->).
    rewrite firsts_repeat.
    - f_equal. apply IH; [exact N2|]. intros m I. apply H. now right.
    - intros I. apply in_map_iff in I as (a & E & I). apply in_flat_map in I as (m & I1 & I2).
      unfold sel in I2. apply filter_In in I2 as [_ I2]. apply streqb_eq in I2. congruence.
  Qed.
  Lemma firsts_gat l : firsts (map tg (gat l)) = firsts (map tg l).
  Proof. apply firsts_flat; [apply firsts_nodup|]. intros n. apply firsts_in. Qed.
  Lemma gat_perm l : Permutation (gat l) l.
  Proof.
    unfold gat. assert (K : forall F l, NoDup F -> (forall a, In a l -> In (tg a) F) -> Permutation (flat_map (fun n => sel n l) F) l).
    { induction F as [|n F IH]; intros m N H.
      - destruct m as [|a m]; [constructor|]. destruct (H a (or_introl eq_refl)).
      - apply NoDup_cons_iff in N as [N1 N2]. cbn [flat_map].
        set (rest := filter (fun k => negb (streqb (tg k) n)) m).
        assert (flat_map (fun n => sel n m) F = flat_map (fun n => sel n rest) F) as ->.
        { rewrite !flat_map_concat_map. f_equal. apply map_ext_in. intros k I. unfold rest, sel.
          clear - N1 I. induction m as [|a m IH]; [reflexivity|]. cbn [filter].
          destruct (streqb (tg a) k) eqn:E, (streqb (tg a) n) eqn:E'; cbn [negb filter]; rewrite ?E, ?IH; try reflexivity.
          apply streqb_eq in E. apply streqb_eq in E'. congruence. }
        transitivity (sel n m ++ rest).
        + apply Permutation_app_head, IH; [exact N2|]. intros a I. unfold rest in I. apply filter_In in I as [I E].
          destruct (H a I) as [E'|I']; [|exact I']. rewrite <- E', seq_refl in E. discriminate.
        + clear. unfold rest, sel. induction m as [|a m IH]; [constructor|]. cbn [filter].
          destruct (streqb (tg a) n); cbn [negb app]; [now constructor|]. symmetry. apply Permutation_cons_app. now symmetry. }
    apply K; [apply firsts_nodup|]. intros a I. apply firsts_in, in_map, I.
  Qed.
  Lemma gat_together l : together (map tg l) -> gat l = l.
  Proof.
    unfold gat. induction l as [|a l IH]; [reflexivity|]. cbn [map together firsts flat_map].
    intros [H T]. specialize (IH T).
    assert (K : flat_map (fun n => sel n (a :: l)) (filter (fun m => negb (streqb m (tg a))) (firsts (map tg l))) =
                flat_map (fun n => sel n l) (filter (fun m => negb (streqb m (tg a))) (firsts (map tg l)))).
    { rewrite !flat_map_concat_map. f_equal. apply map_ext_in. intros n I. apply filter_In in I as [_ I].
      unfold sel. cbn [filter]. destruct (streqb (tg a) n) eqn:E; [|reflexivity]. apply streqb_eq in E. subst.
      rewrite seq_refl in I. discriminate. }
    rewrite K. clear K. unfold sel at 1. cbn [filter]. rewrite seq_refl. fold (sel (tg a) l). cbn [app]. f_equal.
    destruct l as [|b l]; [reflexivity|]. cbn [map] in *.
    destruct H as [H|H].
    - rewrite <- H. refine (eq_trans _ IH). cbn [firsts filter flat_map]. rewrite seq_refl. cbn [negb]. f_equal.
      rewrite !flat_map_concat_map. f_equal. f_equal. apply forallb_filter_id, forallb_forall. intros m I.
      apply filter_In in I as [_ I]. exact I.
    - rewrite sel_none by exact H. cbn [app]. refine (eq_trans _ IH). f_equal.
      apply forallb_filter_id, forallb_forall. intros m I. apply (proj1 (firsts_in _ _)) in I.
      destruct (streqb m (tg a)) eqn:E; [|reflexivity]. apply streqb_eq in E. now subst.
  Qed.
End Gather.

Lemma gather_gat ks : gather ks = gat xtag ks. Proof. reflexivity. Qed.
Lemma grouped_tag m : xtag (grouped m) = xtag m. Proof. now destruct m. Qed.

Lemma sel_map {A B} (f : A -> B) (ta : A -> str) (tb : B -> str) n l : (forall a, tb (f a) = ta a) -> sel tb n (map f l) = map f (sel ta n l).
Proof.
  intros H. unfold sel. induction l as [|a l IH]; cbn [map filter]; [reflexivity|]. rewrite H, IH. destruct (streqb (ta a) n); reflexivity.
Qed.
Lemma gat_map {A B} (f : A -> B) (ta : A -> str) (tb : B -> str) l : (forall a, tb (f a) = ta a) -> gat tb (map f l) = map f (gat ta l).
Proof.
  intros H. unfold gat. rewrite map_map. rewrite (map_ext _ ta) by exact H.
  rewrite !flat_map_concat_map, concat_map, map_map. f_equal. apply map_ext. intros n. now apply sel_map.
Qed.

Lemma G_gat l : G (gat fst l) = G l.
Proof.
  unfold G. rewrite firsts_gat. apply map_ext. intros n. do 2 f_equal. unfold vals.
  f_equal. exact (sel_gat fst n l).
Qed.

(** * Documents in good order *)
Inductive fine : xml -> Prop :=
| fine_elem t a s ks : name_like t -> NoDup (map fst a) -> strip s = s -> ~ In (Ascii.ascii_of_N 13) s -> Forall fine ks ->
    fine (Elem t a s ks).

Lemma strip_In c s : In c (strip s) -> In c s.
Proof. destruct (strip_decomp s) as (a & b & E & _). intros H. rewrite E. apply in_or_app. right. apply in_or_app. now left. Qed.
Lemma fine_meaning x : is_element x -> well_formed x -> fine (meaning x).
Proof.
  induction x as [t a ks IH|s|] using xnode_ind'; [|intros (?&?&?&H); discriminate H..].
  intros _ W. inversion W as [? ? ? N D F| |]; subst. cbn [meaning]. constructor; [exact N|exact D|apply strip_idem| |].
  - intros I. apply strip_In in I. clear -F I. unfold chars in I. apply in_concat in I as (s & I1 & I2).
    apply in_map_iff in I1 as (k & E & I1). rewrite Forall_forall in F. specialize (F k I1).
    destruct k as [| s' |]; subst; [destruct I2| |destruct I2]. inversion F; subst. tauto.
  - clear -IH F. apply Forall_forall. intros m I. apply in_flat_map in I as (k & I1 & I2).
    rewrite Forall_forall in F, IH. destruct k as [t' a' ks'| |]; [|destruct I2..]. destruct I2 as [<-|[]].
    apply IH; [exact I1|repeat eexists|now apply F].
Qed.

Lemma attr_key_name k a : name_like k -> dget k (attributes a) = None.
Proof.
  intros (c & t & -> & H1 & H2). unfold attributes. induction a as [|[k v] a IH]; cbn [map dget fst streqb]; [reflexivity|].
  destruct (ceqb c "@") eqn:E; [apply Ascii.eqb_eq in E; congruence|]. exact IH.
Qed.
Lemma vx_fine t a s ks : Forall fine ks ->
  vx (Elem t a s ks) = finish (attributes a ++ G (map (fun k => (xtag k, vx k)) ks)) s.
Proof.
  intros F. rewrite vx_eq. f_equal. apply push_all. apply Forall_map. eapply Forall_impl; [|exact F].
  intros m Fm. cbn [fst snd]. split; [|apply vx_nolist]. destruct Fm. now apply attr_key_name.
Qed.
Lemma fine_grouped m : fine m -> fine (grouped m).
Proof.
  induction m as [t a s ks IH] using xml_ind'; intros F. inversion F as [? ? ? ? N D S C K]; subst. cbn [grouped]. constructor; [exact N|exact D|exact S|exact C|].
  rewrite gather_gat. eapply Permutation_Forall; [apply Permutation_sym, gat_perm|]. apply Forall_map.
  rewrite Forall_forall in *. intros k I. apply IH; [exact I|now apply K].
Qed.
Lemma vx_grouped m : fine m -> vx (grouped m) = vx m.
Proof.
  induction m as [t a s ks IH] using xml_ind'; intros F. pose proof (fine_grouped _ F) as F'. cbn [grouped] in *.
  inversion F as [? ? ? ? N D S C K]; subst. inversion F' as [? ? ? ? N' D' S' C' K']; subst.
  rewrite !vx_fine by assumption. do 2 f_equal. rewrite gather_gat.
  rewrite <- (gat_map (fun k => (xtag k, vx k)) xtag fst) by reflexivity. rewrite G_gat. f_equal.
  rewrite map_map. apply map_ext_in. intros k I. rewrite Forall_forall in *. rewrite grouped_tag, IH; [reflexivity|exact I|now apply K].
Qed.
