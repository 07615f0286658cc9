(** XML - PSV - XML: the state of a section. *)
From Verif Require Import PyStrProofs XmlSpec XmlProofs PsvToXml PsvSpec PsvSpec2 PsvLines TablesProofs JustSpec JustProofs
  XmlProofs2 PsvProofs4 PsvProofs5 XmlToPsv RoundSpec RoundProofs1.

Lemma Ok_inj {A} (a b : A) : Ok a = Ok b -> a = b. Proof. congruence. Qed.

(** * the dictionary of a record *)
Lemma nonblank_strip s : nonblank s = true <-> strip s <> [].
Proof. rewrite nonblank_true. split; intros H K; apply H; now apply strip_nil_iff. Qed.
Lemma subdict_get : forall kids d k,
  dget k (fold_left (fun d c => let '(t, x) := getElementTagText c in match x with [] => d | _ => dset t x d end) kids d) =
  match find (fun c => streqb (xtag c) k && nonblank (xtext c)) (rev kids) with
  | Some c => Some (strip (xtext c)) | None => dget k d end.
Proof.
  induction kids as [|c kids IH]; intros d k; [reflexivity|]. cbn [fold_left rev]. rewrite IH, find_app. clear IH.
  destruct (find _ (rev kids)); auto. cbn [find]. unfold getElementTagText, regularizeWhiteSpace.
  destruct (nonblank (xtext c)) eqn:N.
  - rewrite nonblank_strip in N. destruct (strip (xtext c)) as [|y s] eqn:E; [congruence|]. rewrite andb_true_r.
    destruct (streqb (xtag c) k) eqn:Q.
    + apply streqb_eq in Q. subst k. rewrite ?E. apply dget_dset_eq.
    + apply dget_dset_ne. intros ->. rewrite streqb_refl in Q. discriminate.
  - rewrite andb_false_r. assert (strip (xtext c) = []) as ->; auto.
    destruct (strip (xtext c)) eqn:E; auto. assert (nonblank (xtext c) = true); [|congruence]. apply nonblank_strip. congruence.
Qed.
Lemma rec_get r k : dget k (subDict_of r) = match rec_value r k with [] => None | v => Some v end.
Proof.
  unfold subDict_of. rewrite subdict_get. unfold rec_value.
  destruct (find _ (rev (xkids r))) as [c|] eqn:F; [|reflexivity].
  apply find_some in F as [_ F]. apply andb_prop in F as [_ F]. apply nonblank_strip in F.
  generalize dependent (strip (xtext c)). intros s; destruct s; [congruence|reflexivity].
Qed.
Lemma dset_nodup {A} k (v : A) d : NoDup (map fst d) -> NoDup (map fst (dset k v d)).
Proof.
  induction d as [|[k' v'] d IH]; intros N; cbn [dset map]; [repeat constructor; auto|].
  destruct (streqb k k') eqn:E; cbn [map fst] in *.
  - apply streqb_eq in E. now subst.
  - inversion N as [|? ? NI N']; subst. constructor; auto. intros I. apply dset_keys in I as [->|I]; auto.
    rewrite streqb_refl in E. discriminate.
Qed.
Lemma subdict_nodup r : NoDup (map fst (subDict_of r)).
Proof.
  unfold subDict_of. assert (G : forall kids d, NoDup (map fst d) -> NoDup (map fst (fold_left (fun d c => let '(t, x) := getElementTagText c in match x with [] => d | _ => dset t x d end) kids d))).
  { induction kids as [|c kids IH]; intros d N; cbn [fold_left]; auto. apply IH. cbn. destruct (regularizeWhiteSpace (xtext c)); auto. now apply dset_nodup. }
  apply G. constructor.
Qed.
Lemma dget_In {A} k (v : A) d : NoDup (map fst d) -> In (k, v) d -> dget k d = Some v.
Proof.
  induction d as [|[k' v'] d IH]; intros N I; [destruct I|]. cbn [dget]. inversion N as [|? ? NI N']; subst.
  destruct I as [I|I].
  - injection I as -> ->. now rewrite streqb_refl.
  - destruct (streqb k k') eqn:E; auto. apply streqb_eq in E. subst. exfalso. apply NI. apply in_map_iff. exists (k', v). auto.
Qed.
Lemma sub_In r k v : In (k, v) (subDict_of r) -> v = rec_value r k /\ rec_value r k <> [].
Proof.
  intros I. apply dget_In in I; [|apply subdict_nodup]. rewrite rec_get in I. destruct (rec_value r k); [discriminate|].
  apply some_inj in I. subst. split; [auto|discriminate].
Qed.
Lemma dget_key {A} k (d : list (str * A)) v : dget k d = Some v -> In k (map fst d).
Proof.
  induction d as [|[k' v'] d IH]; cbn [dget]; [discriminate|]. destruct (streqb k k') eqn:E.
  - apply streqb_eq in E. subst. now left.
  - intros H. right. auto.
Qed.
Lemma sub_keys r k : In k (map fst (subDict_of r)) <-> rec_value r k <> [].
Proof.
  split.
  - intros I. apply in_map_iff in I as ([k' v] & <- & I). now apply sub_In in I.
  - intros N. apply (dget_key _ _ (rec_value r k)). rewrite rec_get. generalize dependent (rec_value r k); intros s N; destruct s; [congruence|reflexivity].
Qed.
Lemma rec_trimmed r k : is_trimmed (rec_value r k).
Proof. unfold rec_value. destruct (find _ _); [apply strip_idem|reflexivity]. Qed.

(** * justification of one value *)
Definition lrc (f : str) : Prop := In f [$"L"; $"R"; $"C"].
Definition fmt_ok (h : hitem) : Prop := lrc (h_fmt h) \/ h_fmt h = $"D" /\ 0 <= h_dpos h.
Lemma just_ok v w f d : lrc f \/ f = $"D" /\ 0 <= d -> (~ lrc f -> (points v <= 1)%nat) ->
  exists s w' d', applyPaddingAndJustification v w f d = Ok (s, w', d') /\ padded v s /\ (f = $"D" -> 0 <= d').
Proof.
  intros [H|[-> D]] P.
  - destruct (c16_LRC v w f d) as (a & b & E & _).
    { destruct H as [<-|[<-|[<-|[]]]]; auto. }
    exists (spaces a ++ v ++ spaces b), (Z.max w (wid v)), d. split; [exact E|]. split; [now exists a, b|].
    intros ->. destruct H as [H|[H|[H|[]]]]; discriminate H.
  - rewrite apply_D. destruct (just_D_ok v w d) as (r & w' & d' & E); auto.
    { apply P. intros [H|[H|[H|[]]]]; discriminate H. }
    exists r, w', d'. split; auto. destruct (just_D _ _ _ _ _ _ E) as (_ & _ & a & b & -> & _ & -> & _). split; [now exists a, b|].
    intros _. unfold wid. lia.
Qed.

(** * the state *)
Record good (T : tables) (ty : str) (al : list str) (fs : list psvitem) (g : xglob) (ks : list str) : Prop := {
  G1 : NoDup (map h_id (x_info g));
  G2 : forall k, In k al -> exists h, In h (x_info g) /\ h_name h = k /\ dget k (x_dict g) = Some (h_id h);
  G3 : forall h, In h (x_info g) -> h_seen h = true -> dget (h_name h) (x_dict g) = Some (h_id h) /\ In (h_name h) ks;
  G3' : forall k, In k ks -> exists h, In h (x_info g) /\ h_name h = k /\ h_seen h = true;
  G4 : forall h, In h (x_info g) -> fmt_ok h;
  G5 : forall h, In h (x_info g) -> dget (h_name h) (x_dict g) = Some (h_id h) -> free_column T ty (h_name h) = true -> lrc (h_fmt h);
  G6 : fs <> [] -> exists l h, x_info g = l ++ [h] /\ h_name h = last_column T ty /\ dget (h_name h) (x_dict g) = Some (h_id h);
  G7 : x_psv g = map p_name fs }.

Lemma get_item_In l h : NoDup (map h_id l) -> In h l -> get_item (h_id h) l = Some h.
Proof.
  unfold get_item. induction l as [|x l IH]; intros N I; [destruct I|]. cbn [find]. inversion N as [|? ? NI N']; subst.
  destruct I as [->|I]; [now rewrite Nat.eqb_refl|].
  destruct (Nat.eqb (h_id x) (h_id h)) eqn:E; auto. apply Nat.eqb_eq in E. exfalso. apply NI. rewrite E. now apply in_map.
Qed.
Lemma set_item_ids h l : map h_id (set_item h l) = map h_id l.
Proof.
  unfold set_item. rewrite map_map. apply map_ext. intros x. destruct (Nat.eqb (h_id x) (h_id h)) eqn:E; auto. now apply Nat.eqb_eq in E.
Qed.
Lemma set_item_In h l x : In x (set_item h l) <-> (x = h /\ exists y, In y l /\ h_id y = h_id h) \/ (In x l /\ h_id x <> h_id h).
Proof.
  unfold set_item. rewrite in_map_iff. split.
  - intros (y & E & I). destruct (Nat.eqb (h_id y) (h_id h)) eqn:Q.
    + left. apply Nat.eqb_eq in Q. split; eauto.
    + right. apply Nat.eqb_neq in Q. subst. auto.
  - intros [[-> (y & I & E)]|[I N]].
    + exists y. rewrite E, Nat.eqb_refl. auto.
    + exists x. apply Nat.eqb_neq in N. rewrite N. auto.
Qed.

Lemma free_psv T ty fs k : dget ty (psvFormat T) = Some fs -> free_column T ty k = true -> In k (map p_name fs).
Proof.
  unfold free_column. intros ->. destruct (find _ (rev fs)) as [j|] eqn:F; [|discriminate]. intros _.
  apply find_some in F as [I E]. apply in_rev in I. apply streqb_eq in E. apply in_map_iff. eauto.
Qed.

Lemma see_item_ok T ty fs h v dct : dget ty (psvFormat T) = Some fs -> fmt_ok h ->
  (dct -> free_column T ty (h_name h) = true -> lrc (h_fmt h)) -> dct ->
  (free_column T ty (h_name h) = false -> (points v <= 1)%nat) ->
  exists h', see_item h (map p_name fs) v = Ok h' /\ h_id h' = h_id h /\ h_name h' = h_name h /\ h_seen h' = true /\
    fmt_ok h' /\ (free_column T ty (h_name h) = true -> lrc (h_fmt h')).
Proof.
  intros Ef Fo Fr D P. unfold see_item.
  set (cond := negb (smem (h_name h) (map p_name fs)) && negb (h_seen h) && smem (h_fmt h) [[]; $"R"; $"L"; $"RL"]).
  assert (C : exists just n, (if cond then match index_dot v with Some k => ($"D", Z.of_nat k + 1) | None => (h_fmt h, 0) end else (h_fmt h, h_dpos h)) = (just, n) /\
    (lrc just \/ just = $"D" /\ 0 <= n) /\ (free_column T ty (h_name h) = true -> lrc just)).
  { destruct cond eqn:Ec.
    - unfold cond in Ec. apply andb_prop in Ec as [Ec1 Ec3]. apply andb_prop in Ec1 as [Ec1 _].
      assert (NF : free_column T ty (h_name h) = true -> False).
      { intros K. apply (free_psv T ty fs) in K; auto. apply smem_In in K. rewrite K in Ec1. discriminate. }
      destruct (index_dot v).
      + do 2 eexists. split; [reflexivity|]. split; [right; split; [reflexivity|lia]|]. intros K. now apply NF in K.
      + do 2 eexists. split; [reflexivity|]. split; [|intros K; now apply NF in K]. destruct Fo as [Fo|[Fo _]]; auto.
        right. split; auto. lia.
    - do 2 eexists. split; [reflexivity|]. split; auto. }
  destruct C as (just & n & -> & J & Jf).
  destruct (just_ok v (h_width h) just n J) as (s & w' & d' & E & _ & D').
  { intros NL. apply P. destruct (free_column T ty (h_name h)); auto. exfalso. apply NL. auto. }
  rewrite E. cbn [rbind]. eexists. split; [reflexivity|]. cbn [h_id h_name h_seen h_fmt h_dpos]. repeat split; auto.
  unfold fmt_ok. cbn [h_fmt h_dpos]. destruct J as [J|[J _]]; auto.
Qed.


Lemma see_field_ok T ty al fs g ks k v : dget ty (psvFormat T) = Some fs -> good T ty al fs g ks -> In k al ->
  (free_column T ty k = false -> (points v <= 1)%nat) ->
  exists g', see_field (k, v) g = Ok g' /\ good T ty al fs g' (k :: ks) /\ x_data g' = x_data g.
Proof.
  intros Ef G I P. destruct (G2 _ _ _ _ _ _ G k I) as (h & Ih & <- & Ed). unfold see_field. rewrite Ed.
  rewrite (get_item_In _ _ (G1 _ _ _ _ _ _ G) Ih). rewrite (G7 _ _ _ _ _ _ G).
  destruct (see_item_ok T ty fs h v (dget (h_name h) (x_dict g) = Some (h_id h)) Ef (G4 _ _ _ _ _ _ G h Ih)) as (h' & E & E1 & E2 & E3 & E4 & E5); auto.
  { intros D F. exact (G5 _ _ _ _ _ _ G h Ih D F). }
  rewrite E. cbn [rbind]. eexists. split; [reflexivity|]. split; [|reflexivity].
  assert (Hn : forall x, In x (x_info g) -> h_id x = h_id h -> x = h).
  { intros x Ix Ex. pose proof (get_item_In _ _ (G1 _ _ _ _ _ _ G) Ix) as A. rewrite Ex, (get_item_In _ _ (G1 _ _ _ _ _ _ G) Ih) in A. congruence. }
  constructor; cbn [x_info x_dict x_psv].
  - rewrite set_item_ids. apply G.
  - intros k Ik. destruct (G2 _ _ _ _ _ _ G k Ik) as (x & Ix & <- & Ex).
    destruct (Nat.eq_dec (h_id x) (h_id h)) as [Q|Q].
    + rewrite (Hn x Ix Q) in *. exists h'. split; [|rewrite E1; auto]. apply set_item_In. left. split; eauto.
    + exists x. split; auto. apply set_item_In. right. rewrite E1. auto.
  - intros x Ix Sx. apply set_item_In in Ix as [[-> _]|[Ix Nx]].
    + rewrite E1, E2. split; auto. now left.
    + destruct (G3 _ _ _ _ _ _ G x Ix Sx). split; auto. now right.
  - intros k [<-|Ik].
    + exists h'. split; auto. apply set_item_In. left. split; eauto.
    + destruct (G3' _ _ _ _ _ _ G k Ik) as (x & Ix & <- & Sx). destruct (Nat.eq_dec (h_id x) (h_id h)) as [Q|Q].
      * rewrite (Hn x Ix Q) in *. exists h'. split; auto. apply set_item_In. left. split; eauto.
      * exists x. split; auto. apply set_item_In. right. rewrite E1. auto.
  - intros x Ix. apply set_item_In in Ix as [[-> _]|[Ix Nx]]; auto. now apply (G4 _ _ _ _ _ _ G).
  - intros x Ix Dx Fx. apply set_item_In in Ix as [[-> _]|[Ix Nx]].
    + rewrite E2 in Fx. auto.
    + now apply (G5 _ _ _ _ _ _ G).
  - intros N. destruct (G6 _ _ _ _ _ _ G N) as (l & x & El & En & Ex). rewrite El in *. unfold set_item. rewrite map_app. cbn [map].
    destruct (Nat.eqb (h_id x) (h_id h')) eqn:Q.
    + eexists. exists h'. split; [reflexivity|]. apply Nat.eqb_eq in Q. rewrite E2, <- En.
      assert (x = h) as ->; [|rewrite E1; auto]. apply Hn; [|congruence]. apply in_or_app. right. now left.
    + eexists. exists x. split; [reflexivity|auto].
  - reflexivity.
Qed.

Lemma see_fields_ok T ty al fs : dget ty (psvFormat T) = Some fs -> forall kvs g ks, good T ty al fs g ks ->
  (forall k v, In (k, v) kvs -> In k al /\ (free_column T ty k = false -> (points v <= 1)%nat)) ->
  exists g', see_fields kvs g = Ok g' /\ good T ty al fs g' (rev (map fst kvs) ++ ks) /\ x_data g' = x_data g.
Proof.
  intros Ef. induction kvs as [|[k v] kvs IH]; intros g ks G H.
  - exists g. auto.
  - destruct (H k v) as [I P]; [now left|].
    destruct (see_field_ok T ty al fs g ks k v Ef G I P) as (g1 & E1 & Gd1 & D1).
    destruct (IH g1 (k :: ks) Gd1) as (g2 & E2 & Gd2 & D2).
    { intros k' v' I'. apply H. now right. }
    exists g2. cbn [see_fields]. rewrite E1. cbn [rbind]. split; [exact E2|]. split; [|congruence].
    cbn [map fst rev]. rewrite <- app_assoc. exact Gd2.
Qed.

(** * the header of a new section *)
Lemma items_from_name i fs : map h_name (items_from i fs) = map p_name fs.
Proof. revert i. induction fs as [|j fs IH]; intros i; [reflexivity|]. cbn. now rewrite IH. Qed.
Lemma items_from_id i fs : map h_id (items_from i fs) = seq i (length fs).
Proof. revert i. induction fs as [|j fs IH]; intros i; [reflexivity|]. cbn. now rewrite IH. Qed.
Lemma items_from_In i fs h : In h (items_from i fs) -> exists j n, In j fs /\ h = header_item n j.
Proof.
  revert i. induction fs as [|j fs IH]; intros i I; [destruct I|]. destruct I as [<-|I].
  - exists j, i. split; [now left|reflexivity].
  - destruct (IH _ I) as (j' & n & I' & E). exists j', n. split; [now right|auto].
Qed.
Lemma dict_of_get l k : dget k (dict_of l) = option_map h_id (find (fun h => streqb (h_name h) k) (rev l)).
Proof.
  unfold dict_of. assert (G : forall l d, dget k (fold_left (fun d h => dset (h_name h) (h_id h) d) l d) =
    match find (fun h => streqb (h_name h) k) (rev l) with Some h => Some (h_id h) | None => dget k d end).
  { clear. induction l as [|h l IH]; intros d; [reflexivity|]. cbn [fold_left rev]. rewrite IH, find_app.
    destruct (find _ (rev l)); auto. cbn [find]. destruct (streqb (h_name h) k) eqn:E.
    - apply streqb_eq in E. subst. apply dget_dset_eq.
    - apply dget_dset_ne. intros ->. rewrite streqb_refl in E. discriminate. }
  rewrite G. now destruct (find _ (rev l)).
Qed.
Lemma insert_last_In {A} (x : A) l y : In y (insert_last x l) <-> y = x \/ In y l.
Proof.
  induction l as [|z l IH]; [cbn; intuition|]. destruct l as [|w l]; [cbn; intuition|].
  change (insert_last x (z :: w :: l)) with (z :: insert_last x (w :: l)).
  split.
  - intros [->|I]; [right; now left|]. apply IH in I as [->|I]; auto. right. now right.
  - intros [->|[->|I]]; [right; apply IH; auto|now left|right; apply IH; auto].
Qed.
Lemma insert_last_map {A B} (f : A -> B) x l : map f (insert_last x l) = insert_last (f x) (map f l).
Proof. induction l as [|z l IH]; [reflexivity|]. destruct l as [|w l]; [reflexivity|]. cbn in *. now rewrite IH. Qed.
Lemma insert_last_app {A} (x : A) l y : insert_last x (l ++ [y]) = l ++ [x; y].
Proof. induction l as [|z l IH]; [reflexivity|]. cbn [app]. destruct (l ++ [y]) eqn:E; [destruct l; discriminate|]. cbn in *. now rewrite IH. Qed.
Lemma insert_last_nodup {A} (x : A) l : ~ In x l -> NoDup l -> NoDup (insert_last x l).
Proof.
  intros NI N. induction N as [|z l NZ N IH]; [repeat constructor; auto|]. destruct l as [|w l].
  - cbn. constructor; [|repeat constructor; auto]. intros [->|[]]. apply NI. now left.
  - change (insert_last x (z :: w :: l)) with (z :: insert_last x (w :: l)). constructor.
    + intros I. apply insert_last_In in I as [->|I]; [apply NI; now left|auto].
    + apply IH. intros I. apply NI. now right.
Qed.

(** the state while the allowed elements are added; [done] are those added *)
Record building (T : tables) (ty : str) (fs : list psvitem) (g : xglob) (done : list str) : Prop := {
  B1 : NoDup (map h_id (x_info g));
  B1' : forall h, In h (x_info g) -> (h_id h < x_next g)%nat;
  B2 : forall k, In k (map p_name fs) \/ In k done -> exists h, In h (x_info g) /\ h_name h = k /\ dget k (x_dict g) = Some (h_id h);
  B3 : forall h, In h (x_info g) -> h_seen h = false;
  B4 : forall h, In h (x_info g) -> fmt_ok h;
  B5 : forall h, In h (x_info g) -> dget (h_name h) (x_dict g) = Some (h_id h) -> free_column T ty (h_name h) = true -> lrc (h_fmt h);
  B6 : fs <> [] -> exists l h, x_info g = l ++ [h] /\ h_name h = last_column T ty /\ dget (h_name h) (x_dict g) = Some (h_id h);
  B7 : x_psv g = map p_name fs }.

Lemma add_ok T ty fs g done k : dget ty (psvFormat T) = Some fs -> building T ty fs g done -> building T ty fs (add_allowed k g) (k :: done).
Proof.
  intros Ef B. unfold add_allowed. rewrite (B7 _ _ _ _ _ B). destruct (smem k (map p_name fs)) eqn:S.
  - apply smem_In in S. destruct B as [b1 b1' b2 b3 b4 b5 b6 b7]. constructor; auto. intros k' [H|[<-|H]]; auto.
  - assert (S' : ~ In k (map p_name fs)) by (intros I; apply smem_In in I; congruence). clear S.
    constructor; cbn [x_info x_dict x_psv x_next].
    + rewrite insert_last_map. cbn [h_id]. apply insert_last_nodup; [|apply B]. intros I. apply in_map_iff in I as (h & E & I).
      apply (B1' _ _ _ _ _ B) in I. lia.
    + intros h I. apply insert_last_In in I as [->|I]; cbn [h_id]; [lia|]. apply (B1' _ _ _ _ _ B) in I. lia.
    + intros k' H. destruct (list_eq_dec ascii_dec k' k) as [->|N].
      * eexists. split; [apply insert_last_In; left; reflexivity|]. split; [reflexivity|]. cbn [h_id]. apply dget_dset_eq.
      * destruct (B2 _ _ _ _ _ B k') as (h & I & E & D).
        { destruct H as [H|[->|H]]; auto. congruence. }
        exists h. split; [apply insert_last_In; auto|]. split; auto. now rewrite dget_dset_ne.
    + intros h I. apply insert_last_In in I as [->|I]; auto. now apply (B3 _ _ _ _ _ B).
    + intros h I. apply insert_last_In in I as [->|I]; [|now apply (B4 _ _ _ _ _ B)]. left. right. now left.
    + intros h I D F. apply insert_last_In in I as [->|I]; [right; now left|].
      destruct (list_eq_dec ascii_dec (h_name h) k) as [E|N].
      * exfalso. apply S'. rewrite <- E. eapply free_psv; eauto.
      * rewrite dget_dset_ne in D by auto. now apply (B5 _ _ _ _ _ B).
    + intros N. destruct (B6 _ _ _ _ _ B N) as (l & h & E & En & Ed). rewrite E. exists (l ++ [{| h_id := x_next g; h_name := k; h_width := zlen k; h_fmt := $"R"; h_dpos := 0; h_seen := false |}]), h.
      split; [rewrite insert_last_app; now rewrite <- app_assoc|]. split; auto. rewrite dget_dset_ne; auto. intros K. apply S'. rewrite <- K, En.
      unfold last_column. rewrite Ef. destruct (exists_last N) as (l' & j & ->). rewrite rev_app_distr, map_app. cbn. apply in_or_app. right. now left.
    + reflexivity.
Qed.
Lemma add_all T ty fs al : dget ty (psvFormat T) = Some fs -> forall g done, building T ty fs g done ->
  building T ty fs (fold_left (fun g j => add_allowed j g) al g) (rev al ++ done).
Proof.
  intros Ef. induction al as [|k al IH]; intros g done B; [exact B|]. cbn [fold_left rev]. rewrite <- app_assoc. apply IH. now apply add_ok.
Qed.

Lemma header_started T ty fs al g : dget ty (psvFormat T) = Some fs -> dget ty (allowed T) = Some al ->
  Forall (fun j => In (p_just j) [$"L"; $"R"; $"C"] \/ p_just j = $"D" /\ 0 <= p_dpos j) fs ->
  exists g', new_header T ty g = Ok g' /\ good T ty al fs g' [] /\ x_data g' = [].
Proof.
  intros Ef Ea F. unfold new_header. rewrite Ef, Ea. eexists. split; [reflexivity|]. split; [|reflexivity].
  set (g1 := {| x_info := items_from (x_next g) fs; x_dict := _; x_psv := _; x_data := _; x_next := _ |}).
  assert (B : building T ty fs g1 []).
  { constructor; cbn [x_info x_dict x_psv x_next g1].
    - rewrite items_from_id. apply seq_NoDup.
    - intros h I. apply (in_map h_id) in I. rewrite items_from_id in I. apply in_seq in I. lia.
    - intros k [I|[]]. rewrite dict_of_get. rewrite <- (items_from_name (x_next g)) in I.
      apply in_map_iff in I as (h & E & I). destruct (find (fun h => streqb (h_name h) k) (rev (items_from (x_next g) fs))) as [h'|] eqn:Fi.
      + apply find_some in Fi as [I' E']. apply in_rev in I'. apply streqb_eq in E'. exists h'. auto.
      + exfalso. assert (Q : streqb (h_name h) k = false) by (apply (find_none _ _ Fi); now apply -> in_rev). rewrite E, streqb_refl in Q. discriminate.
    - intros h I. apply items_from_In in I as (j & n & _ & ->). reflexivity.
    - intros h I. apply items_from_In in I as (j & n & I & ->). rewrite Forall_forall in F. apply F in I. exact I.
    - intros h I D Fr. rewrite dict_of_get in D.
      destruct (find (fun h0 => streqb (h_name h0) (h_name h)) (rev (items_from (x_next g) fs))) as [h'|] eqn:Fi; [|discriminate].
      assert (h' = h) as ->.
      { apply find_some in Fi as [I' _]. apply in_rev in I'. cbn in D. assert (Ei : h_id h' = h_id h) by congruence.
        assert (N : NoDup (map h_id (items_from (x_next g) fs))) by (rewrite items_from_id; apply seq_NoDup).
        pose proof (get_item_In _ _ N I) as A. pose proof (get_item_In _ _ N I') as A'. rewrite Ei in A'. congruence. }
      unfold free_column in Fr. rewrite Ef in Fr. clear -Fi Fr.
      assert (Gf : forall l i k, match find (fun h => streqb (h_name h) k) (rev (items_from i l)), find (fun j => streqb (p_name j) k) (rev l) with
                               | Some h, Some j => h_fmt h = p_just j | None, None => True | _, _ => False end).
      { clear. induction l as [|j l IH]; intros i k; [exact I|]. cbn [items_from rev]. rewrite !find_app. specialize (IH (S i) k).
        destruct (find _ (rev (items_from (S i) l))), (find _ (rev l)); try contradiction; auto.
        cbn. destruct (streqb (p_name j) k); auto. }
      specialize (Gf fs (x_next g) (h_name h)). rewrite Fi in Gf. destruct (find _ (rev fs)) as [j|]; [|discriminate].
      rewrite Gf. unfold lrc. apply smem_In in Fr. exact Fr.
    - intros N. destruct (exists_last N) as (l & j & ->). unfold last_column. rewrite Ef, rev_app_distr. cbn [rev app].
      assert (Es : items_from (x_next g) (l ++ [j]) = items_from (x_next g) l ++ [header_item (x_next g + length l) j]).
      2: { exists (items_from (x_next g) l), (header_item (x_next g + length l) j). split; auto. split; [reflexivity|].
           rewrite dict_of_get, Es, rev_app_distr. cbn [rev app find]. now rewrite streqb_refl. }
      generalize (x_next g). clear. induction l as [|y l IH]; intros n; cbn [app items_from length].
      + now rewrite Nat.add_0_r.
      + rewrite IH. replace (n + S (length l))%nat with (S n + length l)%nat by lia. reflexivity.
    - reflexivity. }
  apply (add_all T ty fs al Ef) in B. set (g2 := fold_left _ al g1) in *. 
  destruct B as [b1 b1' b2 b3 b4 b5 b6 b7]. constructor; cbn [x_info x_dict x_psv]; auto.
  - intros k I. apply b2. right. apply in_or_app. left. now apply -> in_rev.
  - intros h I S. rewrite b3 in S by auto. discriminate.
  - intros k [].
Qed.
