From Verif Require Import JsonSpec PyStrProofs XmlProofs TablesProofs JsonProofs1 JsonProofs2.
From Verif Require Import Json JsonSpec.
From Coq Require Import Permutation.
Local Open Scope nat_scope.

Section E.
Variable repr : json -> str.
Notation emit1 := (emit1 repr).

Fixpoint each (d : nat) (k : str) (m : list json) : res (list xnode) :=
  match m with
  | [] => Ok []
  | u :: m' => do h <- emit1 d k u; do r <- each d k m'; Ok (h ++ r)
  end.
Definition here (d : nat) (k : str) (w : json) : res (list xnode) :=
  match w with JList vs => each d k vs | _ => emit1 d k w end.
Fixpoint children (d : nat) (l : list (str * json)) : res (list xnode) :=
  match l with
  | [] => Ok []
  | (k, w) :: l' => do h <- (if is_child k then here d k w else Ok []); do r <- children d l'; Ok (h ++ r)
  end.
Definition wrap (d : nat) (key : str) (a : list (str * str)) (inner : list xnode) (some : bool) (cdata : list xnode) : list xnode :=
  [NText (tabs d); NElem key a (if some then NText [nl] :: inner ++ cdata ++ [NText (tabs d)] else cdata)] ++
  (match d with O => [] | _ => [NText [nl]] end).

Lemma emit_obj d key o : emit1 d key (JObj o) =
  (do inner <- children (S d) o;
   do cdata <- (match dget $"#text" o with Some w => characters w | None => Ok [] end);
   Ok (wrap d key (fold_left (attr_of repr) o []) inner (existsb (fun kv => is_child (fst kv)) o) cdata)).
Proof.
  cbn [Json.emit1]. match goal with |- rbind ?a _ = rbind ?b _ => assert (H : a = b) end.
  { induction o as [|[k w] o IH]; [reflexivity|]. cbn [children]. rewrite <- IH. f_equal.
    destruct (is_child k); [|reflexivity]. destruct w; try reflexivity. unfold here.
    induction l as [|u l IHl]; [reflexivity|]. cbn [each]. rewrite <- IHl. reflexivity. }
  rewrite H. reflexivity.
Qed.

Lemma children_app d a b : children d (a ++ b) = (do x <- children d a; do y <- children d b; Ok (x ++ y)).
Proof.
  induction a as [|[k w] a IH]; cbn [app children rbind]; [destruct (children d b); reflexivity|].
  destruct (if is_child k then here d k w else Ok []) as [h|]; cbn [rbind]; [|reflexivity].
  rewrite IH. destruct (children d a) as [x|]; cbn [rbind]; [|reflexivity].
  destruct (children d b) as [y|]; cbn [rbind]; [|reflexivity]. now rewrite app_assoc.
Qed.

(** what is relevant of a list of nodes *)
Definition elems (l : list xnode) : list xml := flat_map (fun k => match k with NElem _ _ _ => [meaning k] | _ => [] end) l.
Definition airy (l : list xnode) : Prop := forallb pyspace (chars l) = true.
Lemma elems_app a b : elems (a ++ b) = elems a ++ elems b. Proof. unfold elems. apply flat_map_app. Qed.
Lemma chars_app a b : chars (a ++ b) = chars a ++ chars b.
Proof. unfold chars. now rewrite map_app, concat_app. Qed.
Lemma airy_app a b : airy a -> airy b -> airy (a ++ b).
Proof. unfold airy. rewrite chars_app, forallb_app. now intros -> ->. Qed.
Lemma tabs_space d : forallb pyspace (tabs d) = true.
Proof. induction d; [reflexivity|]. exact IHd. Qed.
Lemma airy_wrap d key a inner some cdata : airy (wrap d key a inner some cdata).
Proof.
  unfold airy, wrap, chars. destruct d; [reflexivity|]. rewrite map_app, concat_app, forallb_app.
  cbn [map concat app]. rewrite app_nil_r, tabs_space. reflexivity.
Qed.
Lemma elems_wrap d key a inner some cdata :
  elems (wrap d key a inner some cdata) =
  [meaning (NElem key a (if some then NText [nl] :: inner ++ cdata ++ [NText (tabs d)] else cdata))].
Proof. unfold wrap, elems. now destruct d. Qed.

Lemma strip_around a s b : forallb pyspace a = true -> forallb pyspace b = true -> strip s = s -> strip (a ++ s ++ b) = s.
Proof.
  intros A B S. apply strip_pad; [exact A|exact B|]. rewrite <- S. apply strip_is_trimmed.
Qed.
Lemma line_ends_id s : ~ In (Ascii.ascii_of_N 13) s -> line_ends s = s.
Proof.
  induction s as [|c s IH]; [reflexivity|]. intros H. cbn [line_ends].
  destruct (code c =? 13)%N eqn:E.
  - apply N.eqb_eq in E. exfalso. apply H. left. rewrite <- (ascii_N_embedding c). unfold code in E. now rewrite E.
  - rewrite IH; [reflexivity|]. intros I. apply H. now right.
Qed.

(** ** attributes *)
Lemma attr_child k v acc : is_child k = true -> attr_of repr acc (k, v) = acc.
Proof.
  unfold is_child, attr_of. destruct k as [|c k]; [reflexivity|]. destruct (ceqb c "@"); [|reflexivity].
  rewrite andb_false_r. discriminate.
Qed.
Lemma attrs_back a acc : NoDup (map fst (acc ++ a)) -> fold_left (attr_of repr) (attributes a) acc = acc ++ a.
Proof.
  revert acc. induction a as [|[k v] a IH]; intros acc N; cbn [attributes map fold_left fst snd].
  - now rewrite app_nil_r.
  - unfold attr_of at 2. change (ceqb "@" "@") with true. cbv iota. cbn [py_str].
    assert (dset k v acc = acc ++ [(k, v)]) as ->.
    { rewrite map_app in N. cbn [map fst] in N. apply NoDup_remove_2 in N.
      assert (K : ~ In k (map fst acc)) by (intros H; apply N, in_or_app; now left). clear -K.
      induction acc as [|[k' w] acc IH]; [reflexivity|]. cbn [map fst In dset app] in *.
      destruct (streqb k k') eqn:E; [apply streqb_eq in E; subst; tauto|]. rewrite IH; [reflexivity|tauto]. }
    fold (attributes a). rewrite IH; rewrite <- app_assoc; [reflexivity|exact N].
Qed.
Lemma name_is_child k : name_like k -> is_child k = true.
Proof.
  intros (c & t & -> & H1 & H2). unfold is_child. change $"#text" with ("#"%char :: $"text"). cbn [streqb].
  destruct (ceqb c "#") eqn:E; [apply Ascii.eqb_eq in E; congruence|].
  destruct (ceqb c "@") eqn:E'; [apply Ascii.eqb_eq in E'; congruence|]. reflexivity.
Qed.
Lemma attrs_skip l acc : Forall (fun kv => is_child (fst kv) = true) l -> fold_left (attr_of repr) l acc = acc.
Proof.
  revert acc. induction l as [|[k v] l IH]; intros acc F; [reflexivity|]. apply Forall_cons_iff in F as [F1 F2].
  cbn [fold_left]. rewrite attr_child by exact F1. now apply IH.
Qed.
Lemma children_attrs d a : children d (attributes a) = Ok [].
Proof.
  induction a as [|[k v] a IH]; [reflexivity|]. cbn [attributes map children fst snd].
  unfold is_child. change (streqb ("@"%char :: k) $"#text") with false. change (ceqb "@" "@") with true. cbn [negb andb rbind].
  fold (attributes a). rewrite IH. reflexivity.
Qed.
Lemma exists_attrs a : existsb (fun kv => is_child (fst kv)) (attributes a) = false.
Proof. induction a as [|[k v] a IH]; [reflexivity|]. cbn [attributes map existsb fst]. exact IH. Qed.
Lemma text_attrs a : dget $"#text" (attributes a) = None.
Proof. induction a as [|[k v] a IH]; [reflexivity|]. exact IH. Qed.

Lemma here_pack d k vs : vs <> [] -> Forall nolist vs -> here d k (pack vs) = each d k vs.
Proof.
  intros N F. destruct vs as [|v [|w vs]]; [congruence| |reflexivity]. cbn [pack each].
  apply Forall_inv in F. unfold here. destruct v; cbn [nolist] in F; try contradiction;
    destruct (emit1 d k _); cbn [rbind]; rewrite ?app_nil_r; reflexivity.
Qed.

(** ** an element *)
Definition shows (d : nat) (k : str) (v : json) (m : xml) : Prop :=
  exists y, emit1 d k v = Ok ([NText (tabs d); y] ++ match d with O => [] | _ => [NText [nl]] end) /\ is_element y /\ meaning y = m.
Lemma shows_airy d k v m : shows d k v m -> exists l, emit1 d k v = Ok l /\ airy l /\ elems l = [m].
Proof.
  intros (y & E & (t & a & ks & ->) & M). eexists. split; [exact E|]. split.
  - unfold airy, chars. destruct d; [reflexivity|]. cbn [map concat app]. rewrite forallb_app, tabs_space. reflexivity.
  - unfold elems. destruct d; cbn [flat_map app]; now rewrite M.
Qed.
Lemma each_shows d k ks : Forall (fun m => shows d k (vx m) (grouped m)) ks ->
  exists l, each d k (map vx ks) = Ok l /\ airy l /\ elems l = map grouped ks.
Proof.
  induction ks as [|m ks IH]; intros F.
  - exists []. split; [reflexivity|]. split; reflexivity.
  - apply Forall_cons_iff in F as [F1 F2]. apply shows_airy in F1 as (l1 & E1 & A1 & M1).
    destruct (IH F2) as (l2 & E2 & A2 & M2). exists (l1 ++ l2). cbn [map each]. rewrite E1. cbn [rbind]. rewrite E2.
    cbn [rbind]. split; [reflexivity|]. split; [now apply airy_app|]. rewrite elems_app, M1, M2. reflexivity.
Qed.

Lemma vals_vx n ks : vals n (map (fun k => (xtag k, vx k)) ks) = map vx (sel xtag n ks).
Proof.
  change (vals n (map (fun k => (xtag k, vx k)) ks)) with (map snd (sel fst n (map (fun k => (xtag k, vx k)) ks))).
  rewrite (sel_map (fun k => (xtag k, vx k)) xtag fst) by reflexivity. rewrite map_map. reflexivity.
Qed.
Lemma children_G d ks : Forall fine ks -> Forall (fun m => shows d (xtag m) (vx m) (grouped m)) ks ->
  exists l, children d (G (map (fun k => (xtag k, vx k)) ks)) = Ok l /\ airy l /\ elems l = gather (map grouped ks).
Proof.
  intros Fi Sh. rewrite gather_gat, (gat_map grouped xtag xtag) by apply grouped_tag. unfold G, gat.
  rewrite map_map. cbn [fst].
  assert (In_ok : forall n, In n (firsts (map xtag ks)) -> In n (map xtag ks)) by (intros n; apply firsts_in).
  rewrite (map_ext (fun k => fst (xtag k, vx k)) xtag) by reflexivity.
  induction (firsts (map xtag ks)) as [|n F IH].
  - exists []. repeat split.
  - destruct IH as (l2 & E2 & A2 & M2); [intros m I; apply In_ok; now right|].
    cbn [map children fst snd].
    assert (N : In n (map xtag ks)) by (apply In_ok; now left).
    assert (is_child n = true) as ->.
    { apply name_is_child. apply in_map_iff in N as (k & <- & I). rewrite Forall_forall in Fi. specialize (Fi k I). now destruct Fi. }
    rewrite here_pack.
    + rewrite vals_vx.
      destruct (each_shows d n (sel xtag n ks)) as (l1 & E1 & A1 & M1).
      { apply Forall_forall. intros k I. unfold sel in I. apply filter_In in I as [I E]. apply streqb_eq in E. subst n.
        rewrite Forall_forall in Sh. now apply Sh. }
      rewrite E1. cbn [rbind]. rewrite E2. cbn [rbind]. exists (l1 ++ l2). split; [reflexivity|].
      split; [now apply airy_app|]. rewrite elems_app, M1, M2. cbn [flat_map]. now rewrite map_app.
    + rewrite vals_vx. destruct (sel_some xtag n ks N) as (c & L). destruct (sel xtag n ks); [discriminate L|discriminate].
    + apply vals_nolist, Forall_map, Forall_forall. intros k _. apply vx_nolist.
Qed.

Lemma G_names ks : Forall fine ks -> Forall (fun kv => is_child (fst kv) = true) (G (map (fun k => (xtag k, vx k)) ks)).
Proof.
  intros F. unfold G. apply Forall_map, Forall_forall. intros n I. cbn [fst]. apply (proj1 (firsts_in _ _)) in I.
  rewrite map_map in I. apply in_map_iff in I as (k & <- & I). rewrite Forall_forall in F. specialize (F k I).
  destruct F. now apply name_is_child.
Qed.
Lemma G_text ks : Forall fine ks -> dget $"#text" (G (map (fun k => (xtag k, vx k)) ks)) = None.
Proof.
  intros F. apply G_names in F. induction F as [|[k v] l H F IH]; [reflexivity|]. cbn [dget fst] in *.
  destruct (streqb $"#text" k) eqn:E; [|exact IH]. apply streqb_eq in E. subst k. discriminate H.
Qed.
Lemma G_nil ks : G (map (fun k => (xtag k, vx k)) ks) = [] -> ks = [].
Proof. destruct ks; [reflexivity|]. unfold G. cbn [map firsts fst]. discriminate. Qed.
Lemma G_some ks : Forall fine ks -> existsb (fun kv => is_child (fst kv)) (G (map (fun k => (xtag k, vx k)) ks)) = match ks with [] => false | _ => true end.
Proof.
  intros F. pose proof (G_names ks F) as N. destruct (G _) as [|kv l] eqn:E.
  - apply G_nil in E. now subst.
  - destruct ks; [discriminate E|]. cbn [existsb]. apply Forall_inv in N. now rewrite N.
Qed.

Lemma emitted m : fine m -> forall d, shows d (xtag m) (vx m) (grouped m).
Proof.
  induction m as [t a s ks IH] using xml_ind'; intros F d. inversion F as [? ? ? ? N D S C K]; subst.
  rewrite vx_fine by exact K. cbn [xtag]. unfold finish. rewrite S.
  set (A := attributes a). set (g := G (map (fun k => (xtag k, vx k)) ks)).
  assert (Sh : Forall (fun m => shows (Datatypes.S d) (xtag m) (vx m) (grouped m)) ks).
  { rewrite Forall_forall in *. intros k I. apply IH; [exact I|now apply K]. }
  destruct (children_G (Datatypes.S d) ks K Sh) as (inner & E & Ai & M). fold g in E.
  assert (TX : characters (JStr s) = Ok (match s with [] => [] | _ => [NText s] end)).
  { cbn [characters]. destruct s; [reflexivity|]. now rewrite line_ends_id. }
  assert (OBJ : forall extra, extra = match s with [] => [] | _ => [($"#text", JStr s)] end -> shows d t (JObj (A ++ g ++ extra)) (grouped (Elem t a s ks))).
  { intros extra X. unfold shows. rewrite emit_obj, children_app. unfold A at 1. rewrite children_attrs. cbn [rbind].
    rewrite children_app, E. cbn [rbind].
    assert (children (Datatypes.S d) extra = Ok []) as -> by (subst extra; now destruct s). cbn [rbind]. rewrite app_nil_r. cbn [app].
    rewrite dget_app. unfold A at 1. rewrite text_attrs. rewrite dget_app. unfold g at 1. rewrite G_text by exact K.
    assert ((match dget $"#text" extra with Some w => characters w | None => Ok [] end) = Ok (match s with [] => [] | _ => [NText s] end)) as ->.
    { subst extra. destruct s; [reflexivity|]. cbn [dget]. rewrite seq_refl. exact TX. }
    cbn [rbind]. rewrite !existsb_app. unfold A at 2. rewrite exists_attrs. unfold g at 2. rewrite G_some by exact K.
    assert (existsb (fun kv => is_child (fst kv)) extra = false) as -> by (subst extra; now destruct s).
    assert (fold_left (attr_of repr) (A ++ g ++ extra) [] = a) as ->.
    { rewrite !fold_left_app. unfold A. rewrite attrs_back by exact D. cbn [app]. unfold g. rewrite (attrs_skip (G _)) by now apply G_names.
      subst extra. now destruct s. }
    eexists. split; [reflexivity|]. split; [repeat eexists|]. rewrite orb_false_l, orb_false_r.
    cbn [grouped]. destruct ks as [|k0 ks0].
    - cbn [meaning map]. destruct s; cbn [chars map concat flat_map]; [reflexivity|]. unfold chars. cbn [map concat app].
      rewrite app_nil_r, S. reflexivity.
    - cbn [meaning]. f_equal.
      + change (chars (NText [nl] :: inner ++ (match s with [] => [] | _ => [NText s] end) ++ [NText (tabs d)]))
          with ([nl] ++ chars (inner ++ (match s with [] => [] | _ => [NText s] end) ++ [NText (tabs d)])).
        rewrite !chars_app.
        assert (chars (match s with [] => [] | _ => [NText s] end) = s) as -> by (destruct s; [reflexivity|]; unfold chars; cbn [map concat]; apply app_nil_r).
        assert (chars [NText (tabs d)] = tabs d) as -> by (unfold chars; cbn [map concat]; apply app_nil_r).
        rewrite app_assoc. apply strip_around; [|apply tabs_space|exact S]. rewrite forallb_app. rewrite Ai. reflexivity.
      + change (elems (NText [nl] :: inner ++ (match s with [] => [] | _ => [NText s] end) ++ [NText (tabs d)]) = gather (map grouped (k0 :: ks0))).
        change (elems (NText [nl] :: ?x)) with (elems x). rewrite !elems_app, M. destruct s; cbn [elems flat_map app]; apply app_nil_r. }
  destruct (A ++ g) as [|kv o] eqn:Z.
  - apply app_eq_nil in Z as [Z1 Z2]. unfold g in Z2. apply G_nil in Z2. subst ks.
    assert (a = []) as -> by (unfold A in Z1; destruct a; [reflexivity|discriminate Z1]). destruct s as [|c s].
    + eexists. split; [reflexivity|]. split; [repeat eexists|reflexivity].
    + unfold shows. cbn [emit1]. rewrite TX. cbn [rbind]. eexists. split; [reflexivity|]. split; [repeat eexists|].
      cbn [meaning grouped map]. unfold chars. cbn [map concat flat_map]. rewrite app_nil_r, S. reflexivity.
  - assert (P : forall t0, push (kv :: o) $"#text" (JStr t0) = kv :: o ++ [($"#text", JStr t0)]).
    { intros t0. rewrite <- Z. unfold push. rewrite dget_app. unfold A at 1. rewrite text_attrs. unfold g at 1. rewrite G_text by exact K.
      rewrite Z. reflexivity. }
    destruct s as [|c s].
    + rewrite <- Z. specialize (OBJ [] eq_refl). now rewrite app_nil_r in OBJ.
    + rewrite P. specialize (OBJ _ eq_refl). rewrite app_assoc, Z in OBJ. exact OBJ.
Qed.
End E.

Lemma round repr x : is_element x -> well_formed x ->
  exists y, jsontoxml repr (xmltojson x) = Ok (Some y) /\ is_element y /\ meaning y = grouped (meaning x).
Proof.
  intros E W. pose proof (fine_meaning x E W) as F. pose proof (value_meaning x E) as V.
  destruct E as (t & a & ks & ->). unfold xmltojson. rewrite V.
  destruct (emitted repr _ F O) as (y & Em & El & M). cbn [xtag meaning] in Em.
  pose proof (vx_nolist (meaning (NElem t a ks))) as NL. exists y. split; [|now split].
  cbn [jsontoxml]. cbn [meaning] in *.
  destruct (vx _) eqn:Vx; cbn [nolist] in NL; try contradiction; rewrite Em; cbn [rbind app find]; destruct El as (? & ? & ? & ->); reflexivity.
Qed.
Lemma again repr x y : is_element x -> well_formed x -> jsontoxml repr (xmltojson x) = Ok (Some y) -> xmltojson y = xmltojson x.
Proof.
  intros E W J. destruct (round repr x E W) as (y' & J' & El & M). rewrite J in J'.
  assert (y = y') by congruence. subst y'. pose proof (fine_meaning x E W) as F.
  pose proof (value_meaning y El) as V. rewrite M, (vx_grouped _ F) in V. rewrite <- (value_meaning x E) in V.
  assert (T : xtag (meaning y) = xtag (meaning x)) by (rewrite M; apply grouped_tag).
  destruct El as (t & a & ks & ->), E as (t' & a' & ks' & ->). unfold xmltojson. cbn [xtag meaning] in T. now rewrite V, T.
Qed.

Lemma grouped_named x n : named n (xkids (grouped x)) = map grouped (named n (xkids x)).
Proof.
  destruct x as [t a s ks]. cbn [grouped xkids]. rewrite gather_gat. etransitivity; [exact (sel_gat xtag n _)|].
  apply (sel_map grouped xtag xtag). apply grouped_tag.
Qed.
Lemma grouped_entries x : forall p, Permutation (entries p (grouped x)) (entries p x).
Proof.
  induction x as [t a s ks IH] using xml_ind'; intros p. cbn [grouped entries]. constructor. rewrite gather_gat.
  transitivity (flat_map (entries (p ++ [t])) (map grouped ks)); [apply Permutation_flat_map, gat_perm|].
  induction IH as [|k ks H _ IH']; [constructor|]. cbn [map flat_map]. apply Permutation_app; [apply H|exact IH'].
Qed.
Lemma tidy_grouped x : tidy x -> grouped x = x.
Proof.
  induction x as [t a s ks IH] using xml_ind'; intros T. inversion T as [? ? ? ? T1 T2]; subst. cbn [grouped].
  f_equal. assert (map grouped ks = ks) as ->.
  { clear T1 T. induction ks as [|k ks IHk]; [reflexivity|]. apply Forall_cons_iff in IH as [I1 I2]. apply Forall_cons_iff in T2 as [U1 U2].
    cbn [map]. rewrite I1 by exact U1. now rewrite IHk. }
  rewrite gather_gat. now apply gat_together.
Qed.
