(** C22: XML to PSV to XML. *)
From Verif Require Import PyStrProofs Xml XmlProofs AdesTables AdesMasterTables TablesProofs JustSpec
  PsvToXml PsvSpec PsvSpec2 PsvProofs1 PsvProofs2 PsvProofs3 XmlToPsv RoundSpec RoundProofs2 RoundProofs3 RoundProofs4 RoundProofs5.

(** the four kinds of observations the format table knows can be printed *)
Theorem C22_types : Forall (printable ades_tables) [$"optical"; $"offset"; $"occultation"; $"radar"].
Proof. exact master_printable. Qed.
(** Every writable tree (RoundSpec.writable) is printed without an error and
    what is printed is read back as the same tree, in normal form: children in
    the order of the schema, texts without surrounding blanks, blank children
    and attributes of records dropped. *)
Theorem C22_round_trip : forall T t, tables_ok T -> writable T t ->
  exists content, xmltopsv T t = Ok content /\ psv_tree T content = Some (normal T t).
Proof. exact round_trip. Qed.
(** a tree in normal form comes back identical *)
Theorem C22_identity : forall T t, tables_ok T -> writable T t -> normal T t = t ->
  exists content, xmltopsv T t = Ok content /\ psv_tree T content = Some t.
Proof. intros T t HT W N. destruct (round_trip T t HT W) as (c & E & P). rewrite N in P. eauto. Qed.
(** a tree that was read from a PSV file is in normal form: printing it and
    reading it again changes nothing *)
Theorem C22_psv_again : forall T c t, tables_ok T -> psv_tree T c = Some t -> writable T t ->
  exists c', xmltopsv T t = Ok c' /\ psv_tree T c' = Some t.
Proof. intros T c t HT E W. apply C22_identity; auto. eapply psv_normal; eauto. Qed.
(** the normal form keeps every value of every record *)
Theorem C22_values : forall T ty r k, writable_record T ty r -> rec_value (normal_record T r) k = rec_value r k.
Proof. exact normal_values. Qed.

(** * A writable tree *)
Definition lf (n t : str) : xml := leaf n t.
Definition ex_opt (sub ra : str) : xml :=
  Elem $"optical" [($"x", $"y")] [nl] [lf $"dec" $" -2.25 "; lf $"trkSub" sub; lf $"mode" $"CCD"; lf $"stn" $"F51"; lf $"obsTime" $"2017-01-01T00:00:00Z";
    lf $"ra" ra; lf $"astCat" $"Gaia2"; lf $"mag" $"  "; lf $"remarks" $"# seen twice, e.g. 1.5 and 2.5"].
Definition ex_rad : xml :=
  Elem $"radar" [] [] [lf $"trx" $"251"; lf $"rcv" $"252"; lf $"obsTime" $"2017-01-01T00:00:00Z"; lf $"frq" $"2380"; lf $"delay" $"1.25"].
Definition ex_tree : xml :=
  Elem $"ades" [($"version", $"2017")] []
    [ex_opt $"abc" $"10.5";
     Elem $"obsBlock" [] []
       [Elem $"obsContext" [] [] [Elem $"observatory" [] [] [lf $"mpcCode" $" F51"]; Elem $"telescope" [] [] [lf $"aperture" $"1.8"; lf $"design" $"reflector"]];
        Elem $"obsData" [] [] [ex_opt $"abd" $"110.125"; ex_opt $"12" $"1"]];
     ex_rad; ex_rad].
Definition one_lineb (s : str) : bool := negb (existsb (fun c => ceqb c nl || ceqb c cr) s).
Lemma one_lineb_ok s : one_lineb s = true -> one_line s.
Proof.
  unfold one_lineb. rewrite negb_true_iff. intros H.
  split; intros I; (assert (existsb (fun c => ceqb c nl || ceqb c cr) s = true); [|congruence]); apply existsb_exists; eexists; split; eauto.
Qed.
Definition hashb (s : str) : bool := match s with c :: _ => ceqb c "#" || ceqb c "!" | [] => false end.
Definition recordb (T : tables) (ty : str) (r : xml) : bool :=
  let ks := map xtag (xkids r) in
  let v := rec_value r in
  let has k := negb (streqb (v k) []) in
  streqb (xtag r) ty &&
  forallb (fun k => negb (has k) || smem k (order_of T ty) && one_lineb (v k) && negb (existsb (ceqb "|") (v k)) &&
                    (streqb k (last_column T ty) || negb (hashb (v k))) &&
                    (free_column T ty k || (points (v k) <=? 1)%nat)) ks &&
  match dget ty (required T) with Some rq => forallb has rq | None => true end &&
  existsb (fun k => has k && negb (alpha1 (v k))) ks && existsb (fun k => has k && negb (streqb k (last_column T ty))) ks.
Lemma hasb v : negb (streqb v []) = true <-> v <> [].
Proof. destruct v; cbn; split; congruence. Qed.
Lemma rec_key r k : rec_value r k <> [] -> In k (map xtag (xkids r)).
Proof.
  unfold rec_value. destruct (find _ (rev (xkids r))) as [x|] eqn:E; [|congruence]. intros _. apply find_some in E as [I E].
  apply andb_prop in E as [E _]. apply streqb_eq in E. subst k. apply in_rev in I. now apply in_map.
Qed.
Lemma recordb_ok T ty r : recordb T ty r = true -> writable_record T ty r.
Proof.
  unfold recordb. cbv zeta. intros H. repeat (apply andb_prop in H as [H ?]). apply streqb_eq in H. split; [exact H|].
  repeat match goal with H : existsb _ _ = true |- _ => apply existsb_exists in H end.
  split; [|split; [|split]].
  - intros k N. match goal with H : forallb _ (map xtag _) = true |- _ => rewrite forallb_forall in H; specialize (H k (rec_key r k N)); rename H into HK end.
    apply orb_prop in HK as [HK|HK]. { apply hasb in N. rewrite N in HK. discriminate. }
    repeat (apply andb_prop in HK as [HK ?]). apply smem_In in HK. split; [exact HK|]. unfold writable_value.
    split; [now apply one_lineb_ok|]. split.
    { intros I. match goal with H : negb (existsb (ceqb _) _) = true |- _ => rewrite negb_true_iff in H end.
      assert (existsb (ceqb "|") (rec_value r k) = true); [|congruence]. apply existsb_exists. exists "|"%char. split; auto. }
    split.
    + intros Nk (c & s & E & C). match goal with H : streqb k _ || _ = true |- _ => apply orb_prop in H as [H|H] end.
      * match goal with H : streqb k _ = true |- _ => apply streqb_eq in H; congruence end.
      * rewrite E in *. cbn [hashb] in *. destruct C as [->| ->]; discriminate.
    + intros Fr. rewrite Fr in *. cbn [orb] in *. now apply Nat.leb_le.
  - intros rq k E I. rewrite E in *. match goal with H : forallb _ rq = true |- _ => rewrite forallb_forall in H; specialize (H k I); now apply hasb in H end.
  - match goal with H : exists x, In x _ /\ (_ && negb (alpha1 _)) = true |- _ => destruct H as (k & _ & Hk) end.
    apply andb_prop in Hk as [A B]. exists k. split; [now apply hasb|]. intros (c & s & E & C). rewrite E in B. cbn in B. rewrite C in B. discriminate.
  - match goal with H : exists x, In x _ /\ (_ && negb (streqb x _)) = true |- _ => destruct H as (k & _ & Hk) end.
    apply andb_prop in Hk as [A B]. exists k. split; [now apply hasb|]. intros E. subst k. rewrite streqb_refl in B. discriminate.
Qed.
Example C22_example : writable ades_tables ex_tree /\ normal ades_tables ex_tree <> ex_tree.
Proof.
  pose proof master_printable as MP.
  assert (P1 : printable ades_tables $"optical") by now inversion MP.
  assert (P2 : printable ades_tables $"radar").
  { rewrite Forall_forall in MP. apply MP. do 3 right. now left. }
  split; [|intros H; apply (f_equal (fun t => map xattrs (xkids t))) in H; vm_compute in H; discriminate].
  split; [reflexivity|]. split.
  { exists $"2017". split; [reflexivity|]. split; [now apply one_lineb_ok|]. intros I. repeat (destruct I as [I|I]; [discriminate I|]). destruct I. }
  split. { apply well_named_iff. vm_compute. reflexivity. }
  unfold ex_tree. cbn [xkids]. constructor; [left; exists $"optical"; split; [auto|apply recordb_ok; vm_compute; reflexivity]|].
  constructor; [|constructor; [left; exists $"radar"; split; [auto|apply recordb_ok; vm_compute; reflexivity]
                |constructor; [left; exists $"radar"; split; [auto|apply recordb_ok; vm_compute; reflexivity]|constructor]]].
  right. do 9 eexists. split; [reflexivity|]. split; [discriminate|]. split.
  { repeat (constructor; [split; [reflexivity|split; [now apply one_lineb_ok|repeat (constructor; [split; [reflexivity|now apply one_lineb_ok]|]); constructor]]|]). constructor. }
  split; [discriminate|]. split; [exact P1|]. repeat (constructor; [apply recordb_ok; vm_compute; reflexivity|]). constructor.
Qed.

(** * Trees that do not survive *)
Definition ades (ks : list xml) : xml := Elem $"ades" [($"version", $"2017")] [] ks.
Definition back (t : xml) : option xml :=
  match xmltopsv ades_tables t with Ok c => psv_tree ades_tables c | Err _ => None end.
Definition opt_with (k v : str) : xml :=
  Elem $"optical" [] [] [lf $"mode" $"CCD"; lf $"stn" $"F51"; lf $"obsTime" $"2017-01-01T00:00:00Z"; lf $"ra" $"1.0"; lf $"dec" $"1.0"; lf $"astCat" $"Gaia2"; lf k v].
(** A value with two points outside the aligned columns stops the printer, and
    so does any residual element. *)
Theorem C22_points_refuted :
  xmltopsv ades_tables (ades [opt_with $"obsSubID" $"a.b.c"]) = Err RuntimeError /\
  xmltopsv ades_tables (ades [Elem $"opticalResidual" [] [] [lf $"obsTime" $"2017"]]) = Err KeyError.
Proof. split; vm_compute; reflexivity. Qed.
(** A first value that starts with # is read as context, a record without a
    digit in front of a value as a header line, '|' as a column: no tree. *)
Theorem C22_values_refuted :
  back (ades [opt_with $"artSat" $"#1"]) = None /\
  back (ades [opt_with $"remarks" $"a|b"]) = None /\
  back (ades [Elem $"radar" [] [] [lf $"trx" $"a"; lf $"rcv" $"b"; lf $"obsTime" $"c"; lf $"frq" $"d"]]) = None.
Proof. repeat split; vm_compute; reflexivity. Qed.
(** The records of one block are printed again for a following block that has
    none of its own. *)
Theorem C22_block_refuted :
  let ctx := Elem $"obsContext" [] [] [lf $"comment" []] in
  let r := opt_with $"trkSub" $"a" in
  exists t, back (ades [Elem $"obsBlock" [] [] [ctx; Elem $"obsData" [] [] [r]]; Elem $"obsBlock" [] [] [ctx; Elem $"obsData" [] [] []]]) = Some t /\
    length (records t) = 2%nat.
Proof. cbv zeta. eexists. split; vm_compute; reflexivity. Qed.
(** Two children with the same tag: only the last one survives. *)
Theorem C22_repeated_refuted :
  exists t, back (ades [Elem $"radar" [] [] [lf $"trx" $"1"; lf $"trx" $"2"; lf $"rcv" $"b"; lf $"obsTime" $"c"; lf $"frq" $"d"]]) = Some t /\
    map (fun r => map xtext (xkids r)) (records t) = [[$"2"; $"b"; $"c"; $"d"]].
Proof. eexists. split; vm_compute; reflexivity. Qed.

Print Assumptions C22_round_trip.
Print Assumptions C22_psv_again.
Print Assumptions C22_example.
