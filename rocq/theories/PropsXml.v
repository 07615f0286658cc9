(** C17 and C25: the element tables and the element stack. *)
From Verif Require Import PyStrProofs Xml XmlSpec XmlProofs AdesTables AdesMasterTables Master TablesSpec TablesSpec2 TablesProofs TablesProofs2 XmlProofs2.
From Verif Require NameSpec NameProofs.

(** * C17 *)
(** For every schema master the tables can be computed from: the allowed list of
    every declared element is the list of elements its type mentions (following
    group references), each once, in the order of last occurrences; the required
    list has no duplicates and mentions nothing else. *)
Theorem C17_tables : forall fuel m T name e,
  readAdesTables fuel m = Some (Ok T) -> declared m name e ->
  exists l, mentions_all m (flat_map xkids (decl_types m e)) l /\
    dget name (allowed T) = Some (last_occurrences l) /\
    exists r, dget name (required T) = Some r /\ NoDup r /\ incl r l.
Proof. exact tables_spec. Qed.

Theorem C17_last_occurrences : forall l,
  NoDup (last_occurrences l) /\ (forall x, In x (last_occurrences l) <-> In x l).
Proof. intros l. split; [apply last_occurrences_NoDup | intros x; apply last_occurrences_In]. Qed.

(** the tables of the distributed master *)
Theorem C17_master : readAdesTables 20 adesmaster = Some (Ok ades_tables).
Proof. exact ades_tables_computed. Qed.

(** An element built from a list of children: refused unless all children are
    allowed and the required ones are there; otherwise the children come in the
    order of the table, of several with one tag the last. *)
Theorem C17_make : forall T tag els x, valid_name tag = true ->
  makeADESElement T tag els = Ok x <->
  exists al rq, dget tag (allowed T) = Some al /\ dget tag (required T) = Some rq /\
    incl (map xtag els) al /\ incl rq (map xtag els) /\
    x = Elem tag [] [] (flat_map (fun n => last_with n els) al).
Proof. exact make_ok. Qed.

Example C17_make_example :
  exists x, makeADESElement ades_tables $"radar"
    (map (fun t => Elem t [] $"1" []) [$"frq"; $"rcv"; $"obsTime"; $"trx"; $"frq"]) = Ok x /\
  map xtag (xkids x) = [$"trx"; $"rcv"; $"obsTime"; $"frq"].
Proof. eexists. split; vm_compute; reflexivity. Qed.

Fixpoint index_of (n : str) (l : list xml) : nat :=
  match l with [] => O | e :: l' => if streqb (attr_text $"name" e) n then O else S (index_of n l') end.
Lemma declared_check m n : 
  (let i := index_of n (element_decls m) in
   (i <? length (element_decls m))%nat && negb (existsb (fun e => streqb (attr_text $"name" e) n) (skipn (S i) (element_decls m)))) = true ->
  declared m n (nth (index_of n (element_decls m)) (element_decls m) (Elem [] [] [] [])).
Proof.
  cbv zeta. intros H. apply andb_prop in H as [H1 H2]. apply Nat.ltb_lt in H1. apply negb_true_iff in H2.
  unfold declared. generalize dependent (element_decls m). intros ds H1 H2. set (i := index_of n ds) in *.
  exists (firstn i ds), (skipn (S i) ds). split; [|split].
  - clear H2. clearbody i. revert i H1. induction ds as [|d ds IH]; intros [|i] H; cbn in H; try lia; auto.
    cbn. f_equal. apply IH. lia.
  - clear -H1. subst i. induction ds as [|d ds IH]; cbn [index_of length] in *; [lia|].
    destruct (streqb (attr_text $"name" d) n) eqn:E; cbn [nth]; [apply streqb_eq in E; exact E|]. apply IH. lia.
  - apply Forall_forall. intros e I E. assert (K : existsb (fun e => streqb (attr_text $"name" e) n) (skipn (S i) ds) = true); [|congruence].
    apply existsb_exists. exists e. split; auto. now apply streqb_eq.
Qed.
Example C17_example : exists e, declared adesmaster $"optical" e.
Proof. eexists. apply declared_check. vm_compute. reflexivity. Qed.

(** The required lists: exactly the elements without a use attribute whose last
    bracket (beginning or end of a group, sequence, all or optional choice)
    before them is an end, each once, in the order of last occurrences. *)
Theorem C17_required : forall fuel m T name e,
  readAdesTables fuel m = Some (Ok T) -> declared m name e ->
  exists ks, marks_all m (flat_map xkids (decl_types m e)) ks /\
    dget name (required T) = Some (last_occurrences (counted true ks)).
Proof. exact required_spec. Qed.
Theorem C17_counted : forall ks n, In n (counted true ks) <-> counts_as_required ks n.
Proof. exact counted_spec. Qed.
(** So the alternatives of a choice at the top of a type are all "required",
    although no element can have them all: the code's flag is left alone by a
    choice without a use attribute. *)
Definition choice_master : xml :=
  Elem $"ades" [] []
    [Elem $"XSDTypes" [] [] [Elem $"complextype" [($"name", $"T")] []
        [Elem $"choice" [] [] [Elem $"element" [($"ref", $"a")] [] []; Elem $"element" [($"ref", $"b")] [] []]]];
     Elem $"XSDElementTypes" [] [] [Elem $"element" [($"name", $"t"); ($"type", $"T")] [] []]].
Theorem C17_required_choice_refuted : exists T e, readAdesTables 20 choice_master = Some (Ok T) /\
  declared choice_master $"t" e /\ dget $"t" (required T) = Some [$"a"; $"b"] /\
  marks_all choice_master (flat_map xkids (decl_types choice_master e)) [Begins true; Names $"a" true; Names $"b" true; Ends].
Proof.
  eexists. eexists. split; [vm_compute; reflexivity|].
  split; [apply declared_check; vm_compute; reflexivity|]. split; [vm_compute; reflexivity|].
  match goal with |- marks_all _ ?a _ => let v := eval vm_compute in a in change a with v end.
  refine (ka_cons _ _ _ [Begins true; Names $"a" true; Names $"b" true; Ends] [] _ (ka_nil _)).
  refine (k_compositor _ _ [Names $"a" true; Names $"b" true] _ _); [right; right; left; reflexivity|].
  refine (ka_cons _ _ _ [Names $"a" true] [Names $"b" true] _ (ka_cons _ _ _ [Names $"b" true] [] _ (ka_nil _))).
  - refine (k_ref _ (Elem $"element" [($"ref", $"a")] [] []) $"a" _ _); reflexivity.
  - refine (k_ref _ (Elem $"element" [($"ref", $"b")] [] []) $"b" _ _); reflexivity.
Qed.

(** The required lists are not complete: the code clears its flag at the opening
    of every group, so that the mandatory children of an obsBlock are not in
    its required list. *)
Theorem C17_required_incomplete_refuted :
  exists e k, declared adesmaster $"obsBlock" e /\
    dget $"obsBlock" (required ades_tables) = Some [] /\
    In k (flat_map xkids (filter (fun x => streqb (xtag x) $"sequence") (flat_map xkids (decl_types adesmaster e)))) /\
    xtag k = $"element" /\ attr $"ref" k = Some $"obsContext" /\ attr $"use" k = None.
Proof.
  eexists. eexists. split; [apply declared_check; vm_compute; reflexivity|].
  split; [vm_compute; reflexivity|]. split; [vm_compute; left; reflexivity|]. repeat split; vm_compute; reflexivity.
Qed.

(** * C25 *)
(** A stack started with a root and driven by any sequence of operations that
    succeeds: the tree taken from it is the one an observer writes down who only
    counts how many elements are open; an outline determines its tree. *)
Theorem C25_zipper : forall t x a s0 os s,
  es_init t x a = Ok s0 -> run_ops os s0 = Ok s ->
  exists d es tr s', observes os 1 = Some (d, es) /\ length (opened s) = d /\
    es_takeTreeAndClear s = Ok (tr, s') /\ opened s' = [] /\
    outline 0 tr = (O, t, a, x) :: es.
Proof. exact stack_tree. Qed.
Theorem C25_outline : forall d x y, outline d x = outline d y -> x = y.
Proof. intros d x y. apply outline_inj. Qed.

(** A sequence of operations succeeds exactly when its names and texts are
    acceptable and it never pops the root. *)
Theorem C25_succeeds : forall os s, opened s <> [] ->
  is_ok (run_ops os s) = true <->
  (forallb op_valid os = true /\ observes os (length (opened s)) <> None).
Proof. exact run_ops_ok. Qed.
(** The names and texts a stack takes are those of XML. *)
Theorem C25_texts : forall t x a, (exists s, es_init t x a = Ok s) <->
  NameSpec.xml_name t /\ NameSpec.xml_text x /\ Forall (fun kv => NameSpec.xml_name (fst kv) /\ NameSpec.xml_text (snd kv)) a.
Proof. exact NameProofs.init_iff. Qed.
Theorem C25_texts_op : forall t x a o, In o [OAdd t x a; OAddPush t x a; OAddPopPush t x a] ->
  op_valid o = true <-> NameSpec.xml_name t /\ NameSpec.xml_text x /\ Forall (fun kv => NameSpec.xml_name (fst kv) /\ NameSpec.xml_text (snd kv)) a.
Proof. intros t x a o [<-|[<-|[<-|[]]]]; exact (NameProofs.three_iff t x a). Qed.
Theorem C25_texts_list : forall l, op_valid (OAddList l) = true <-> Forall (fun kv => NameSpec.xml_name (fst kv) /\ NameSpec.xml_text (snd kv)) l.
Proof. exact NameProofs.pairs_iff. Qed.
Example texts_ok : is_ok (es_init $"ades" ($"a" ++ [Ascii.ascii_of_N 9]) [($"version", $"2022")]) = true
  /\ is_ok (es_init $"2ades" [] []) = false /\ is_ok (es_init $"ades" [Ascii.ascii_of_N 7] []) = false.
Proof. vm_compute. repeat split. Qed.
Theorem C25_pop : forall s, opened s <> [] ->
  (es_pop s = Err RuntimeError <-> length (opened s) = 1%nat) /\
  (forall e, es_pop s = Err e -> e = RuntimeError).
Proof. exact pop_iff. Qed.

(** Recursive descent over any acceptable tree rebuilds the tree. *)
Theorem C25_recursive_descent : forall t a x ks, xml_valid (Elem t a x ks) = true ->
  exists s0 s s', es_init t x a = Ok s0 /\ run_ops (flat_map script ks) s0 = Ok s /\
  es_takeTreeAndClear s = Ok (Elem t a x ks, s').
Proof. exact recursive_descent. Qed.

(** copyTree(0) is the tree takeTreeAndClear returns; copyTree(-1) is an error,
    although the documentation offers it, and so is the depth itself. *)
Theorem C25_copy_root : forall s t s', es_takeTreeAndClear s = Ok (t, s') -> es_copyTree 0 s = Ok t.
Proof. exact copyTree_root. Qed.
Theorem C25_copy_negative_refuted : forall n s, n < 0 -> es_copyTree n s = Err RuntimeError.
Proof. exact copyTree_negative. Qed.
Theorem C25_copy_depth : forall s, es_copyTree (Z.of_nat (length (opened s))) s = Err IndexError /\
  forall n, Z.of_nat (length (opened s)) < n -> es_copyTree n s = Err RuntimeError.
Proof. intros s. split; [apply copyTree_depth | intros n; apply copyTree_beyond]. Qed.

Example C25_example :
  let tree := Elem $"ades" [($"version", $"2017")] []
                [Elem $"obsBlock" [] [] [Elem $"obsContext" [] [] [Elem $"telescope" [] [] [Elem $"name" [] $"T1" []]]];
                 Elem $"radar" [] [] [Elem $"trx" [] $"253" []; Elem $"rcv" [] $"253" []]] in
  xml_valid tree = true /\
  is_ok (do s0 <- es_init $"ades" [] [];
         run_ops [OAddPush $"a" [] []; OAdd $"b" $"x" []; OAddPopPush $"c" [] []; OAddList [($"d", $"1"); ($"e", $"2")]; OPop] s0) = true /\
  is_ok (do s0 <- es_init $"ades" [] []; run_ops [OAddPush $"a" [] []; OPop; OPop] s0) = false.
Proof. vm_compute. repeat split. Qed.

Print Assumptions C17_tables.
Print Assumptions C17_last_occurrences.
Print Assumptions C17_master.
Print Assumptions C17_make.
Print Assumptions C17_required.
Print Assumptions C17_counted.
Print Assumptions C17_required_choice_refuted.
Print Assumptions C17_required_incomplete_refuted.
Print Assumptions C25_zipper.
Print Assumptions C25_outline.
Print Assumptions C25_succeeds.
Print Assumptions C25_pop.
Print Assumptions C25_recursive_descent.
Print Assumptions C25_copy_root.
Print Assumptions C25_copy_negative_refuted.
Print Assumptions C25_copy_depth.
Print Assumptions C25_texts.
Print Assumptions C25_texts_op.
Print Assumptions C25_texts_list.
