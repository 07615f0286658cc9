(** C41: which documents the schemas accept, and which of those made from
    80-column files. *)
From Verif Require Import SchemaSpec PyStrProofs XmlProofs SchemaProofs2 SchemaProofs3 SchemaCheck XsdMatch RecordProofs3 RecordProofs4 RecordProofs6 RecordProofs8 RecordProofs9 RecordProofs10 DocProofs1 DocProofs6 Mpc80Proofs1.
From Verif Require Import AdesMasterTables XsdPattern FileLines Mpc80 Mpc80Spec Schema XsdSpec SchemaSpec XsdFiles DocSpec ValidSpec PropsMpc80 PropsDoc PropsSchema.
Local Open Scope nat_scope.

(** * Records *)
(** A record with one child for each field that has a text, in the order of the
    table, is valid for the general schema exactly when it is complete
    (RecordSpec) and each text is in the type of its field. *)
Theorem C41_general F kind table text :
  In kind [$"optical"; $"offset"; $"occultation"; $"radar"; $"opticalResidual"; $"radarResidual"] ->
  dget kind (allowed ades_tables) = Some table ->
  (valid F general_xsd (element kind table text) <-> fields_fine F general_xsd kind table text).
Proof. intros I E. pose proof (general_record F kind text I) as H. unfold fields in H. rewrite E in H. exact H. Qed.
(** For a submission, moreover, no field reserved for distribution may be given. *)
Theorem C41_submit F kind table text :
  In kind [$"optical"; $"offset"; $"occultation"; $"radar"] ->
  dget kind (allowed ades_tables) = Some table ->
  (valid F submit_xsd (element kind table text) <->
   fields_fine F submit_xsd kind table text /\ forall x, In x table -> In x (map lit reserved) -> given text x = false).
Proof.
  intros I E. pose proof (submit_record F kind text I) as H. unfold fields in H. rewrite E in H. rewrite H. unfold fields_fine. tauto.
Qed.
(** * What stands above the records, in both schemas *)
Theorem C41_ades_general F e : xtag e = $"ades" ->
  (valid F general_xsd e <-> blank_text (xtext e) = true /\
   (forall k v, In (k, v) (xattrs e) -> k = $"version" /\ simple F general_xsd $"VersionType" v) /\ (exists v, In ($"version", v) (xattrs e)) /\
   forall k, In k (xkids e) -> In (xtag k) (map lit (record_names ++ residual_names ++ ["obsBlock"%string])) /\ valid F general_xsd k).
Proof.
  intro T. refine (iff_trans (root_kids F general_xsd e _ T) _); [now left|]. rewrite (proj1 root_general), (proj2 root_general). tauto.
Qed.
Theorem C41_ades_submit F e : xtag e = $"ades" ->
  (valid F submit_xsd e <-> blank_text (xtext e) = true /\
   (forall k v, In (k, v) (xattrs e) -> k = $"version" /\ simple F submit_xsd $"VersionType" v) /\ (exists v, In ($"version", v) (xattrs e)) /\
   xkids e <> [] /\ forall k, In k (xkids e) -> xtag k = $"obsBlock" /\ valid F submit_xsd k).
Proof.
  intro T. refine (iff_trans (root_kids F submit_xsd e _ T) _); [right; now left|]. rewrite (proj1 root_submit), (proj2 root_submit). split.
  - intros (A & B & C & D & E). split; [exact A|]. split; [exact B|]. split; [exact C|]. split; [intro Q; discriminate (E Q)|].
    intros k I. destruct (D k I) as [[K|[]] V]. now split.
  - intros (A & B & C & D & E). split; [exact A|]. split; [exact B|]. split; [exact C|]. split; [|intro Q; contradiction].
    intros k I. destruct (E k I) as [K V]. split; [rewrite K; now left|exact V].
Qed.
Theorem C41_block F S e : In S [general_xsd; submit_xsd] -> xtag e = $"obsBlock" ->
  (valid F S e <-> bare e /\ exists c d, xkids e = [c; d] /\ xtag c = $"obsContext" /\ valid F S c /\ xtag d = $"obsData" /\ valid F S d).
Proof. exact (obsBlock_valid F S e). Qed.
Theorem C41_data F S e : In S [general_xsd; submit_xsd] -> xtag e = $"obsData" ->
  (valid F S e <-> bare e /\ xkids e <> [] /\ exists kind, In kind (map lit record_names) /\ forall k, In k (xkids e) -> xtag k = kind /\ valid F S k).
Proof. exact (obsData_valid F S e). Qed.
Theorem C41_context F S e : In S [general_xsd; submit_xsd] -> xtag e = $"obsContext" ->
  (valid F S e <-> bare e /\ NoDup (map xtag (xkids e)) /\
   (forall k, In k (xkids e) -> In (xtag k) (map lit context_parts) /\ valid F S k) /\ incl (map lit context_needed) (map xtag (xkids e))).
Proof. exact (RecordProofs6.context_valid F S e). Qed.
Theorem C41_header_parts F S e : In S [general_xsd; submit_xsd] ->
  (xtag e = $"observatory" -> (valid F S e <-> composed F S observatory_parts e)) /\
  (xtag e = $"submitter" -> (valid F S e <-> composed F S submitter_parts e)) /\
  (xtag e = $"telescope" -> (valid F S e <-> composed F S telescope_parts e)) /\
  (xtag e = $"software" -> (valid F S e <-> composed F S software_parts e)) /\
  (In (xtag e) [$"observers"; $"measurers"; $"coinvestigators"; $"collaborators"] -> (valid F S e <-> listed F S "name" "StringTypeW100" e)) /\
  (xtag e = $"comment" -> (valid F S e <-> listed F S "line" "StringTypeW100" e)) /\
  (xtag e = $"fundingSource" -> (valid F S e <-> has_value F S $"StringTypeW100" e)).
Proof.
  intro I. pose proof (ok_composed S I) as C. cbn [forallb fst snd] in C. apply andb_prop in C as [C1 C]. apply andb_prop in C as [C2 C]. apply andb_prop in C as [C3 C]. apply andb_prop in C as [C4 _].
  pose proof (ok_listed S I) as L. apply andb_prop in L as [L1 L2]. rewrite forallb_forall in L1.
  split; [intro T; apply composed_valid; now rewrite T|]. split; [intro T; apply composed_valid; now rewrite T|]. split; [intro T; apply composed_valid; now rewrite T|].
  split; [intro T; apply composed_valid; now rewrite T|]. split; [|split].
  - intro T. apply listed_valid. destruct T as [<-|[<-|[<-|[<-|[]]]]];
      [exact (L1 "observers"%string (or_introl eq_refl))|exact (L1 "measurers"%string (or_intror (or_introl eq_refl)))|
       exact (L1 "coinvestigators"%string (or_intror (or_intror (or_introl eq_refl))))|exact (L1 "collaborators"%string (or_intror (or_intror (or_intror (or_introl eq_refl)))))].
  - intro T. apply listed_valid. now rewrite T.
  - intro T. assert (declared S (xtag e) = true /\ type_of_tag S (xtag e) = $"StringTypeW100" /\ no_complex S $"StringTypeW100" = true) as (D & Y & N).
    { rewrite T. destruct I as [<-|[<-|[]]]; vm_compute; repeat split. }
    rewrite (valid_declared F S e D), Y. now apply value_type.
Qed.
Print Assumptions C41_general.
Print Assumptions C41_submit.
Print Assumptions C41_ades_general.
Print Assumptions C41_ades_submit.
Print Assumptions C41_block.
Print Assumptions C41_data.
Print Assumptions C41_context.
Print Assumptions C41_header_parts.

(** * Documents made from 80-column files *)
(** Without headers the document is valid for the general schema exactly when
    every record is complete and its values are good. *)
Theorem C41_headerless F nosplit ls rs doc :
  readable ls -> records_of nosplit ls = (rs, None) -> Forall (fun d => header d = false) rs ->
  mpc80coltoxml ades_tables nosplit (file ls) = Written doc ->
  (valid F general_xsd doc <-> simple F general_xsd $"VersionType" $"2022" /\
   forall d, In d rs -> left_out d = false -> record_fine F general_xsd optical_fields radar_fields d).
Proof.
  intros P E H W. rewrite (C39_headerless ades_tables optical_fields radar_fields nosplit ls rs eq_refl eq_refl P E H) in W.
  destruct (rows optical_fields radar_fields rs) as [xs|] eqn:R; [|discriminate W]. injection W as <-. exact (headerless_valid F rs xs R).
Qed.
(** With headers: in every block the header must have the four needed lines with
    good values, and the data must be all optical or all radar. *)
Theorem C41_blocks F nosplit ls gs doc :
  readable ls -> records_of nosplit ls = (ungroup gs, None) ->
  gs <> [] -> Forall regular gs -> Forall (fun g => rows optical_fields radar_fields (snd g) <> Some []) (removelast gs) ->
  mpc80coltoxml ades_tables nosplit (file ls) = Written doc ->
  (valid F general_xsd doc <-> simple F general_xsd $"VersionType" $"2022" /\
   forall g, In g gs -> headers_fine F general_xsd (fst g) /\ records_fine F general_xsd optical_fields radar_fields (snd g)).
Proof.
  intros P E N R1 R2 W. rewrite (C39_blocks ades_tables optical_fields radar_fields nosplit ls gs eq_refl eq_refl P E N R1 R2) in W.
  destruct (blocks optical_fields radar_fields gs) as [bs|] eqn:B; [|discriminate W]. injection W as <-. exact (blocks_valid F gs bs B).
Qed.
Print Assumptions C41_headerless.
Print Assumptions C41_blocks.
(** Headers behind the last record make a block without data: the document is not valid. *)
Theorem C41_trailing_headers_refuted F nosplit ls gs hs doc :
  readable ls -> records_of nosplit ls = (ungroup gs ++ hs, None) ->
  gs <> [] -> Forall regular gs -> Forall (fun g => rows optical_fields radar_fields (snd g) <> Some []) gs ->
  hs <> [] -> Forall (fun h => header h = true) hs ->
  mpc80coltoxml ades_tables nosplit (file ls) = Written doc -> ~ valid F general_xsd doc.
Proof.
  intros P E N R1 R2 N2 H W. rewrite (C39_trailing_headers_refuted ades_tables optical_fields radar_fields nosplit ls gs hs eq_refl eq_refl P E N R1 R2 N2 H) in W.
  destruct (blocks optical_fields radar_fields gs) as [bs|]; [|discriminate W]. injection W as <-. intro V.
  apply (C41_ades_general F (ades _) eq_refl) in V as (_ & _ & _ & V). cbn [ades xkids] in V.
  destruct (V (Elem $"obsBlock" [] [] [Elem $"obsContext" [] [] []])) as [_ K]; [apply in_or_app; right; now left|].
  apply (C41_block F general_xsd (Elem $"obsBlock" [] [] [Elem $"obsContext" [] [] []]) (or_introl eq_refl) eq_refl) in K as (_ & c & d & Q & _). discriminate Q.
Qed.
(** Headers behind records without headers end up inside the last record: not valid. *)
Theorem C41_nested_blocks_refuted F nosplit ls ds gs xs x doc :
  readable ls -> records_of nosplit ls = (ds ++ ungroup gs, None) ->
  Forall (fun d => header d = false) ds -> rows optical_fields radar_fields ds = Some (xs ++ [x]) ->
  gs <> [] -> Forall regular gs -> Forall (fun g => rows optical_fields radar_fields (snd g) <> Some []) (removelast gs) ->
  mpc80coltoxml ades_tables nosplit (file ls) = Written doc -> ~ valid F general_xsd doc.
Proof.
  intros P E HD RD N R1 R2 W. rewrite (C39_nested_blocks_refuted ades_tables optical_fields radar_fields nosplit ls ds gs xs x eq_refl eq_refl P E HD RD N R1 R2) in W.
  destruct (blocks optical_fields radar_fields gs) as [bs|] eqn:B; [|discriminate W]. injection W as <-. intro V.
  apply (C41_ades_general F (ades _) eq_refl) in V as (_ & _ & _ & V). cbn [ades xkids] in V.
  destruct (V (Elem (xtag x) (xattrs x) (xtext x) (xkids x ++ bs))) as [_ K]; [apply in_or_app; right; now left|].
  destruct (rows_cases F ds _ RD) as [RC _]. destruct (RC x) as (d & _ & _ & T & _); [apply in_or_app; right; now left|].
  assert (exists b, In b bs /\ xtag b = $"obsBlock") as (b & I & Tb).
  { destruct gs as [|g gs]; [now destruct N|]. unfold blocks in B. cbn [together] in B. destruct (block _ _ g) as [y|] eqn:Y; [|discriminate B]. destruct (together _ gs) as [z|]; [|discriminate B]. injection B as <-.
    destruct (block_valid F g y Y) as (b & -> & Tb & _). exists b. split; [now left|exact Tb]. }
  destruct (record_row F _ _ K (or_introl eq_refl)) as (al & rq & A1 & _ & Q & _).
  { cbn [xtag]. rewrite T. unfold kind_name. destruct (is_kind "R" d); vm_compute; tauto. }
  cbn [xtag xkids] in A1, Q.
  assert (In $"obsBlock" (map xtag (xkids x ++ bs))) as M by (rewrite map_app; apply in_or_app; right; apply in_map_iff; now exists b).
  pose proof (sub_in _ _ Q _ M) as J.
  apply RecordProofs1.smem_iff in J. rewrite T in A1. unfold kind_name in A1. destruct (is_kind "R" d); vm_compute in A1; injection A1 as <-; vm_compute in J; discriminate J.
Qed.
Print Assumptions C41_trailing_headers_refuted.
Print Assumptions C41_nested_blocks_refuted.

(** No document made from an 80-column file with an optical observation can be
    submitted: the records say which format they come from, and without headers
    there are no blocks. *)
Theorem C41_submit_80_refuted F nosplit ls gs g d doc :
  readable ls -> records_of nosplit ls = (ungroup gs, None) ->
  gs <> [] -> Forall regular gs -> Forall (fun g => rows optical_fields radar_fields (snd g) <> Some []) (removelast gs) ->
  mpc80coltoxml ades_tables nosplit (file ls) = Written doc ->
  In g gs -> In d (snd g) -> left_out d = false -> is_kind "R" d = false -> ~ valid F submit_xsd doc.
Proof.
  intros P E N R1 R2 W Ig Id L K V. rewrite (C39_blocks ades_tables optical_fields radar_fields nosplit ls gs eq_refl eq_refl P E N R1 R2) in W.
  destruct (blocks optical_fields radar_fields gs) as [bs|] eqn:B; [|discriminate W]. injection W as <-.
  assert (dget $"subFmt" d = Some (Some $"M92")) as M.
  { apply (file_subFmt nosplit ls _ d P E); [apply in_flat_map; exists g; split; [exact Ig|apply in_or_app; now right]|].
    rewrite Forall_forall in R1. destruct (R1 g Ig) as (_ & _ & _ & H). rewrite Forall_forall in H. exact (H d Id). }
  destruct (block_optical gs bs g d B Ig Id L K M) as (k & Ik & T). apply (submit_clean F _ V eq_refl k Ik). rewrite T.
  apply RecordProofs1.smem_iff. vm_compute. reflexivity.
Qed.
Theorem C41_submit_headerless_refuted F nosplit ls rs doc :
  readable ls -> records_of nosplit ls = (rs, None) -> Forall (fun d => header d = false) rs ->
  mpc80coltoxml ades_tables nosplit (file ls) = Written doc -> ~ valid F submit_xsd doc.
Proof.
  intros P E H W V. rewrite (C39_headerless ades_tables optical_fields radar_fields nosplit ls rs eq_refl eq_refl P E H) in W.
  destruct (rows optical_fields radar_fields rs) as [xs|] eqn:R; [|discriminate W]. injection W as <-.
  apply (C41_ades_submit F (ades _) eq_refl) in V as (_ & _ & _ & NE & V). cbn [ades xkids] in NE, V.
  destruct xs as [|x xs]; [now apply NE|]. destruct (V x (or_introl eq_refl)) as [T _].
  destruct (rows_cases F rs _ R) as [RC _]. destruct (RC x (or_introl eq_refl)) as (d & _ & _ & T2 & _). rewrite T in T2. unfold kind_name in T2.
  destruct (is_kind "R" d); apply (proj2 (PyStrProofs.streqb_eq _ _)) in T2; vm_compute in T2; discriminate T2.
Qed.
Print Assumptions C41_submit_80_refuted.
Print Assumptions C41_submit_headerless_refuted.

(** * Examples *)
Definition document (ls : list str) : xml := match mpc80coltoxml ades_tables false (file ls) with Written x => x | _ => Elem [] [] [] [] end.
Definition full_header : list str := [$"COD I41"; $"CON A. Bee, There"; $"OBS A. Bee"; $"MEA A. Bee, C. Dee"; $"TEL 1.0-m f/2"; $"COM one"].
(** valid, with the patterns, lengths and enumerations of the string types as they are *)
Lemma valid_texts S e : SchemaCheck.checks texts_b S 30 e = true -> valid XsdMatch.texts S e.
Proof. intro H. apply (valid_weaken (fun d s => texts_b d s = true) XsdMatch.texts S e texts_sound). now apply (checks_valid texts_b S 30). Qed.
Example C41_example_valid :
  mpc80coltoxml ades_tables false (file [ex_opt; ex_S; ex_s; ex_R; ex_r]) = Written (document [ex_opt; ex_S; ex_s; ex_R; ex_r]) /\
  valid XsdMatch.texts general_xsd (document [ex_opt; ex_S; ex_s; ex_R; ex_r]) /\
  length (xkids (document [ex_opt; ex_S; ex_s; ex_R; ex_r])) = 4 /\
  valid XsdMatch.texts general_xsd (document (full_header ++ [ex_opt; ex_S; ex_s] ++ full_header ++ [ex_R; ex_r])) /\
  length (xkids (document (full_header ++ [ex_opt; ex_S; ex_s] ++ full_header ++ [ex_R; ex_r]))) = 2.
Proof.
  split; [vm_compute; reflexivity|]. split; [apply valid_texts; vm_compute; reflexivity|]. split; [vm_compute; reflexivity|].
  split; [apply valid_texts; vm_compute; reflexivity|]. vm_compute. reflexivity.
Qed.
(** the same file: its groups, and what the theorems say of them *)
Definition radar_line (l : str) : bool := streqb (column15 l) $"R" || streqb (column15 l) $"r".
Lemma readable_dec ls : forallb (fun l => plainb l && (negb (radar_line l) || Nat.leb 61 (length l))) ls = true -> readable ls.
Proof.
  intro H. rewrite forallb_forall in H. split; [apply Forall_forall; intros l I; specialize (H l I); apply andb_prop in H as [A _]; now apply plainb_ok|].
  intros p l q E _ C. split; [|intros m q' -> D].
  - specialize (H l). rewrite E in H. specialize (H (in_elt _ _ _)). apply andb_prop in H as [_ B]. unfold radar_line in B. rewrite C in B. change (streqb $"R" $"R") with true in B. cbn [orb negb] in B. now apply Nat.leb_le.
  - specialize (H m). rewrite E in H. specialize (H (in_or_app p (l :: m :: q') m (or_intror (or_intror (or_introl eq_refl))))). apply andb_prop in H as [_ B]. unfold radar_line in B. rewrite D in B. change (streqb $"r" $"r") with true in B. rewrite orb_true_r in B. cbn [negb orb] in B. now apply Nat.leb_le.
Qed.
Lemma regular_dec (g : DocSpec.group) : (match fst g with [] => false | _ => forallb header (fst g) end &&
            match snd g with [] => false | _ => forallb (fun d => negb (header d)) (snd g) end)%bool = true -> regular g.
Proof.
  destruct g as [hs ds]. intro H. apply andb_prop in H as [H1 H2]. unfold regular. cbn [fst snd] in *.
    destruct hs as [|h hs]; [discriminate H1|]. destruct ds as [|d ds]; [discriminate H2|]. rewrite forallb_forall in H1, H2.
    split; [intro Q; discriminate Q|]. split; [apply Forall_forall; exact H1|]. split; [intro Q; discriminate Q|]. apply Forall_forall. intros x I. specialize (H2 x I). now apply negb_true_iff in H2.
Qed.
(** a header without its MEA line; radar and optical records in one block *)
Definition no_measurer : list str := [$"COD I41"; $"CON A. Bee, There"; $"TEL 1.0-m f/2"].
Lemma one_block F hs ls : forallb (fun l => plainb l && (negb (radar_line l) || Nat.leb 61 (length l))) (hs ++ ls) = true ->
  records_of false (hs ++ ls) = (ungroup [(recs hs, recs ls)], None) ->
  (match recs hs with [] => false | _ => forallb header (recs hs) end &&
            match recs ls with [] => false | _ => forallb (fun d => negb (header d)) (recs ls) end)%bool = true ->
  mpc80coltoxml ades_tables false (file (hs ++ ls)) = Written (document (hs ++ ls)) ->
  valid F general_xsd (document (hs ++ ls)) -> headers_fine F general_xsd (recs hs) /\ records_fine F general_xsd optical_fields radar_fields (recs ls).
Proof.
  intros A B C D V. apply (C41_blocks F false (hs ++ ls) [(recs hs, recs ls)] _ (readable_dec _ A) B) in V as [_ V]; [exact (V _ (or_introl eq_refl))| | | |exact D].
  - intro Q. discriminate Q.
  - constructor; [now apply regular_dec|constructor].
  - constructor.
Qed.
Example C41_example_no_measurer : forall F, ~ valid F general_xsd (document (no_measurer ++ [ex_opt])).
Proof.
  intros F V. apply one_block in V as [[V _] _]; [|vm_compute; reflexivity..].
  destruct (V "MEA"%string) as (h & I & K); [right; right; now left|].
  assert (forallb (fun h => negb (streqb (keyword h) $"MEA")) (recs no_measurer) = true) as Q by (vm_compute; reflexivity).
  rewrite forallb_forall in Q. specialize (Q h I). rewrite K in Q. discriminate Q.
Qed.
Example C41_example_mixed : forall F, ~ valid F general_xsd (document (full_header ++ [ex_opt; ex_R; ex_r])).
Proof.
  intros F V. apply one_block in V as [_ [_ (b & _ & V)]]; [|vm_compute; reflexivity..].
  assert (exists d1 d2, In d1 (recs [ex_opt; ex_R; ex_r]) /\ In d2 (recs [ex_opt; ex_R; ex_r]) /\ left_out d1 = false /\ left_out d2 = false /\ is_kind "R" d1 = false /\ is_kind "R" d2 = true) as (d1 & d2 & I1 & I2 & L1 & L2 & K1 & K2).
  { exists (nth 0 (recs [ex_opt; ex_R; ex_r]) []), (nth 1 (recs [ex_opt; ex_R; ex_r]) []). split; [apply nth_In; vm_compute; repeat constructor|]. split; [apply nth_In; vm_compute; repeat constructor|]. vm_compute. repeat split. }
  pose proof (V d1 I1 L1) as Q1. pose proof (V d2 I2 L2) as Q2. rewrite K1 in Q1. rewrite K2 in Q2. rewrite <- Q1 in Q2. discriminate Q2.
Qed.
(** with the option not to split radar records, one with both a delay and a Doppler shift is not valid *)
Example C41_example_both : forall F doc, mpc80coltoxml ades_tables true (file [ex_R; ex_r]) = Written doc -> ~ valid F general_xsd doc.
Proof.
  intros F doc W V. apply (C41_headerless F true [ex_R; ex_r] (fst (records_of true [ex_R; ex_r])) doc) in V as [_ V]; [| | | |exact W].
  - assert (In (nth 0 (fst (records_of true [ex_R; ex_r])) []) (fst (records_of true [ex_R; ex_r]))) as I by (apply nth_In; vm_compute; repeat constructor).
    assert (left_out (nth 0 (fst (records_of true [ex_R; ex_r])) []) = false) as L by (vm_compute; reflexivity).
    specialize (V _ I L). unfold record_fine in V.
    assert (is_kind "R" (nth 0 (fst (records_of true [ex_R; ex_r])) []) = true) as K by (vm_compute; reflexivity). rewrite K in V. cbv iota in V.
    unfold fields_fine in V. apply proj1 in V.
    assert (complete $"radar" (given (text_of (nth 0 (fst (records_of true [ex_R; ex_r])) []))) = false) as Q by (vm_compute; reflexivity).
    exact (Bool.diff_false_true (eq_trans (eq_sym Q) V)).
  - apply readable_dec. vm_compute. reflexivity.
  - vm_compute. reflexivity.
  - apply Forall_forall. intros d I. assert (forallb (fun d => negb (header d)) (fst (records_of true [ex_R; ex_r])) = true) as Q by (vm_compute; reflexivity).
    exact (proj1 (negb_true_iff _) (proj1 (forallb_forall _ _) Q d I)).
Qed.
Lemma some_document ns ls : match mpc80coltoxml ades_tables ns (file ls) with Written _ => true | _ => false end = true -> exists doc, mpc80coltoxml ades_tables ns (file ls) = Written doc.
Proof. intro H. destruct (mpc80coltoxml ades_tables ns (file ls)) as [x| |]; [now exists x|discriminate H..]. Qed.
Example C41_example_refuted :
  (exists doc, mpc80coltoxml ades_tables true (file [ex_R; ex_r]) = Written doc) /\
  (exists doc, mpc80coltoxml ades_tables false (file [ex_cod; ex_opt; $"COD 703"]) = Written doc) /\
  (exists doc, mpc80coltoxml ades_tables false (file [ex_opt; ex_opt; ex_cod; ex_opt]) = Written doc).
Proof. split; [|split]; apply some_document; vm_compute; reflexivity. Qed.
