(** C47: which PSV files become valid documents. *)
From Verif Require Import SchemaSpec PyStrProofs XmlProofs SchemaProofs3 SchemaCheck XsdMatch XsdPattern AdesMasterTables.
From Verif Require Import Schema XsdSpec SchemaSpec XsdFiles ValidSpec PropsRecord ValueSpec ValueProofs1 PsvToXml PsvSpec PsvProofs3 PropsPsv PsvValidSpec PsvValidProofs.
Import PsvSpec.
Local Open Scope nat_scope.

(** A file that is converted is described by a document, and the other way round. *)
Theorem C47_described : forall content t,
  psv_tree ades_tables content = Some t <->
  exists version d, described (lines_of content) version d /\ t = doc_tree ades_tables version d.
Proof.
  intros content t. rewrite (psv_correct ades_tables content t C20_master_tables). unfold psv_means, described. split.
  - intros (b & v & r & ver & d & A1 & A2 & A3 & A4 & A5 & -> & A6). exists ver, d. split; [|reflexivity]. exists b, v, r. tauto.
  - intros (ver & d & (b & v & r & A1 & A2 & A3 & A4 & A5 & A6) & ->). exists b, v, r, ver, d. tauto.
Qed.
(** It is valid for the general schema exactly when its version is, each section is (complete
    rows with good values; a section with context lines is a block of observations with a
    good context), and nothing is left over at its end. *)
Theorem C47_general : forall F content version d, described (lines_of content) version d ->
  exists t, psv_tree ades_tables content = Some t /\
    (valid F general_xsd t <->
     simple F general_xsd $"VersionType" version /\ Forall (section_general F general_xsd) (d_secs d) /\ finished (d_tail d)).
Proof.
  intros F content version d D. exists (doc_tree ades_tables version d). split; [apply C47_described; exists version, d; split; [exact D|reflexivity]|].
  destruct D as (b & v & r & _ & _ & _ & L & OK & _). apply doc_general; [exact (doc_trimmed _ _ _ L)|exact OK].
Qed.
(** For a submission there is at least one section, every section has context lines, and
    no value of a field reserved for distribution is given. *)
Theorem C47_submit : forall F content version d, described (lines_of content) version d ->
  exists t, psv_tree ades_tables content = Some t /\
    (valid F submit_xsd t <->
     simple F submit_xsd $"VersionType" version /\ d_secs d <> [] /\ Forall (section_submit F submit_xsd) (d_secs d) /\ finished (d_tail d)).
Proof.
  intros F content version d D. exists (doc_tree ades_tables version d). split; [apply C47_described; exists version, d; split; [exact D|reflexivity]|].
  destruct D as (b & v & r & _ & _ & _ & L & OK & _). apply doc_submit; [exact (doc_trimmed _ _ _ L)|exact OK].
Qed.
(** The version is 2022. *)
Theorem C47_version : forall F S version, In S [general_xsd; submit_xsd] -> reads_texts F ->
  (simple F S $"VersionType" version <-> version = $"2022").
Proof.
  intros F S version I R.
  assert (chain_of S $"xsd:string" 6 $"VersionType" = Some [[($"xsd:enumeration", $"2022")]]) as C by (destruct I as [<-|[<-|[]]]; vm_compute; reflexivity).
  rewrite (chain_of_simple F S $"xsd:string" 6 $"VersionType" _ version eq_refl C). rewrite (R _ version). split.
  - intro H. inversion_clear H as [|? ? A _]. destruct A as (_ & A & _). destruct A as [A|[]]; [exists $"2022"; now left|]. exact (eq_sym (f_equal snd A)).
  - intros ->. constructor; [|constructor]. split; [intros (p & [Q|[]]); discriminate (f_equal fst Q)|]. split; [intros _; now left|].
    split; intros v [Q|[]]; discriminate (f_equal fst Q).
Qed.
Print Assumptions C47_described.
Print Assumptions C47_general.
Print Assumptions C47_submit.
Print Assumptions C47_version.

(** * Examples *)
Definition ex_head : list str :=
  [$"# version=2022"; $"# observatory"; $"! mpcCode F51"; $"# submitter"; $"! name A. Bee"; $"# observers"; $"! name A. Bee"; $"# measurers"; $"! name C. Dee"; $"! name E. Eff";
   $"# telescope"; $"! design reflector"; $"! aperture 1.8"; $"! detector CCD"].
Definition ex_rows : list str :=
  [$"trkSub|mode|stn|obsTime|ra|dec|astCat"; $"abc|CCD|F51|2017-01-01T00:00:00Z|1.0|2.0|Gaia2";
   $" abd | CCD |F51 |2017-01-01T00:00:01Z|1.5|-2.0|Gaia2"].
Definition tree_of (ls : list str) : xml := match psv_tree ades_tables (file ls) with Some t => t | None => Elem [] [] [] [] end.
Example C47_example : psv_tree ades_tables (file (ex_head ++ ex_rows)) = Some (tree_of (ex_head ++ ex_rows)) /\
  valid XsdMatch.texts submit_xsd (tree_of (ex_head ++ ex_rows)) /\ valid XsdMatch.texts general_xsd (tree_of (ex_head ++ ex_rows)).
Proof. split; [vm_compute; reflexivity|]. split; apply valid_texts; vm_compute; reflexivity. Qed.
(** without context lines it is not a submission *)
Example C47_example_bare : psv_tree ades_tables (file ($"# version=2022" :: ex_rows)) = Some (tree_of ($"# version=2022" :: ex_rows)) /\
  valid XsdMatch.texts general_xsd (tree_of ($"# version=2022" :: ex_rows)) /\
  forall F, ~ valid F submit_xsd (tree_of ($"# version=2022" :: ex_rows)).
Proof.
  split; [vm_compute; reflexivity|]. split; [apply valid_texts; vm_compute; reflexivity|]. intros F V.
  apply (C41_ades_submit F) in V; [|vm_compute; reflexivity]. destruct V as (_ & _ & _ & _ & V).
  assert (In (nth 0 (xkids (tree_of ($"# version=2022" :: ex_rows))) (Elem [] [] [] [])) (xkids (tree_of ($"# version=2022" :: ex_rows)))) as J by (apply nth_In; vm_compute; repeat constructor).
  destruct (V _ J) as [Q _]. vm_compute in Q. discriminate Q.
Qed.

(** * What the converter lets pass *)
(** It converts every file that starts with a version line, an empty one among them. *)
Theorem C47_any_version : forall version, without_space version = version -> ~ In "="%char version -> valid_text version = true ->
  plain_line version ->
  psv_tree ades_tables (file [$"# version=" ++ version]) = Some (Elem $"ades" [($"version", version)] [] []).
Proof.
  intros version W E V P. apply C47_described. exists version, {| d_secs := []; d_tail := TNone |}. split; [|reflexivity].
  rewrite lines_of_file.
  - exists [], ($"# version=" ++ version), []. split; [reflexivity|]. split; [constructor|]. split.
    + exists $"# version", version. split; [reflexivity|]. split; [intros Q; vm_compute in Q; repeat (destruct Q as [Q|Q]; [discriminate Q|]); exact Q|]. split; [exact E|]. split; [vm_compute; reflexivity|]. now rewrite W.
    + split; [constructor|]. split; [split; [constructor|intros its Q; discriminate Q]|]. cbn [doc_tree well_named]. split; [reflexivity|]. split; [reflexivity|]. split; [|exact I]. constructor; [|constructor]. split; [reflexivity|exact V].
  - constructor; [|constructor]. destruct P as [P1 P2]. split; intro Q; apply in_app_or in Q as [Q|Q]; [|exact (P1 Q)| |exact (P2 Q)];
      vm_compute in Q; repeat (destruct Q as [Q|Q]; [discriminate Q|]); exact Q.
Qed.
Print Assumptions C47_any_version.
(** "every converted file is valid" is wrong, for every reading of the values: *)
(** other versions *)
Theorem C47_version_refuted : forall F, reads_texts F -> psv_tree ades_tables (file ($"# version=2017" :: ex_rows)) = Some (tree_of ($"# version=2017" :: ex_rows)) /\
  ~ valid F general_xsd (tree_of ($"# version=2017" :: ex_rows)).
Proof.
  intros F R. split; [vm_compute; reflexivity|]. intro V. apply (C41_ades_general F) in V; [|vm_compute; reflexivity]. destruct V as (_ & A & _).
  assert (In ($"version", $"2017") (xattrs (tree_of ($"# version=2017" :: ex_rows)))) as J by (vm_compute; now left).
  apply A in J as [_ J]. apply (C47_version F general_xsd _ (or_introl eq_refl) R) in J. discriminate J.
Qed.
(** a file that ends with context lines, or with a header line without rows after them *)
Theorem C47_tail_refuted : forall F tail, In tail [[]; [$"trkSub|mode|stn|obsTime|ra|dec|astCat"]] ->
  psv_tree ades_tables (file (ex_head ++ tail)) = Some (tree_of (ex_head ++ tail)) /\
  ~ valid F general_xsd (tree_of (ex_head ++ tail)).
Proof.
  intros F tail I. split; [destruct I as [<-|[<-|[]]]; vm_compute; reflexivity|]. intro V.
  apply (C41_ades_general F) in V; [|destruct I as [<-|[<-|[]]]; vm_compute; reflexivity]. destruct V as (_ & _ & _ & V).
  assert (exists its, In (block its []) (xkids (tree_of (ex_head ++ tail)))) as (its & J).
  { exists (map (fun e => {| i_name := xtag e; i_text := xtext e; i_subs := map (fun k => (xtag k, xtext k)) (xkids e) |}) (xkids (nth 0 (xkids (nth 0 (xkids (tree_of (ex_head ++ tail))) (Elem [] [] [] []))) (Elem [] [] [] [])))).
    destruct I as [<-|[<-|[]]]; vm_compute; left; reflexivity. }
  exact (tail_invalid F general_xsd its (or_introl eq_refl) (proj2 (V _ J))).
Qed.
(** a header line without rows, and without context lines, disappears *)
Theorem C47_dropped_refuted : psv_tree ades_tables (file [$"# version=2022"; $"trkSub|mode|stn|obsTime|ra|dec|astCat"]) =
  psv_tree ades_tables (file [$"# version=2022"]).
Proof. vm_compute. reflexivity. Qed.
(** a table of blocks *)
Theorem C47_blocks_refuted : forall F, psv_tree ades_tables (file [$"# version=2022"; $"obsContext|obsData"; $"1|2"]) = Some (tree_of [$"# version=2022"; $"obsContext|obsData"; $"1|2"]) /\
  ~ valid F general_xsd (tree_of [$"# version=2022"; $"obsContext|obsData"; $"1|2"]).
Proof.
  intro F. split; [vm_compute; reflexivity|]. intro V. apply (C41_ades_general F) in V; [|vm_compute; reflexivity]. destruct V as (_ & _ & _ & V).
  set (s := {| s_ctx := []; s_cols := [$"obsContext"; $"obsData"]; s_type := $"obsBlock"; s_rows := [[$"1"; $"2"]] |}).
  assert (exists e, In e (rows_trees ades_tables s) /\ In e (xkids (tree_of [$"# version=2022"; $"obsContext|obsData"; $"1|2"]))) as (e & J & K).
  { exists (nth 0 (rows_trees ades_tables s) (Elem [] [] [] [])). split; vm_compute; left; reflexivity. }
  exact (leaf_block_invalid F general_xsd s e (or_introl eq_refl) J eq_refl (proj2 (V _ K))).
Qed.
Print Assumptions C47_version_refuted.
Print Assumptions C47_tail_refuted.
Print Assumptions C47_dropped_refuted.
Print Assumptions C47_blocks_refuted.
