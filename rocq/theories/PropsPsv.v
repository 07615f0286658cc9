(** C18-C21, C23, C24: psvtoxml. *)
From Verif Require Import PyStrProofs Xml XmlSpec XmlProofs AdesTables AdesMasterTables TablesSpec TablesProofs
  PsvToXml PsvSpec PsvSpec2 PsvLines PsvProofs1 PsvProofs2 PsvProofs3 PsvProofs4 PsvProofs5 PsvProofs6.
From Verif Require Export FileLines.

Definition tables_okb (T : tables) : bool :=
  match dget $"ades" (allowed T) with
  | Some ch => forallb (fun p => match p, dget p (allowed T), dget p (required T) with
                                 | _ :: _, Some _, Some _ => true | _, _, _ => false end) ch
  | None => false
  end.
Lemma tables_okb_ok T : tables_okb T = true -> tables_ok T.
Proof.
  unfold tables_okb, tables_ok. destruct (dget $"ades" (allowed T)) as [ch|]; [|discriminate]. intros H. exists ch. split; auto.
  rewrite forallb_forall in H. apply Forall_forall. intros p I. specialize (H p I).
  destruct p; [discriminate|]. destruct (dget _ (allowed T)); [|discriminate]. destruct (dget _ (required T)); [|discriminate].
  split; [discriminate|]. split; eauto.
Qed.
(** the hypothesis of the theorems below holds of the distributed tables *)
Theorem C20_master_tables : tables_ok ades_tables.
Proof. apply tables_okb_ok. vm_compute. reflexivity. Qed.
Theorem C20_lines : forall ls, Forall plain_line ls -> lines_of (file ls) = ls.
Proof. exact lines_of_file. Qed.

(** * C20: the reader as a whole *)
(** It produces a tree exactly when the file has a meaning (PsvSpec.psv_means:
    version line, then sections of context lines, header line and rows), and
    then the tree it means; in all other cases there is no tree. *)
Theorem C20_psvtoxml : forall T content t, tables_ok T ->
  psv_tree T content = Some t <-> psv_means T (lines_of content) t.
Proof. exact psv_correct. Qed.
Theorem C20_shape : forall T content t types, tables_ok T -> dget $"ades" (allowed T) = Some types ->
  psv_tree T content = Some t -> ades_shape types t.
Proof. intros T c t types HT D E. apply psv_correct in E; auto. exact (shape T _ t types D E). Qed.
(** A line that cannot follow the lines before it stops the reader (with
    NameError: the error message refers to a variable that does not exist). *)
Theorem C20_refused : forall T content pre raw post d ln, tables_ok T ->
  lines_of content = pre ++ raw :: post -> prefix_means T pre d -> reads_as T raw ln ->
  (~ exists d', doc_ok d' /\ doc_lines d' = doc_lines d ++ [ln]) ->
  psvtoxml T content g_init = Err NameError.
Proof. exact refused_psv. Qed.

Definition ex_lines : list str :=
  [$"# version=2017"; $"# observatory"; $"! mpcCode F51"; $"# telescope"; $"! design reflector"; $"! aperture 1.8";
   $"trkSub|mode|stn|obsTime|ra|dec|astCat"; $"abc|CCD|F51|2017-01-01T00:00:00Z|1.0|2.0|Gaia2"; [];
   $" abd | CCD |F51 |2017-01-01T00:00:01Z|1.5|-2.0|Gaia2";
   $"trx|rcv|obsTime|frq|provID|remarks"; $"251|251|2017-01-01T00:00:01Z|2380||x"].
Example C20_example : match psv_tree ades_tables (file ex_lines) with
  | Some t => map xtag (xkids t) = [$"obsBlock"; $"radar"] /\ map xtag (records t) = [$"optical"; $"optical"; $"radar"] /\
              map (fun r => map (fun k => (xtag k, xtext k)) (xkids r)) (skipn 2 (records t)) =
              [[($"trx", $"251"); ($"rcv", $"251"); ($"obsTime", $"2017-01-01T00:00:01Z"); ($"frq", $"2380"); ($"remarks", $"x")]]
  | None => False end.
Proof. vm_compute. repeat split; reflexivity. Qed.
(** a "!" line after the version line *)
Example C20_refused_example : psvtoxml ades_tables (file [$"# version=2017"; $"! mpcCode F51"]) g_init = Err NameError.
Proof. vm_compute. reflexivity. Qed.
(** Not every tree is complete: a file may end in the middle of a block, and a
    header line of obsBlock elements is taken for a table of obsBlocks. *)
Theorem C20_complete_refuted :
  (exists t, psv_tree ades_tables (file [$"# version=2017"; $"# observatory"; $"! mpcCode F51"]) = Some t /\
     map (fun b => map xtag (xkids b)) (xkids t) = [[$"obsContext"]]) /\
  (exists t, psv_tree ades_tables (file [$"# version=2017"; $"obsContext|obsData"; $"1|2"]) = Some t /\
     map (fun b => map (fun k => (xtag k, xtext k)) (xkids b)) (xkids t) = [[($"obsContext", $"1"); ($"obsData", $"2")]]).
Proof. split; (eexists; split; [vm_compute; reflexivity|vm_compute; reflexivity]). Qed.

(** * C18 *)
Theorem C18_blanks : forall T c c', tables_ok T ->
  files_differ_in_blanks (lines_of c) (lines_of c') -> psv_tree T c = psv_tree T c'.
Proof. exact blanks_ok. Qed.
Theorem C18_columns : forall T c c', tables_ok T ->
  columns_moved (lines_of c) (lines_of c') -> psv_tree T c = psv_tree T c'.
Proof. exact moved_ok. Qed.

Ltac plain := apply lines_of_file, plain_lines; vm_compute; reflexivity.
Lemma not_startsb c raw : (match strip raw with x :: _ => ceqb x c | [] => false end) = false -> ~ starts_with c raw.
Proof. intros H (r & E). rewrite E in H. rewrite (proj2 (ceqb_eq c c)) in H; [discriminate|auto]. Qed.
Lemma not_ctxb raw : (match strip raw with x :: _ => ceqb x "#" || ceqb x "!" | [] => false end) = false -> ~ is_context raw.
Proof.
  intros H [K|K]; revert K; apply not_startsb; destruct (strip raw); auto; apply orb_false_iff in H; tauto.
Qed.
Definition header_cellb (c : str) : bool := match c with [] => true | x :: _ => is_alpha_ x end.
Lemma header_cells_b l : forallb header_cellb l = true <-> Forall header_cell l.
Proof.
  rewrite forallb_forall, Forall_forall. split; intros H c I; specialize (H c I); destruct c; cbn in *; auto.
Qed.
Lemma data_lineb raw : ((match strip raw with x :: _ => ceqb x "#" || ceqb x "!" | [] => false end) || forallb header_cellb (cells raw)) = false -> data_line raw.
Proof.
  rewrite orb_false_iff. intros [A B]. split; [now apply not_ctxb|]. rewrite <- header_cells_b. congruence.
Qed.
Lemma version_lineb raw a b : splitc "=" raw = [a; b] -> squeeze a = $"#version" -> version_line raw (squeeze b).
Proof. intros S Q. apply version_line_iff. eauto. Qed.

Example C18_blanks_example :
  files_differ_in_blanks
   (lines_of (file [$"# version=2017"; $"trx|rcv|obsTime|frq"; $"251|251|2017-01-01T00:00:01Z|2380"]))
   (lines_of (file [[]; $" # version = 2017 "; $"  trx |rcv|  obsTime|frq"; []; $" 251|251 | 2017-01-01T00:00:01Z | 2380"; $"   "])).
Proof.
  rewrite !lines_of_file by (apply plain_lines; vm_compute; reflexivity).
  exists []. do 2 eexists. exists [[]]. do 3 eexists. split; [reflexivity|]. split; [reflexivity|].
  split; [constructor|]. split; [constructor; [reflexivity|constructor]|].
  split; [eapply (version_lineb _ $"# version" $"2017"); vm_compute; reflexivity|].
  split; [eapply (version_lineb _ $" # version " $" 2017 "); vm_compute; reflexivity|].
  apply bd_line.
  { apply sb_cells; [apply not_ctxb; vm_compute; reflexivity..|vm_compute; reflexivity]. }
  apply bd_right; [reflexivity|]. apply bd_line.
  { apply sb_cells; [apply not_ctxb; vm_compute; reflexivity..|vm_compute; reflexivity]. }
  apply bd_right; [reflexivity|]. constructor.
Qed.
Example C18_columns_example :
  columns_moved
   (lines_of (file [$"# version=2017"; $"trx|rcv|obsTime|frq"; $"251|252|2017-01-01T00:00:01Z|2380"; $"# observatory"]))
   (lines_of (file [$"# version=2017"; $"rcv|frq|obsTime|trx"; $"252|2380|2017-01-01T00:00:01Z|251"; $"# observatory"])).
Proof.
  rewrite !lines_of_file by (apply plain_lines; vm_compute; reflexivity).
  assert (P : forall a b c d : str, Permutation [a; b; c; d] [b; d; c; a]).
  { intros. apply (Permutation_cons_app [b; d; c] []). cbn. constructor. apply perm_swap. }
  assert (P2 : forall a b c d : str * str, Permutation [a; b; c; d] [b; d; c; a]).
  { intros. apply (Permutation_cons_app [b; d; c] []). cbn. constructor. apply perm_swap. }
  exists [$"# version=2017"], $"trx|rcv|obsTime|frq", [$"251|252|2017-01-01T00:00:01Z|2380"],
    $"rcv|frq|obsTime|trx", [$"252|2380|2017-01-01T00:00:01Z|251"], [$"# observatory"].
  split; [reflexivity|]. split; [reflexivity|].
  split; [apply not_ctxb; vm_compute; reflexivity|]. split; [apply not_ctxb; vm_compute; reflexivity|].
  split; [vm_compute; discriminate|]. split; [apply header_cells_b; vm_compute; reflexivity|].
  split. { apply NoDup_count_occ' with (decA := list_eq_dec ascii_dec). intros x I. vm_compute in I.
           repeat (destruct I as [<-|I]; [vm_compute; reflexivity|]). destruct I. }
  split. { match goal with |- Permutation ?a ?b => let a' := eval vm_compute in a in let b' := eval vm_compute in b in
             change (Permutation a' b') end. apply P. }
  split. { constructor; [|constructor]. apply data_lineb. vm_compute. reflexivity. }
  split. { constructor; [|constructor]. split; [apply not_ctxb; vm_compute; reflexivity|].
           split; [apply not_ctxb; vm_compute; reflexivity|]. split; [vm_compute; reflexivity|]. split; [vm_compute; reflexivity|].
           match goal with |- Permutation ?a ?b => let a' := eval vm_compute in a in let b' := eval vm_compute in b in
             change (Permutation a' b') end. apply P2. }
  match goal with |- match ?f with _ => _ end => let f' := eval vm_compute in f in change f with f' end. cbv iota.
  intros [H _]. apply H. left. eexists. vm_compute. reflexivity.
Qed.

(** * C19 *)
Theorem C19_records : forall T content t, tables_ok T -> psv_tree T content = Some t ->
  Forall (good_record T) (records t).
Proof. intros T c t HT E. apply psv_correct in E; auto. eapply records_good; eauto. Qed.
(** the texts are the fields: the value a row gives to a column of its header is
    the text of the child of that name, and an empty value gives no child *)
Theorem C19_values : forall al ty cols row k, NoDup al -> In k al ->
  filter (is_tag k) (xkids (row_tree al ty cols row)) =
  match value_of cols row k with [] => [] | v => [leaf k v] end.
Proof.
  intros al ty cols row k N I. unfold row_tree. cbn [xkids].
  induction N as [|x al NI N IH]; [destruct I|]. cbn [filter].
  assert (H0 : ~ In k al -> filter (is_tag k) (map (fun k => leaf k (value_of cols row k)) (filter (fun k => negb (streqb (value_of cols row k) [])) al)) = []).
  { clear. induction al as [|y al IH]; intros NI; [reflexivity|]. cbn [filter].
    assert (NI' : ~ In k al) by (intros J; apply NI; now right). specialize (IH NI').
    destruct (negb (streqb (value_of cols row y) [])); auto. cbn [map filter]. unfold is_tag at 1. cbn [xtag leaf].
    destruct (streqb y k) eqn:E; auto. apply streqb_eq in E. subst. exfalso. apply NI. now left. }
  destruct I as [->|I].
  - specialize (H0 NI). destruct (value_of cols row k) as [|c v] eqn:V; cbn [streqb negb].
    + exact H0.
    + cbn [map filter]. unfold is_tag at 1. cbn [xtag leaf].
      replace (streqb k k) with true by (symmetry; now apply streqb_eq). rewrite V. f_equal. exact H0.
  - specialize (IH I). destruct (negb (streqb (value_of cols row x) [])); auto. cbn [map filter]. unfold is_tag at 1. cbn [xtag leaf].
    destruct (streqb x k) eqn:E; auto. apply streqb_eq in E. subst. contradiction.
Qed.
(** the header of every section that is read has the required columns of its type *)
Theorem C19_required : forall T rest d, Forall2 (reads_as T) rest (doc_lines d) ->
  Forall (fun s => exists rq, dget (s_type s) (required T) = Some rq /\ incl rq (s_cols s)) (d_secs d).
Proof.
  intros T rest d F. eapply Forall_impl; [|exact (sections_typed T rest d F)].
  intros s [(pre & post & _ & (al & rq & _ & R & _ & I) & _) _]. eauto.
Qed.
(** but a row may leave required columns empty *)
Theorem C19_required_blank_refuted :
  exists t, psv_tree ades_tables (file [$"# version=2017"; $"trx|rcv|obsTime|frq"; $"251|252||"]) = Some t /\
    map (fun r => map xtag (xkids r)) (records t) = [[$"trx"; $"rcv"]] /\
    dget $"radar" (required ades_tables) = Some [$"trx"; $"rcv"; $"obsTime"; $"frq"].
Proof. eexists. split; [vm_compute; reflexivity|]. vm_compute. split; reflexivity. Qed.

(** * C21 *)
(** a row with more cells than its header, or with no header to govern it: the
    conversion stops; the exception is NameError *)
Theorem C21_too_many : forall T content pre raw post d, tables_ok T ->
  lines_of content = pre ++ raw :: post -> prefix_means T pre d -> data_line raw ->
  match current_columns d with Some cols => (length cols < length (cells raw))%nat | None => True end ->
  psvtoxml T content g_init = Err NameError.
Proof. exact too_many. Qed.
Theorem C21_fewer : forall T c c', tables_ok T ->
  rows_padded (lines_of c) (lines_of c') -> psv_tree T c = psv_tree T c'.
Proof. exact padded_ok. Qed.
Example C21_too_many_example :
  psvtoxml ades_tables (file [$"# version=2017"; $"trx|rcv|obsTime|frq"; $"251|252|2017-01-01T00:00:01Z|2380|"]) g_init = Err NameError /\
  psvtoxml ades_tables (file [$"# version=2017"; $"251|252|2017-01-01T00:00:01Z|2380"]) g_init = Err NameError.
Proof. vm_compute. split; reflexivity. Qed.
Example C21_fewer_example :
  rows_padded
   (lines_of (file [$"# version=2017"; $"trx|rcv|obsTime|frq|remarks"; $"251|252|2017-01-01T00:00:01Z|2380"]))
   (lines_of (file [$"# version=2017"; $"trx|rcv|obsTime|frq|remarks"; $"251|252|2017-01-01T00:00:01Z|2380|"])).
Proof.
  rewrite !lines_of_file by (apply plain_lines; vm_compute; reflexivity).
  exists [$"# version=2017"], $"trx|rcv|obsTime|frq|remarks", [$"251|252|2017-01-01T00:00:01Z|2380"], [$"251|252|2017-01-01T00:00:01Z|2380|"], [].
  split; [reflexivity|]. split; [reflexivity|].
  split; [apply not_ctxb; vm_compute; reflexivity|]. 
  split; [vm_compute; discriminate|]. split; [apply header_cells_b; vm_compute; reflexivity|].
  split. { apply NoDup_count_occ' with (decA := list_eq_dec ascii_dec). intros x I. vm_compute in I.
           repeat (destruct I as [<-|I]; [vm_compute; reflexivity|]). destruct I. }
  split. { constructor; [|constructor]. apply data_lineb. vm_compute. reflexivity. }
  split. { constructor; [|constructor]. apply data_lineb. vm_compute. reflexivity. }
  split; [|exact I]. constructor; [|constructor]. split; [vm_compute; lia|]. split; [vm_compute; lia|].
  exists 1%nat. left. vm_compute. reflexivity.
Qed.

(** * C23 *)
(** After a conversion that produced any element, a second conversion in the
    same process fails for every file that starts with its version line. *)
Theorem C23_second_call : forall T c1 t1 g c2 b vl r v, tables_ok T ->
  psvtoxml T c1 g_init = Ok (t1, g) -> xkids t1 <> [] \/ g_state g <> EMPTY ->
  lines_of c2 = b ++ vl :: r -> Forall all_space b -> version_line vl v ->
  exists e, psvtoxml T c2 g = Err e /\ (e = SystemExit \/ e = NameError).
Proof. exact second_call. Qed.
Example C23_example :
  let c := file [$"# version=2017"; $"trx|rcv|obsTime|frq"; $"251|252|2017-01-01T00:00:01Z|2380"] in
  exists t g, psvtoxml ades_tables c g_init = Ok (t, g) /\ xkids t <> [] /\
    psvtoxml ades_tables c g = Err SystemExit.
Proof. eexists. eexists. split; [vm_compute; reflexivity|]. split; [discriminate|]. vm_compute. reflexivity. Qed.
(** after a file that is nothing but a version line, a second file without a
    version line is accepted and its first element becomes the root *)
Example C23_example_empty :
  exists t g t' g', psvtoxml ades_tables (file [$"# version=2017"]) g_init = Ok (t, g) /\ xkids t = [] /\ g_state g = EMPTY /\
    psvtoxml ades_tables (file [$"# observatory"; $"! mpcCode F51"]) g = Ok (t', g') /\ xtag t' = $"obsBlock".
Proof. do 4 eexists. split; [vm_compute; reflexivity|]. split; [reflexivity|]. split; [reflexivity|]. split; vm_compute; reflexivity. Qed.

(** * C24 *)
(** a last line without newline loses its last character *)
Theorem C24_last_line : forall T c x g, no_cr (c ++ [x]) -> x <> nl ->
  psvtoxml T (c ++ [x]) g = psvtoxml T (c ++ [nl]) g.
Proof. exact last_char. Qed.
Theorem C24_lines : forall ls l x, Forall plain_line ls -> plain_line (l ++ [x]) ->
  lines_of (file ls ++ l ++ [x]) = ls ++ [l].
Proof.
  intros ls l x F [N C]. unfold lines_of. rewrite app_assoc.
  assert (NC : no_cr (file ls ++ l ++ [x])).
  { intros I. apply in_app_or in I as [I|I]; auto. apply in_concat in I as (y & I & J). apply in_map_iff in I as (l' & <- & I).
    rewrite Forall_forall in F. destruct (F _ I) as [_ K]. apply in_app_or in J as [J|[J|[]]]; auto. discriminate J. }
  rewrite <- app_assoc, univ_no_cr, app_assoc by auto.
  rewrite file_lines_snoc by (apply ceqb_neq; intros ->; apply N; apply in_or_app; right; now left).
  assert (P : plain_line l) by (split; intros I; [apply N|apply C]; apply in_or_app; now left).
  rewrite <- (lines_of_file (ls ++ [l])) by (apply Forall_app; auto). unfold lines_of.
  replace ((file ls ++ l) ++ [nl]) with (file (ls ++ [l])).
  - rewrite univ_no_cr; auto. intros I. apply in_concat in I as (y & I & J). apply in_map_iff in I as (l' & <- & I).
    apply in_app_or in I as [I|[<-|[]]].
    + rewrite Forall_forall in F. destruct (F _ I) as [_ K]. apply in_app_or in J as [J|[J|[]]]; auto. discriminate J.
    + destruct P as [_ K]. apply in_app_or in J as [J|[J|[]]]; auto. discriminate J.
  - unfold file. rewrite map_app, concat_app. cbn. now rewrite app_nil_r, app_assoc.
Qed.
(** the usual line ends are all the same *)
Theorem C24_line_ends : forall T e ls g, Forall plain_line ls -> In e [[cr; nl]; [cr]] ->
  psvtoxml T (file_with e ls) g = psvtoxml T (file ls) g.
Proof. intros T e ls g F I. unfold psvtoxml. now rewrite univ_file_with. Qed.
Example C24_example :
  exists t, psv_tree ades_tables (file [$"# version=2017"; $"trx|rcv|obsTime|frq"] ++ $"251|252|2017-01-01T00:00:01Z|2380") = Some t /\
    map (fun r => map xtext (xkids r)) (records t) = [[$"251"; $"252"; $"2017-01-01T00:00:01Z"; $"238"]].
Proof. eexists. split; [vm_compute; reflexivity|]. vm_compute. reflexivity. Qed.

Print Assumptions C20_master_tables.
Print Assumptions C20_lines.
Print Assumptions C20_psvtoxml.
Print Assumptions C20_shape.
Print Assumptions C20_refused.
Print Assumptions C20_complete_refuted.
Print Assumptions C18_blanks.
Print Assumptions C18_columns.
Print Assumptions C19_records.
Print Assumptions C19_values.
Print Assumptions C19_required.
Print Assumptions C19_required_blank_refuted.
Print Assumptions C21_too_many.
Print Assumptions C21_fewer.
Print Assumptions C23_second_call.
Print Assumptions C24_last_line.
Print Assumptions C24_line_ends.
Print Assumptions C24_lines.
