(** C42: how the PSV file is laid out. *)
From Verif Require Import PyStrProofs AdesMasterTables XmlToPsv PsvSpec2 RoundSpec JustSpec LayoutSpec LayoutProofs1 LayoutProofs2.
Local Open Scope nat_scope.

(** Whatever tree is printed: the file is the version line and then, chunk by
    chunk, the headers of blocks and the sections of records, where names are
    padded on the right, values are at the left, at the right, centred or with
    their points below each other, and missing values are blanks. *)
Theorem C42_layout T t content : xmltopsv T t = Ok content ->
  exists lss, Forall2 chunk_lines (chunks (xkids t) None []) lss /\
    content = concat (map (fun l => l ++ [nl]) (($"# version=" ++ version_of t) :: concat lss)).
Proof. exact (psv_layout T t content). Qed.
Print Assumptions C42_layout.
(** The lines of a section, before blanks at their ends are removed, have their
    bars below each other if in each column the first value has the most
    characters before its point. *)
Theorem C42_bars rs lines : section rs lines -> (forall k, first_longest (column_values rs k)) ->
  exists names, (forall k, In k names <-> exists r, In r rs /\ rec_value r k <> []) /\ aligned names rs lines.
Proof. exact (straight_bars rs lines). Qed.
Print Assumptions C42_bars.

(** * Examples *)
Definition val (n t : str) : xml := Elem n [] t [].
Definition obs (ra rms : str) : xml := Elem $"optical" [] [] [val $"trkSub" $"a1"; val $"ra" ra; val $"rmsRA" rms; val $"mag" $"18.5"].
Definition doc (rs : list xml) : xml := Elem $"ades" [($"version", $"2022")] [] rs.
Definition lines_of (rs : list xml) : list str := match xmltopsv_lines ades_tables (doc rs) with Ok (_ :: ls) => ls | _ => [] end.
Definition straight : list xml := [obs $"112.5" $"1000.1"; obs $"1.123456789" $"0.1234"].
Definition ragged : list xml := [obs $"1.123456789" $"0.1234"; obs $"112.5" $"1000.1"].
Definition names4 : list str := [$"trkSub"; $"ra"; $"rmsRA"; $"mag"].
Example C42_example :
  xmltopsv_lines ades_tables (doc straight) = Ok ($"# version=2022" :: lines_of straight) /\
  lines_of straight =
    [$"trkSub |ra           |rmsRA    |mag";
     $"     a1|112.5        |1000.1   |18.5";
     $"     a1|  1.123456789|   0.1234|18.5"] /\
  (forall k, In k names4 -> first_longest (column_values straight k)) /\ section straight (lines_of straight).
Proof.
  split; [vm_compute; reflexivity|]. split; [vm_compute; reflexivity|]. split.
  - intros k I. destruct I as [<-|[<-|[<-|[<-|[]]]]]; repeat constructor; vm_compute; repeat constructor.
  - destruct (psv_lines ades_tables (doc straight) ($"# version=2022" :: lines_of straight)) as (lss & F & E); [vm_compute; reflexivity|].
    change (chunks (xkids (doc straight)) None []) with [Records []; Records straight] in F. inversion F as [|? l1 ? ls1 F1 F2]; subst. inversion F2 as [|? l2 ? ls2 F3 F4]; subst. inversion F4; subst.
    cbn [chunk_lines] in F1. subst l1. cbn [concat app] in E. rewrite app_nil_r in E. apply (f_equal (@tl str)) in E. cbn [tl] in E. rewrite E. exact F3.
Qed.
(** a value with fewer characters before the point, but more behind it, in front
    of one with more: the column is too narrow for it *)
Theorem C42_bars_refuted : xmltopsv_lines ades_tables (doc ragged) = Ok ($"# version=2022" :: lines_of ragged) /\
  lines_of ragged =
    [$"trkSub |ra           |rmsRA  |mag";
     $"     a1|  1.123456789|   0.1234|18.5";
     $"     a1|112.5        |1000.1 |18.5"] /\ ~ aligned names4 ragged (lines_of ragged).
Proof.
  split; [vm_compute; reflexivity|]. split; [vm_compute; reflexivity|].
  intros (ws & c0 & rows & E & F0 & W0 & R).
  assert (lines_of ragged = [$"trkSub |ra           |rmsRA  |mag"; $"     a1|  1.123456789|   0.1234|18.5"; $"     a1|112.5        |1000.1 |18.5"]) as L by (vm_compute; reflexivity).
  rewrite L in E. injection E as E0 ER. rewrite <- ER in R. inversion R as [|? ? ? ? (c1 & E1 & F1 & W1) _]; subst.
  assert (K : forall vs cs, Forall2 around vs cs -> forallb (fun v => negb (existsb (ceqb "|") v)) vs = true -> Forall (fun c => ~ In "|"%char c) cs).
  { clear. intros vs cs F. induction F as [|v x vs cs A F IH]; intro H; constructor; cbn [forallb] in H; apply andb_prop in H as [H1 H2]; [|now apply IH].
    apply (around_no_pipe v x A). intro I. apply negb_true_iff in H1. assert (existsb (ceqb "|") v = true) as Q by (apply existsb_exists; exists "|"%char; now split). rewrite H1 in Q. discriminate Q. }
  assert (F1' : Forall2 around (map (rec_value (obs $"1.123456789" $"0.1234")) names4) c1).
  { clear - F1. induction F1; cbn [map]; constructor; assumption. }
  destruct (cells_of c0 _ ltac:(intros ->; inversion F0) (K _ _ F0 ltac:(vm_compute; reflexivity)) E0) as (l0 & Q0).
  destruct (cells_of c1 _ ltac:(intros ->; inversion F1') (K _ _ F1' ltac:(vm_compute; reflexivity)) E1) as (l1 & Q1).
  apply (f_equal (fun w => nth 2 w 0)) in W1. rewrite Q0, Q1 in W1. vm_compute in W1. discriminate W1.
Qed.
Print Assumptions C42_bars_refuted.
(** a block without data prints the records before it again *)
Example C42_empty_block :
  let b := Elem $"obsBlock" [] [] [Elem $"obsContext" [] [] [Elem $"comment" [] [] [val $"line" $"none"]]] in
  chunks [obs $"1.5" $"0.1"; b] None [] = [Records []; Records [obs $"1.5" $"0.1"]; Context [$"# comment"; $"! line none"]; Records [obs $"1.5" $"0.1"]] /\
  lines_of [obs $"1.5" $"0.1"; b] = lines_of [obs $"1.5" $"0.1"] ++ [$"# comment"; $"! line none"] ++ lines_of [obs $"1.5" $"0.1"].
Proof. split; vm_compute; reflexivity. Qed.
