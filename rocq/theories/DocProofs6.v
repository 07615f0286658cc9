From Verif Require PropsPack PackSpec.
From Verif Require Import FmtRe PyStrProofs PackProofs13 PackProofs14 PyReProofs.
From Verif Require Import Mpc80.
From Verif Require Export DocProofs5 Mpc80Proofs13.
Local Open Scope nat_scope.

(** * The records of a file are records *)
Definition optical_record (d : item) : Prop :=
  (exists c, dget $"code" d = Some (@Some str [c]) /\ In c $"A PeCBTMcEOHNnSVXx") /\
  present $"astCat" d /\ present $"mag" d /\ present $"band" d /\ present $"notes" d /\ present $"stn" d /\
  present $"packedref" d /\ (exists p, program d = Ok p) /\
  dget $"mode" d = None /\ dget $"prog" d = None /\ dget $"ref" d = None /\ dget $"deprecated" d = None /\ dget $"subFrm" d = None.
Lemma in_kinds c s : cmem c s = true -> In c s.
Proof.
  unfold cmem. destruct (cfind c s) as [n|] eqn:E; [|discriminate]. intros _. revert n E. induction s as [|x s IH]; intros n E; [discriminate|].
  cbn [cfind] in E. destruct (ceqb x c) eqn:Q; [apply ceqb_eq in Q; now left|]. right. destruct (cfind c s) as [m|]; [|discriminate]. eauto.
Qed.
Lemma program_ok d stn note : text_of d $"stn" = stn -> text_of d $"notes" = note -> note_ok stn note -> exists p, program d = Ok p.
Proof.
  intros S N (c & E & I). unfold program, has_programs. rewrite S, N, E. destruct (smem stn programCodeSites); cbn [andb]; [|eauto].
  destruct (streqb [c] $" ") eqn:B; cbn [negb]; [eauto|]. destruct I as [<-|I]; [discriminate B|].
  apply (PropsPack.C13_domain c). clear - I.
  assert (forallb PackSpec.prog_ok programCodesArray = true) as F by (vm_compute; reflexivity).
  rewrite forallb_forall in F. auto.
Qed.
Lemma decoded_cases d : decoded d ->
  (exists k v, d = hitem k v) \/ optical_record d \/ is_kind "R" d = true \/ second_line d = true.
Proof.
  intros (l & H & NE).
  destruct H as [k v Le I E|t p perm prov trk ra pra de pde NH F A0 R0 DE
                            |t p perm prov trk shift NH F A0 S|t p perm prov trk NH F A0
                            |t p perm prov trk x y z dp sys NH F A0 SY P1 P2 P3|t p perm prov trk NH F A0|E].
  - left. exists k, v. reflexivity.
  - right. left. destruct (kind_char _ _ _ F eq_refl eq_refl) as (c & C & K).
    split; [exists c; split; [rewrite <- C; reflexivity|now apply in_kinds]|].
    do 6 (split; [eexists; reflexivity|]). split; [|repeat (split; [reflexivity|]); reflexivity].
    destruct A0 as (_ & NO & _). apply (program_ok _ (cols 78 80 l) (cols 14 14 l)); auto.
  - right. right. left. destruct (kind_char _ _ _ F eq_refl eq_refl) as (c & C & K). apply in_kinds in K. destruct K as [<-|[]].
    unfold is_kind, text_of. match goal with |- context [dget $"code" ?d] => change (dget $"code" d) with (Some (Some (cols 15 15 l))) end. cbv iota. rewrite C. reflexivity.
  - right. right. right. destruct (kind_char _ _ _ F eq_refl eq_refl) as (c & C & K). apply in_kinds in K. destruct K as [<-|[]].
    unfold second_line, is_kind, text_of. match goal with |- context [dget $"code" ?d] => change (dget $"code" d) with (Some (Some (cols 15 15 l))) end. cbv iota. rewrite C. reflexivity.
  - right. right. right. destruct (kind_char _ _ _ F eq_refl eq_refl) as (c & C & K). apply in_kinds in K. destruct K as [<-|[]].
    unfold second_line, is_kind, text_of. match goal with |- context [dget $"code" ?d] => change (dget $"code" d) with (Some (Some (cols 15 15 l))) end. cbv iota. rewrite C. reflexivity.
  - right. right. right. destruct (kind_char _ _ _ F eq_refl eq_refl) as (c & C & K). apply in_kinds in K. destruct K as [<-|[]].
    unfold second_line, is_kind, text_of. match goal with |- context [dget $"code" ?d] => change (dget $"code" d) with (Some (Some (cols 15 15 l))) end. cbv iota. rewrite C. reflexivity.
  - congruence.
Qed.
Lemma read_decoded ls a : Forall (fun l => ~ In nl l) ls -> In (Got a) (read ls) -> decoded a.
Proof.
  intros F I. unfold read in I. apply in_flat_map in I as (l & I1 & I2). rewrite Forall_forall in F.
  destruct (read_line_cases l (F l I1)) as [E|[(d & E & D)|(e & E & _)]]; rewrite E in I2.
  - destruct I2.
  - destruct I2 as [I2|[]]. injection I2 as <-. exact D.
  - destruct I2 as [I2|[]]. discriminate.
Qed.
Lemma updated_get k kvs : forall d, existsb (fun kv => streqb k (fst kv)) kvs = false -> dget k (updated kvs d) = dget k d.
Proof.
  unfold updated. induction kvs as [|[q v] kvs IH]; intros d E; [reflexivity|]. cbn [existsb fst] in E. apply orb_false_iff in E as [E1 E2].
  cbn [fold_left fst snd]. rewrite IH by auto. unfold iset. now rewrite get_set, E1.
Qed.
Lemma updated_present k kvs d : existsb (fun kv => streqb k (fst kv)) kvs = false -> present k d -> present k (updated kvs d).
Proof. intros E (v & H). exists v. now rewrite updated_get. Qed.
Lemma not_second_pair a b : pairs_with a b = true -> second_line a = false /\ header a = false.
Proof.
  unfold pairs_with, second_line, header, is_kind. intros H.
  assert (text_of a $"code" = $"R" \/ text_of a $"code" = $"S" \/ text_of a $"code" = $"V") as [-> |[-> | ->]]; [|split; reflexivity..].
  apply orb_prop in H as [H|H]; [apply orb_prop in H as [H|H]|]; apply andb_prop in H as [H _]; apply streqb_eq in H; auto.
Qed.
Theorem file_records ls d : Forall (fun l => ~ In nl l) ls -> In d (fst (records (read ls))) -> record_of_file d.
Proof.
  intros F I. destruct (records_origin _ _ I) as [(p & q & E & NF & NS)|(a & b & p & q & E & PW & SR & ->)].
  - assert (decoded d) as D by (eapply read_decoded; eauto; rewrite E; apply in_or_app; right; now left).
    destruct (decoded_cases d D) as [H|[(C & P1 & P2 & P3 & P4 & P5 & P6 & PG & N1)|[H|H]]]; [left; exact H| |right; left; exact H|congruence].
    right. right. repeat (split; [assumption|]). split; [|exact N1].
    intros V. unfold first_line in NF. rewrite V, orb_true_r in NF. discriminate.
  - assert (decoded a) as D by (eapply read_decoded; eauto; rewrite E; apply in_or_app; right; now left).
    destruct (not_second_pair a b PW) as [NS NH].
    destruct (decoded_cases a D) as [(k & v & ->)|[(C & P1 & P2 & P3 & P4 & P5 & P6 & PG & N1 & N2 & N3 & N4 & N5)|[H|H]]]; [discriminate NH| | |congruence].
    + unfold joined. destruct (is_kind "R" a) eqn:R.
      * right. left. unfold is_kind, text_of. rewrite updated_get by reflexivity. exact R.
      * right. right. destruct C as (c & C & IC).
        split; [exists c; rewrite updated_get by reflexivity; auto|].
        do 6 (split; [apply updated_present; [reflexivity|assumption]|]).
        split; [destruct PG as (pg & PG); exists pg; unfold program, has_programs, text_of in *; rewrite !updated_get by reflexivity; exact PG|].
        split; [|repeat (split; [rewrite updated_get by reflexivity; assumption|]); rewrite updated_get by reflexivity; assumption].
        intros _. unfold updated. cbn [map fold_left fst snd]. unfold iset. eexists. rewrite get_set. reflexivity.
    + right. left. unfold joined. rewrite H. unfold is_kind, text_of. rewrite updated_get by reflexivity. exact H.
Qed.

(** * Files *)
Lemma split_no_nl ls : readable ls -> Forall (fun l => ~ In nl l) (fst (split_radar (map (firstn 80) ls))).
Proof.
  intros P.
  assert (agrees (splitRadar (map (fun l => l ++ [nl]) ls)) (split_radar (map (firstn 80) ls))) as (A1 & A2 & A3).
  { eapply split_agrees; [apply Nat.lt_succ_diag_r| |].
    - apply raw_lines. eapply Forall_impl; [|exact (proj1 P)]. intros a [N _]. exact N.
    - apply whole_cut, P. }
  rewrite <- A1. apply Forall_map. exact A3.
Qed.
Theorem file_document T nosplit ls : readable ls -> mpc80coltoxml T nosplit (file ls) = conclude T (records_of nosplit ls).
Proof.
  intros P. destruct nosplit; unfold records_of.
  - apply nosplit_file, P.
  - rewrite split_file by apply P.
    now destruct (split_radar (map (firstn 80) ls)).
Qed.
Theorem all_records nosplit ls rs : readable ls -> records_of nosplit ls = (rs, None) -> Forall record_of_file rs.
Proof.
  intros P E. apply Forall_forall. intros d I. destruct nosplit; unfold records_of in E.
  - apply (file_records (map (firstn 80) ls)); [|now rewrite E]. apply Forall_map. eapply Forall_impl; [|exact (proj1 P)]. intros a [N _]. now apply no_nl_firstn.
  - pose proof (split_no_nl ls P) as N. destruct (split_radar (map (firstn 80) ls)) as [ls' e]. cbn [fst] in N.
    apply (file_records ls'); auto. unfold ended in E. destruct (records (read ls')) as [rs' [e'|]]; [discriminate|]. injection E as <- _. exact I.
Qed.
