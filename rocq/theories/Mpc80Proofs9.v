From Verif Require Import FmtRe PyStrProofs PackProofs13 PackProofs14 PyReProofs.
From Verif Require Import Mpc80.
From Verif Require Export Mpc80Proofs8 FileLines.
Local Open Scope nat_scope.

(** * The whole call, given the lines the generator yields *)
Lemma feed_nothing rs : feed (fun (_ : item) (c : unit) => (c, @None exn)) rs tt = (tt, None).
Proof. induction rs as [|d rs IH]; [reflexivity|]. cbn [feed]. exact IH. Qed.
Theorem conclude_gen T (gen : list str * option exn) (nosplit : bool) content :
  gen = (if nosplit then doNotSplitRadar (file_lines (univ_newlines content)) else splitRadar (file_lines (univ_newlines content))) ->
  Forall (fun x => ~ In nl (removelast x)) (fst gen) ->
  mpc80coltoxml T nosplit content = conclude T (ended (records (read (map (@removelast ascii) (fst gen)))) (snd gen)).
Proof.
  intros E F. unfold mpc80coltoxml. rewrite <- E. destruct gen as [gs g]. cbn [fst snd] in *.
  rewrite (parseFile_records (fun (_ : item) (c : unit) => (c, @None exn))) by auto.
  destruct c_init as [c|ex] eqn:CI; [|discriminate CI].
  rewrite parseFile_records by auto. unfold conclude, ended. rewrite CI.
  destruct (records (read (map (@removelast ascii) gs))) as [rs e].
  rewrite feed_nothing.
  destruct e as [e|]; destruct g as [g|]; cbn [then_end]; destruct (feed (convertit T) rs c) as [c' [ex|]]; cbn [then_end];
    try reflexivity; destruct (es_takeTreeAndClear (c_stack c')) as [[t s']|?]; reflexivity.
Qed.

(** * The lines of a file *)
(** what is looked at of a line, with its newline *)
Definition shown (l : str) : str := firstn 81 (l ++ [nl]).
Lemma shown_data l : removelast (shown l) = firstn 80 l.
Proof.
  unfold shown. destruct (Nat.le_gt_cases (length l) 80) as [L|L].
  - rewrite firstn_all2 by (rewrite app_length; cbn [length]; lia). rewrite removelast_last. now rewrite firstn_all2.
  - rewrite firstn_app, (proj2 (Nat.sub_0_le 81 (length l))) by lia. rewrite firstn_O, app_nil_r.
    change 81 with (S 80). rewrite removelast_firstn by lia. reflexivity.
Qed.
Lemma shown_nl ls : Forall plain_line ls -> Forall (fun x => ~ In nl (removelast x)) (map shown ls).
Proof.
  intros F. apply Forall_forall. intros x I. apply in_map_iff in I as (l & <- & I).
  rewrite Forall_forall in F. destruct (F l I) as [N _]. rewrite shown_data. intros J. apply N. rewrite <- (firstn_skipn 80 l). apply in_or_app. now left.
Qed.
Lemma file_lines_file ls s : Forall plain_line ls -> file_lines (file ls ++ s) = map (fun l => l ++ [nl]) ls ++ file_lines s.
Proof.
  intros F. unfold file. induction F as [|l ls [N _] F IH]; [reflexivity|]. cbn [map concat]. rewrite <- !app_assoc. cbn [app].
  rewrite file_lines_app by auto. now rewrite IH.
Qed.
Lemma univ_file ls s : Forall plain_line ls -> univ_newlines (file ls ++ s) = file ls ++ univ_newlines s.
Proof.
  intros F. unfold file. induction F as [|l ls P F IH]; [reflexivity|]. cbn [map concat]. rewrite <- !app_assoc.
  rewrite univ_line by auto. f_equal. cbn [app]. rewrite univ_nl. now rewrite IH.
Qed.
Lemma file_lines_all ls : Forall plain_line ls -> file_lines (univ_newlines (file ls)) = map (fun l => l ++ [nl]) ls.
Proof.
  intros F. rewrite <- (app_nil_r (file ls)). rewrite univ_file, file_lines_file by auto. cbn. now rewrite app_nil_r.
Qed.
Theorem nosplit_file T ls : Forall plain_line ls ->
  mpc80coltoxml T true (file ls) = conclude T (records (read (map (firstn 80) ls))).
Proof.
  intros F. rewrite (conclude_gen T (map shown ls, None) true (file ls)).
  - cbn [fst snd]. rewrite map_map. rewrite (map_ext _ _ shown_data). unfold ended. destruct (records _) as [rs [e|]]; reflexivity.
  - rewrite file_lines_all by auto. unfold doNotSplitRadar. now rewrite map_map.
  - cbn [fst]. apply shown_nl. exact F.
Qed.
