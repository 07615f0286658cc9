(** Files made of lines. *)
From Verif Require Import PyStrProofs PsvToXml PsvSpec PsvLines PsvProofs6.

(** a file made of lines *)
Definition file (ls : list str) : str := concat (map (fun l => l ++ [nl]) ls).
Definition plain_line (l : str) : Prop := ~ In nl l /\ ~ In cr l.

Lemma file_lines_app l s : ~ In nl l -> file_lines (l ++ nl :: s) = (l ++ [nl]) :: file_lines s.
Proof.
  induction l as [|c l IH]; intros N; cbn [app file_lines].
  - reflexivity.
  - replace (ceqb c nl) with false by (symmetry; apply ceqb_neq; intros ->; apply N; now left).
    rewrite IH by (intros I; apply N; now right). reflexivity.
Qed.
Lemma lines_of_file ls : Forall plain_line ls -> lines_of (file ls) = ls.
Proof.
  intros F. unfold lines_of. rewrite univ_no_cr.
  - unfold file. induction F as [|l ls [N _] F IH]; [reflexivity|]. cbn [map concat]. rewrite <- app_assoc. cbn [app].
    rewrite file_lines_app by auto. cbn [map]. rewrite IH. f_equal. apply removelast_last.
  - unfold no_cr, file. intros I. apply in_concat in I as (x & I & J). apply in_map_iff in I as (l & <- & I).
    rewrite Forall_forall in F. destruct (F l I) as [_ N]. apply in_app_or in J as [J|[J|[]]]; auto. discriminate J.
Qed.
Definition plainb (l : str) : bool := negb (existsb (fun c => ceqb c nl || ceqb c cr) l).
Lemma plainb_ok l : plainb l = true -> plain_line l.
Proof.
  unfold plainb. rewrite negb_true_iff. intros H. split; intros I.
  - assert (existsb (fun c => ceqb c nl || ceqb c cr) l = true); [|congruence]. apply existsb_exists. eexists; split; eauto.
  - assert (existsb (fun c => ceqb c nl || ceqb c cr) l = true); [|congruence]. apply existsb_exists. eexists; split; eauto.
Qed.
Lemma plain_lines ls : forallb plainb ls = true -> Forall plain_line ls.
Proof. rewrite forallb_forall. intros H. apply Forall_forall. intros l I. apply plainb_ok. auto. Qed.


(** the same with other line ends *)
Definition file_with (e : str) (ls : list str) : str := concat (map (fun l => l ++ e) ls).
Lemma univ_line l s : plain_line l -> univ_newlines (l ++ s) = l ++ univ_newlines s.
Proof.
  intros [N C]. induction l as [|c l IH]; [reflexivity|]. cbn [app univ_newlines].
  replace (ceqb c cr) with false by (symmetry; apply ceqb_neq; intros ->; apply C; now left).
  rewrite IH; auto; intros I; [apply N|apply C]; now right.
Qed.
Lemma univ_crlf s : univ_newlines (cr :: nl :: s) = nl :: univ_newlines s. Proof. reflexivity. Qed.
Lemma univ_nl s : univ_newlines (nl :: s) = nl :: univ_newlines s. Proof. reflexivity. Qed.
Lemma univ_file_with e ls : Forall plain_line ls -> In e [[cr; nl]; [cr]] ->
  univ_newlines (file_with e ls) = univ_newlines (file ls).
Proof.
  intros F I. unfold file_with, file. induction F as [|l ls P F IH]; [reflexivity|]. cbn [map concat].
  rewrite <- !app_assoc. rewrite (univ_line l) by auto. rewrite (univ_line l) by auto. f_equal. cbn [app]. destruct I as [<-|[<-|[]]]; cbn [app].
  - rewrite univ_crlf, univ_nl. f_equal. exact IH.
  - assert (univ_newlines (cr :: concat (map (fun l => l ++ [cr]) ls)) = nl :: univ_newlines (concat (map (fun l => l ++ [cr]) ls))) as ->.
    { destruct ls as [|l2 ls]; [reflexivity|]. inversion F as [|? ? [N2 C2] F2]; subst. cbn [map concat].
      destruct l2 as [|c l2]; [reflexivity|]. cbn. 
      replace (ceqb c nl) with false by (symmetry; apply ceqb_neq; intros ->; apply N2; now left). reflexivity. }
    rewrite univ_nl. f_equal. exact IH.
Qed.
