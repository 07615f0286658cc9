(** Lemmas about ValueSpec, part 2: decimal numbers. *)
From Verif Require Import PyStrProofs SchemaProofs1 SchemaProofs2 SchemaProofs3.
From Verif Require Import XsdPattern XsdFiles XsdMatch IdSpec IdProofs3 IdProofs4 IdProofs5 ValueSpec ValueProofs1.
From Coq Require Import Lqa.
Local Open Scope nat_scope.

Definition point : ascii := "."%char.
Lemma point_nodig : isdig point = false. Proof. reflexivity. Qed.
Lemma digits_until a a' b b' : forallb isdig a = true -> forallb isdig a' = true ->
  a ++ point :: b = a' ++ point :: b' -> a = a' /\ b = b'.
Proof.
  revert a'. induction a as [|x a IH]; intros [|y a'] H H' E.
  - injection E as ->. auto.
  - injection E as <- _. discriminate H'.
  - injection E as -> _. discriminate H.
  - cbn [forallb] in H, H'. apply andb_prop in H as [_ H], H' as [_ H']. cbn [app] in E. injection E as -> E. destruct (IH _ H H' E) as [-> ->]. auto.
Qed.
Lemma digits_no_point a a' b' : forallb isdig a = true -> a = a' ++ point :: b' -> False.
Proof. intros H E. rewrite E, forallb_app in H. apply andb_prop in H as [_ H]. discriminate H. Qed.
(** a numeral: digits, or digits with a point *)
Inductive numeral : str -> str -> str -> Prop :=
| numeral_whole a : forallb isdig a = true -> a <> [] -> numeral a a []
| numeral_point a b : forallb isdig a = true -> forallb isdig b = true -> a ++ b <> [] -> numeral (a ++ point :: b) a b.
Lemma numeral_fun w a b a' b' : numeral w a b -> numeral w a' b' -> a = a' /\ b = b'.
Proof.
  intros [x Hx Nx|x y Hx Hy N] H.
  - inversion H as [x' Hx' Nx'|x' y' Hx' Hy' N' E]; [auto|]. symmetry in E. destruct (digits_no_point _ _ _ Hx E).
  - inversion H as [x' Hx' Nx' E|x' y' Hx' Hy' N' E]; subst.
    + now destruct (digits_no_point (x ++ point :: y) x y Hx').
    + destruct (digits_until _ _ _ _ Hx' Hx E) as [-> ->]. auto.
Qed.
Definition magnitude_of (a b : str) : Q := (inject_Z (decval (a ++ b)) / inject_Z (10 ^ Z.of_nat (length b)))%Q.
Definition signed_q (sg : str) (q : Q) : Q := ((if streqb sg $"-" then -1 else 1) * q)%Q.
Lemma decimal_numeral s q : decimal_value s q <-> exists sg w a b, s = sg ++ w /\ In sg [[]; $"+"; $"-"] /\ numeral w a b /\ (q == signed_q sg (magnitude_of a b))%Q.
Proof.
  split.
  - intros (sg & a & b & E & I & D & N & Q). rewrite forallb_app in D. apply andb_prop in D as [Da Db]. destruct E as [[E Eb]|E].
    + subst b. rewrite app_nil_r in N. exists sg, a, a, []. split; [exact E|]. split; [exact I|]. split; [now constructor|]. unfold signed_q, magnitude_of. rewrite app_nil_r in *. exact Q.
    + exists sg, (a ++ point :: b), a, b. split; [exact E|]. split; [exact I|]. split; [now constructor|exact Q].
  - intros (sg & w & a & b & E & I & H & Q). exists sg, a, b. destruct H as [a D N|a b Da Db N].
    + rewrite !app_nil_r. split; [left; split; [exact E|reflexivity]|]. split; [exact I|]. split; [exact D|]. split; [exact N|].
      unfold signed_q, magnitude_of in Q. rewrite app_nil_r in Q. exact Q.
    + rewrite forallb_app, Da, Db. split; [right; exact E|]. split; [exact I|]. split; [reflexivity|]. split; [exact N|exact Q].
Qed.
Definition body_char (c : ascii) : bool := isdig c || ceqb c ".".
Lemma numeral_chars w a b : numeral w a b -> forallb body_char w = true /\ w <> [].
Proof.
  assert (forall a, forallb isdig a = true -> forallb body_char a = true) as K by (intro; apply forallb_imp; intros c H; unfold body_char; now rewrite H).
  intros [x H N|x y H1 H2 N].
  - split; [now apply K|exact N].
  - split; [|now destruct x]. rewrite forallb_app. cbn [forallb]. now rewrite (K x H1), (K y H2).
Qed.
Lemma sign_fun sg sg' w w' : In sg [[]; $"+"; $"-"] -> In sg' [[]; $"+"; $"-"] -> forallb body_char w = true -> forallb body_char w' = true ->
  w <> [] -> w' <> [] -> sg ++ w = sg' ++ w' -> sg = sg' /\ w = w'.
Proof.
  intros [<-|[<-|[<-|[]]]] [<-|[<-|[<-|[]]]] B B' N N' E; cbn [app lit list_ascii_of_string] in E;
    try (split; [reflexivity|]; try (injection E as E); exact E); exfalso;
    try (rewrite E in B; discriminate B); try (rewrite <- E in B'; discriminate B'); discriminate E.
Qed.
Lemma decimal_fun s q r : decimal_value s q -> decimal_value s r -> (q == r)%Q.
Proof.
  intros H K. apply decimal_numeral in H as (sg & w & a & b & E & I & M & Q). apply decimal_numeral in K as (sg' & w' & a' & b' & E' & I' & M' & Q').
  destruct (numeral_chars _ _ _ M) as [C1 N1]. destruct (numeral_chars _ _ _ M') as [C2 N2].
  destruct (sign_fun sg sg' w w' I I' C1 C2 N1 N2 (eq_trans (eq_sym E) E')) as [<- <-].
  destruct (numeral_fun _ _ _ _ _ M M') as [<- <-]. now rewrite Q, Q'.
Qed.
Lemma decimal_eq s q r : (q == r)%Q -> decimal_value s q -> decimal_value s r.
Proof. intros E (sg & a & b & H1 & H2 & H3 & H4 & H5). exists sg, a, b. rewrite <- E. auto. Qed.
(** white space *)
Lemma xsd_py : forall c, xsd_space c = true -> pyspace c = true. Proof. apply imp_ascii. vm_compute. reflexivity. Qed.
Lemma trim_left_id s : match s with c :: _ => xsd_space c = false | [] => True end -> trim_left s = s.
Proof. destruct s as [|c s]; [reflexivity|]. intro H. cbn [trim_left]. now rewrite H. Qed.
Lemma rev_nil {A} (s : list A) : rev s = [] -> s = []. Proof. intro H. rewrite <- (rev_involutive s), H. reflexivity. Qed.
Lemma trim_id s : strip s = s -> trim s = s.
Proof.
  intro H. pose proof (strip_is_trimmed s) as T. rewrite H in T. unfold trimmed in T. destruct s as [|c s]; [reflexivity|].
  apply andb_prop in T as [T1 T2]. unfold trim. rewrite (trim_left_id (c :: s)).
  - rewrite (trim_left_id (rev (c :: s))); [apply rev_involutive|]. destruct (rev (c :: s)) as [|x y] eqn:E; [exact I|].
    destruct (xsd_space x) eqn:X; [|reflexivity]. apply xsd_py in X. 
    unfold lastc in T2. rewrite E, X in T2. discriminate T2.
  - destruct (xsd_space c) eqn:X; [|reflexivity]. apply xsd_py in X. rewrite X in T1. discriminate T1.
Qed.
Lemma strip_no_space s : s <> [] -> forallb (fun c => negb (pyspace c)) s = true -> strip s = s.
Proof.
  intros N H. apply strip_trimmed. unfold trimmed. destruct s as [|c s]; [reflexivity|].
  rewrite forallb_forall in H. apply andb_true_intro. split; [apply H; now left|]. unfold lastc.
  destruct (rev (c :: s)) as [|x y] eqn:E; [reflexivity|]. apply H. apply in_rev. rewrite E. now left.
Qed.
