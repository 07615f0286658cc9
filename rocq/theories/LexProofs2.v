(** Lemmas of C48, part 2: the values of the fields. *)
From Verif Require Import SchemaSpec PyStrProofs IdProofs5 SchemaProofs1 SchemaProofs2 SchemaProofs3 RecordProofs1 RecordProofs2 RecordProofs3 RecordProofs4 RecordProofs5 RecordProofs6 RecordProofs11 RecordProofs12 AdesMasterTables.
From Verif Require Import Schema XsdSpec SchemaSpec XsdPattern XsdFiles IdProofs3 ValueSpec ValidSpec ValidSpec2 ValueProofs1 ValueProofs2 LexSpec LexProofs1.
Local Open Scope nat_scope.

Definition kinds4 : list str := firstn 4 kinds6.
Definition numeric : list str := map lit ["xsd:decimal"; "xsd:integer"; "xsd:positiveInteger"; "xsd:double"; "xsd:dateTime"]%string.
Definition no_bar (c : ascii) : bool := negb (ceqb c "|").
Definition no_point (c : ascii) : bool := negb (ceqb c ".").
Definition dark (c : ascii) : bool := negb (pyspace c).
Definition calm (c : ascii) : bool := negb (existsb (ceqb c) $"|#!") && (dark c || ceqb c " ").
(** the tests *)
Definition each_deriv (S : xml) (x : str) (f : str -> list facets -> bool) : bool :=
  match derivs S 8 (type_name S x) with
  | Some ds => forallb (fun d => if smem (fst d) numeric then true else streqb (fst d) $"xsd:string" && f (fst d) (snd d)) ds
  | None => false
  end.
Definition bar_free (S : xml) (x : str) : bool := each_deriv S x (fun _ st => bounded no_bar st).
Definition tame (S : xml) (x : str) : bool := each_deriv S x (fun _ st => bounded calm st && (stringy st || begins dark st)).
Definition pointless (S : xml) (x : str) : bool := each_deriv S x (fun _ st => bounded no_point st).
Definition timely (S : xml) (x : str) : bool :=
  match derivs S 8 (type_name S x) with
  | Some ds => forallb (fun d => if streqb (fst d) $"xsd:dateTime" then true else streqb (fst d) $"xsd:string" && begins isdig (snd d)) ds
  | None => false
  end.
Definition plain_fields (k : str) : list str := filter (fun x => negb (streqb x $"localUse")) (fields k).
Definition all_fields : list str := flat_map plain_fields kinds4.
Definition is_text (x : str) : bool := smem x (map lit text_fields).
Definition is_pointed (x : str) : bool := smem x (map lit pointed_fields).
(** checks on both schemas *)
Definition offers (S : xml) (x : str) : bool := declared S x.
Lemma checked_bar : forall S, In S both -> forallb (fun x => if streqb x $"obsTime" then true else if offers S x then bar_free S x else true) all_fields = true.
Proof. intros S I. destruct I as [<-|[<-|[]]]; vm_compute; reflexivity. Qed.
Lemma checked_tame : forall S, In S both -> forallb (fun x => if is_text x then true else if streqb x $"obsTime" then true else if offers S x then tame S x else true) all_fields = true.
Proof. intros S I. destruct I as [<-|[<-|[]]]; vm_compute; reflexivity. Qed.
Lemma checked_points : forall S, In S both -> forallb (fun k => forallb (fun x => if free_column ades_tables k x then true else if is_pointed x then true else if offers S x then pointless S x else true) (plain_fields k)) kinds4 = true.
Proof. intros S I. destruct I as [<-|[<-|[]]]; vm_compute; reflexivity. Qed.
Lemma checked_time : forall S, In S both -> timely S $"obsTime" = true.
Proof. intros S I. destruct I as [<-|[<-|[]]]; vm_compute; reflexivity. Qed.
Lemma checked_simple : forall S, In S both -> forallb (fun x => no_complex S (type_name S x)) all_fields = true.
Proof. intros S I. destruct I as [<-|[<-|[]]]; vm_compute; reflexivity. Qed.

(** * What they mean *)
Section Values.
Variable F : derivation -> str -> Prop.
Variable RT : reads_texts F.
Variable RL : reads_literals F.
Lemma trim_left_decomp s : exists a, s = a ++ trim_left s /\ forallb xsd_space a = true.
Proof.
  induction s as [|c s (a & E & A)]; [now exists []|]. cbn [trim_left]. destruct (xsd_space c) eqn:X; [|now exists []]. exists (c :: a). cbn [app forallb]. rewrite X, A. split; [now rewrite <- E|reflexivity].
Qed.
Lemma trim_decomp s : exists a b, s = a ++ trim s ++ b /\ forallb xsd_space a = true /\ forallb xsd_space b = true.
Proof.
  destruct (trim_left_decomp s) as (a & E & A). destruct (trim_left_decomp (rev (trim_left s))) as (b & E' & B).
  exists a, (rev b). split; [|split; [exact A|]].
  - unfold trim. rewrite <- rev_app_distr, <- E', rev_involutive. exact E.
  - rewrite forallb_forall in *. intros c I. apply B. now apply in_rev.
Qed.
Lemma space_space : forall c, xsd_space c = true -> pyspace c = true. Proof. apply imp_ascii. vm_compute. reflexivity. Qed.
Lemma literal_dark : forall c, literal_char c = true -> dark c = true. Proof. apply imp_ascii. vm_compute. reflexivity. Qed.
Lemma literal_calm : forall c, literal_char c = true -> calm c = true. Proof. apply imp_ascii. vm_compute. reflexivity. Qed.
Lemma calm_bar : forall c, calm c = true -> no_bar c = true. Proof. apply imp_ascii. vm_compute. reflexivity. Qed.
Lemma solid_calm : forall c, solid_char c && calm c = true -> dark c = true. Proof. apply imp_ascii. vm_compute. reflexivity. Qed.
Lemma literal_strip s : trim s <> [] -> forallb literal_char (trim s) = true -> strip s = trim s.
Proof.
  intros N L. destruct (trim_decomp s) as (a & b & E & A & B). rewrite E at 1. apply strip_pad.
  - revert A. apply forallb_imp, space_space.
  - revert B. apply forallb_imp, space_space.
  - assert (strip (trim s) = trim s) as <-; [|apply strip_is_trimmed]. apply strip_no_space; [exact N|]. revert L. apply forallb_imp, literal_dark.
Qed.
Lemma strip_sub (f : ascii -> bool) s : forallb f s = true -> forallb f (strip s) = true.
Proof. destruct (strip_decomp s) as (a & b & E & _). intro H. rewrite E, !forallb_app in H. apply andb_prop in H as [_ H]. now apply andb_prop in H. Qed.
Lemma dark_in_strip c s : In c s -> dark c = true -> In c (strip s).
Proof.
  intros I P. apply negb_true_iff in P. destruct (strip_decomp s) as (a & b & E & A & B). rewrite E in I. rewrite forallb_forall in A, B. apply in_app_or in I as [I|I].
  - rewrite (A _ I) in P. discriminate P.
  - apply in_app_or in I as [I|I]; [exact I|]. rewrite (B _ I) in P. discriminate P.
Qed.
(** numbers and times *)
Lemma numeric_value b steps s : In b numeric -> F (b, steps) s -> strip s <> [] /\ forallb literal_char (strip s) = true /\ points (strip s) <= 1 /\
  (b = $"xsd:dateTime" -> exists c r, strip s = c :: r /\ (isdig c = true \/ c = "-"%char)).
Proof. intros I H. destruct (RL b steps s I H) as (N & L & P & D). rewrite (literal_strip s N L). tauto. Qed.
Lemma each_ok S x f s : each_deriv S x f = true -> simple F S (type_name S x) s ->
  (exists b st, In b numeric /\ F (b, st) s) \/ exists st, f $"xsd:string" st = true /\ F ($"xsd:string", st) s.
Proof.
  unfold each_deriv. destruct (derivs S 8 (type_name S x)) as [ds|] eqn:D; [|intro H; discriminate H]. intros H V.
  destruct (proj2 (derivs_complete F S 8 _ ds D) s V) as ([b st] & I & HF). rewrite forallb_forall in H. specialize (H _ I). cbn [fst snd] in H.
  destruct (smem b numeric) eqn:M; [left; exists b, st; split; [now apply smem_iff|exact HF]|]. apply andb_prop in H as [E H]. apply streqb_eq in E. subst b. right. exists st. now split.
Qed.
Lemma no_bar_in s : forallb no_bar s = true -> ~ In "|"%char s.
Proof. rewrite forallb_forall. intros H I. discriminate (H _ I). Qed.
Lemma bar_value S x s : bar_free S x = true -> simple F S (type_name S x) s -> ~ In "|"%char (strip s).
Proof.
  intros H V. destruct (each_ok S x _ s H V) as [(b & st & I & HF)|(st & B & HF)]; apply no_bar_in.
  - destruct (numeric_value b st s I HF) as (_ & L & _). revert L. apply forallb_imp. intros c C. now apply calm_bar, literal_calm.
  - apply strip_sub. exact (bounded_ok F RT _ st s B HF).
Qed.
Lemma calm_hash s : forallb calm s = true -> ~ starts_hash s.
Proof. intros H (c & r & -> & [-> | ->]); discriminate H. Qed.
Lemma tame_value S x s : tame S x = true -> simple F S (type_name S x) s -> strip s <> [] /\ ~ starts_hash (strip s).
Proof.
  intros H V. destruct (each_ok S x _ s H V) as [(b & st & I & HF)|(st & B & HF)].
  - destruct (numeric_value b st s I HF) as (N & L & _). split; [exact N|]. apply calm_hash. revert L. apply forallb_imp, literal_calm.
  - apply andb_prop in B as [B C]. pose proof (bounded_ok F RT _ st s B HF) as Cm. split; [|apply calm_hash; now apply strip_sub].
    assert (exists c, In c s /\ dark c = true) as (c & I & D).
    { apply orb_prop in C as [C|C].
      - pose proof (stringy_ok F RT st s C HF) as So. apply existsb_exists in So as (c & I & So). exists c. split; [exact I|]. apply solid_calm. rewrite So. rewrite forallb_forall in Cm. now rewrite (Cm c I).
      - destruct (begins_ok F RT _ st s C HF) as (c & r & -> & D). exists c. split; [now left|exact D]. }
    intro Q. pose proof (dark_in_strip c s I D) as J. rewrite Q in J. destruct J.
Qed.
Lemma no_point_points s : forallb no_point s = true -> points s = 0.
Proof. unfold points. induction s as [|c s IH]; [reflexivity|]. cbn [forallb filter]. intro H. apply andb_prop in H as [H1 H2]. apply negb_true_iff in H1. rewrite H1. now apply IH. Qed.
Lemma point_value S x s : pointless S x = true -> simple F S (type_name S x) s -> points (strip s) <= 1.
Proof.
  intros H V. destruct (each_ok S x _ s H V) as [(b & st & I & HF)|(st & B & HF)].
  - exact (proj1 (proj2 (proj2 (numeric_value b st s I HF)))).
  - rewrite no_point_points; [lia|]. apply strip_sub. exact (bounded_ok F RT _ st s B HF).
Qed.
Lemma time_value S x s : timely S x = true -> simple F S (type_name S x) s -> exists c r, strip s = c :: r /\ (isdig c = true \/ c = "-"%char).
Proof.
  unfold timely. destruct (derivs S 8 (type_name S x)) as [ds|] eqn:D; [|intro H; discriminate H]. intros H V.
  destruct (proj2 (derivs_complete F S 8 _ ds D) s V) as ([b st] & I & HF). rewrite forallb_forall in H. specialize (H _ I). cbn [fst snd] in H.
  destruct (streqb b $"xsd:dateTime") eqn:M.
  - apply streqb_eq in M. apply (numeric_value b st s); [rewrite M; do 4 right; now left|exact HF|exact M].
  - apply andb_prop in H as [E H]. apply streqb_eq in E. subst b. destruct (begins_ok F RT _ st s H HF) as (c & r & -> & Dg).
    pose proof (isdig_nospace c Dg) as P.
    unfold strip. rewrite (lstrip_nospace c r P). exists c.
    destruct (rstrip_prefix (c :: r)) as (q & Eq & Q). destruct (rstrip (c :: r)) as [|c' r'] eqn:R.
    + cbn [app] in Eq. rewrite <- Eq in Q. cbn [forallb] in Q. rewrite P in Q. discriminate Q.
    + injection Eq as <- _. exists r'. split; [reflexivity|now left].
Qed.
End Values.
