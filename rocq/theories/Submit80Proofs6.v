(** Lemmas of C49, part 6: radar records, and documents. *)
From Verif Require Import SchemaSpec PyStrProofs RoundProofs2 SchemaProofs1 SchemaProofs2 SchemaProofs3 RecordProofs1 RecordProofs2 RecordProofs3 RecordProofs4 RecordProofs6 RecordProofs12 AdesMasterTables PropsSchema PropsRecord PropsPrint.
From Verif Require Import Schema XsdSpec SchemaSpec XsdPattern XsdFiles ValueSpec ValidSpec ValidSpec2 LexSpec LexProofs1 LexProofs2 LexProofs3 IdProofs5 ValueProofs1 ValueProofs2 ValueProofs3 ValueProofs4.
From Verif Require Import PyFloat SexVals XmlToMpc80 Print80Proofs1 PsvSpec2 LayoutSpec Print80Spec Submit80Spec Submit80Proofs3 Submit80Proofs4.
Local Open Scope nat_scope.

Lemma radar_ref d ls : printRadarLine d = Ok ls -> dget $"ref" d <> None.
Proof.
  unfold printRadarLine. intros H E.
  assert (kget $"ref" d = Err KeyError) as Q by (unfold kget; now rewrite E). clear E.
  repeat match type of H with rbind ?x _ = _ => match x with kget $"ref" d => fail 1 | _ => destruct x; [cbn [rbind] in H; cbv zeta in H|discriminate H] end end.
  rewrite Q in H. discriminate H.
Qed.
Section Doc.
Variable F : derivation -> str -> Prop.
Variable RV : reads_values F.
Variable o : opts80.
Hypothesis So : standard o.
Lemma no_radar r ls : valid F submit_xsd r -> xtag r = $"radar" -> ~ record80 o r ls.
Proof.
  intros V T H. apply record_iff in H. unfold print_record, record_in in H. rewrite T in H.
  change (streqb $"radar" $"optical" || streqb $"radar" $"occultation") with false in H. change (streqb $"radar" $"radar") with true in H. cbv iota in H.
  apply radar_ref in H. apply H. rewrite dict. apply none_text. destruct kinds_in as (_ & _ & _ & K).
  apply (reserved_none F r $"radar" K T V $"ref"). apply smem_iff. vm_compute. reflexivity.
Qed.
Lemma offset_lines r ls : xtag r = $"offset" -> (record80 o r ls <-> ls = []).
Proof.
  intro T. rewrite <- record_iff. unfold print_record, record_in. rewrite T.
  change (streqb $"offset" $"optical" || streqb $"offset" $"occultation") with false. change (streqb $"offset" $"radar") with false. cbv iota.
  split; [intro H; congruence|intros ->; reflexivity].
Qed.
Lemma record_writable r : valid F submit_xsd r -> In (xtag r) (map lit record_names) -> plain_time (rec_value r $"obsTime") -> ((exists ls, record80 o r ls) <-> writable r).
Proof.
  intros V I PT. unfold writable.
  assert (xtag r = $"offset" \/ xtag r = $"radar" \/ In (xtag r) [$"optical"; $"occultation"]) as [T|[T|T]].
  { destruct I as [<-|[<-|[<-|[<-|[]]]]]; [right; right; now left|now left|right; right; right; now left|right; now left]. }
  - split; [intros _; now left|]. intros _. exists []. now apply offset_lines.
  - split; [intros [ls H]; elim (no_radar r ls V T H)|]. rewrite T. intros [H|[[H|[H|[]]] _]]; discriminate H.
  - rewrite (lines_iff F RV r V o So T PT). split; [intro H; right; now split|]. intros [H|[_ H]]; [|exact H]. rewrite H in T. destruct T as [T|[T|[]]]; discriminate T.
Qed.
(** a block *)
Lemma block_facts b : valid F submit_xsd b -> xtag b = $"obsBlock" -> proper_block b /\ block_data_of b <> [] /\
  forall r, In r (block_data_of b) -> valid F submit_xsd r /\ In (xtag r) (map lit record_names).
Proof.
  intros V T. apply (obsBlock_valid F submit_xsd b) in V; [|right; now left|exact T]. destruct V as (_ & c & d & K & Tc & _ & Td & Vd).
  apply (obsData_valid F submit_xsd d) in Vd; [|right; now left|exact Td]. destruct Vd as (_ & N & kind & Ik & A).
  assert (block_data_of b = xkids d) as E.
  { unfold block_data_of. rewrite K. cbn [flat_map]. unfold is_tag. rewrite Tc, Td. change (streqb $"obsContext" $"obsData") with false. change (streqb $"obsData" $"obsData") with true. cbn [app]. now rewrite app_nil_r. }
  rewrite E. split; [|split; [exact N|]].
  - split.
    + intros k I. rewrite K in I. destruct I as [<-|[<-|[]]]; [left; now symmetry|right; left; now symmetry].
    + rewrite E. exists kind. split; [|intros r I; now apply A]. destruct Ik as [<-|[<-|[<-|[<-|[]]]]]; [left|right; left|right; right; left|right; right; right; left]; reflexivity.
  - intros r I. destruct (A r I) as [Tr Vr]. split; [exact Vr|]. now rewrite Tr.
Qed.
Lemma forall2_ex {A B} (R : A -> B -> Prop) l : (exists m, Forall2 R l m) <-> forall a, In a l -> exists b, R a b.
Proof.
  split.
  - intros [m H] a I. induction H; [destruct I|]. destruct I as [<-|I]; [eauto|auto].
  - induction l as [|a l IH]; intro H; [now exists []|]. destruct (H a (or_introl eq_refl)) as [b Hb]. destruct IH as [m Hm]; [intros x I; apply H; now right|]. exists (b :: m). now constructor.
Qed.
Theorem document80 t : valid F submit_xsd t -> xtag t = $"ades" -> (forall r, In r (observations t) -> plain_time (rec_value r $"obsTime")) ->
  ((exists ls, xmltompc80col_lines ades_tables o t = Ok ls) <-> forall r, In r (observations t) -> writable r).
Proof.
  intros V T PT. apply (C41_ades_submit F t T) in V as (_ & _ & _ & N & K).
  assert (forall b, In b (xkids t) -> is_tag $"obsBlock" b = true -> block_data_of b <> []) as Nb by (intros b I _; destruct (K b I) as [Tb Vb]; now destruct (block_facts b Vb Tb)).
  assert ((exists ls, xmltompc80col_lines ades_tables o t = Ok ls) <-> exists parts, Forall2 (part80 o []) (xkids t) parts) as ->.
  { split.
    - intros [ls H]. apply (C44_parts o t ls T Nb) in H as (p & H & _). now exists p.
    - intros [p H]. exists (concat p). apply (C44_parts o t _ T Nb). now exists p. }
  rewrite forall2_ex. split.
  - intros H r I. unfold observations in I. apply in_flat_map in I as (b & Ib & Ir). destruct (K b Ib) as [Tb Vb]. destruct (block_facts b Vb Tb) as (Pb & Nd & Rb). destruct (Rb r Ir) as [Vr Tr].
    apply (record_writable r Vr Tr); [apply PT; unfold observations; apply in_flat_map; now exists b|].
    destruct (H b Ib) as [l L]. unfold part80, is_tag in L. rewrite Tb in L. change (streqb $"obsBlock" $"obsBlock") with true in L. cbv iota in L. destruct L as (_ & rl & L & _).
    assert (exists m, Forall2 (record80 o) (block_data_of b) m) as L' by (destruct (block_data_of b); [destruct Ir|now exists rl]).
    rewrite forall2_ex in L'. now apply L'.
  - intros H b Ib. destruct (K b Ib) as [Tb Vb]. destruct (block_facts b Vb Tb) as (Pb & Nd & Rb).
    assert (exists m, Forall2 (record80 o) (block_data_of b) m) as [m M].
    { apply forall2_ex. intros r Ir. destruct (Rb r Ir) as [Vr Tr]. assert (In r (observations t)) as Io by (unfold observations; apply in_flat_map; now exists b). apply (record_writable r Vr Tr); [now apply PT|now apply H]. }
    exists ((if o_noHeader o then [] else block_header80 b) ++ concat m). unfold part80, is_tag. rewrite Tb. change (streqb $"obsBlock" $"obsBlock") with true. cbv iota. split; [exact Pb|]. exists m. split; [|reflexivity].
    destruct (block_data_of b); [now elim Nd|exact M].
Qed.
End Doc.
