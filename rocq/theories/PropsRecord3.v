(** C48: valid documents with elements PSV leaves out. *)
From Verif Require Import SchemaSpec PyStrProofs XmlProofs SchemaCheck RecordProofs3 RecordProofs12 PsvProofs1 AdesMasterTables PropsPsv PropsRound PropsPsvValid PropsRecord PropsRecord2 SaidProofs.
From Verif Require Import PsvToXml XmlToPsv PsvSpec2 Schema XsdSpec XsdFiles ValueSpec RecordSpec ValidSpec ValidSpec2 LexSpec SaidSpec.
Local Open Scope nat_scope.

(** A valid document of which PSV can express every element - but for elements for
    local use, and free texts of white space only, in its records - is converted without
    an error; what is written is read back as the document without those elements
    (SaidSpec.said), which is valid. *)
Theorem C48_said : forall F t, reads_texts F -> reads_literals F ->
  xtag t = $"ades" -> valid F general_xsd t -> well_named t -> NoDup (map fst (xattrs t)) ->
  (forall k, inside k (said t) -> psv_can k) ->
  exists content, xmltopsv ades_tables t = Ok content /\ psv_tree ades_tables content = Some (trim_texts (said t)) /\ valid F general_xsd (said t).
Proof.
  intros F t RT RL T V W N P. destruct (said_document F ades_tables t T V) as [Vs X].
  destruct (C48_round_trip F (said t)) as (c & C1 & C2); [exact RT|exact RL|now rewrite said_tag|exact Vs|now apply said_named|now rewrite said_attrs|exact P|].
  exists c. split; [now rewrite <- X|]. now split.
Qed.
(** Only what those elements say is lost: two valid documents that agree but for them
    are written the same. *)
Theorem C48_same_file : forall F t u, xtag t = $"ades" -> valid F general_xsd t -> valid F general_xsd u -> said t = said u ->
  xmltopsv ades_tables t = xmltopsv ades_tables u.
Proof.
  intros F t u T V U E. destruct (said_document F ades_tables t T V) as [_ X]. rewrite <- X, E. apply (said_document F ades_tables u); [|exact U].
  now rewrite <- said_tag, <- E, said_tag.
Qed.
(** An element for local use that the schema accepts is always such an element, whatever it contains. *)
Theorem C48_local : forall F k, valid F general_xsd k -> xtag k = $"localUse" -> unsaid k = true.
Proof. exact local_unsaid. Qed.
Print Assumptions C48_said.
Print Assumptions C48_same_file.
Print Assumptions C48_local.

Definition ex_local : xml := Elem $"localUse" [] [nl] [Elem $"camera" [($"no", $"2")] $"cold" [lf $"gain" $"1.5"]; lf $"weather" $"fine"].
Definition ex_said : xml :=
  Elem $"ades" [($"version", $"2022")] [nl]
    [some_optical [number_1; lf $"obsSubID" [ascii_of_nat 160]] [lf $"remarks" [ascii_of_nat 160]; ex_local] a_time;
     some_optical [number_1] [lf $"remarks" $"clouds"; ex_local] a_time].
Lemma any_times F S p es : xtag p = $"xsd:any" -> Forall (fun e => laxly F S [e]) es -> times F S p (length es) es.
Proof.
  intros T H. induction H as [|e es H _ IH]; [constructor|]. change (e :: es) with ([e] ++ es). cbn [length app]. now apply (times_S F S p (length es) [e] es); [apply term_any|].
Qed.
Lemma unknown_lax e : component general_xsd $"xsd:element" (xtag e) = None -> laxly reading general_xsd (xkids e) -> laxly reading general_xsd [e].
Proof. intros C L. apply lax_unknown; [exact C|exact L|constructor]. Qed.
(** an element for local use may contain elements the schema does not know, in any number *)
Lemma local_valid a ks : blank_text a = true -> Forall (fun e => laxly reading general_xsd [e]) ks -> valid reading general_xsd (Elem $"localUse" [] a ks).
Proof.
  intros B H. eexists. split; [vm_compute; reflexivity|]. eapply valid_complex; [vm_compute; reflexivity|exact B|split; [intros k v []|]|].
  - intros d I T. exfalso. destruct I as [<-|[]]. discriminate T.
  - cbn [xkids]. match goal with |- sequence _ _ ?l _ => let l' := eval vm_compute in l in change l with l' end.
    rewrite <- (app_nil_r ks). apply sequence_cons; [|constructor]. apply (particle_times _ _ _ 1 ks); [|split; right; apply le_n].
    rewrite <- (app_nil_r ks). apply times_S; [|constructor]. apply term_sequence; [reflexivity|]. cbn [xkids].
    rewrite <- (app_nil_r ks). apply sequence_cons; [|constructor]. apply (particle_times _ _ _ (length ks) ks); [now apply any_times|]. split; left; vm_compute; reflexivity.
Qed.
Lemma ex_local_valid : valid reading general_xsd ex_local.
Proof.
  apply local_valid; [vm_compute; reflexivity|]. repeat constructor.
Qed.
Fixpoint in_orderb (a l : list str) : bool :=
  match a, l with [], _ => true | _, [] => false | x :: a', y :: l' => if streqb x y then in_orderb a' l' else in_orderb a l' end.
Lemma in_orderb_ok l : forall a, in_orderb a l = true -> in_order a l.
Proof.
  induction l as [|y l IH]; intros [|x a] H; [exact (io_nil _)|discriminate H|exact (io_nil _)|]. cbn [in_orderb] in H. destruct (streqb x y) eqn:Q; [apply streqb_eq in Q; subst; apply io_take|apply io_skip]; now apply IH.
Qed.
(** a record may have one, at the end *)
Lemma with_local r : In (xtag r) kinds6 -> valid reading general_xsd r ->
  in_orderb (map xtag (xkids r ++ [ex_local])) (fields (xtag r)) = true -> complete (xtag r) (occurs_in (xkids r ++ [ex_local])) = true ->
  valid reading general_xsd (Elem (xtag r) (xattrs r) (xtext r) (xkids r ++ [ex_local])).
Proof.
  intros K V O C. apply (general_any reading (xtag r) r eq_refl K) in V as (B & _ & _ & Kd). apply (general_any reading (xtag r) (Elem (xtag r) (xattrs r) (xtext r) (xkids r ++ [ex_local])) eq_refl K). cbn [xkids]. split; [exact B|].
  split; [now apply in_orderb_ok|]. split; [exact C|]. intros k I. apply in_app_or in I as [I|[<-|[]]]; [now apply Kd|exact ex_local_valid].
Qed.
Lemma ex_said_valid : valid reading general_xsd ex_said.
Proof.
  assert (valid reading general_xsd (one_record (some_optical [number_1] [] a_time))) as V by (apply valid_reading; vm_compute; reflexivity).
  apply (C41_ades_general reading (one_record (some_optical [number_1] [] a_time)) eq_refl) in V as (_ & A1 & A2 & _). apply (C41_ades_general reading ex_said eq_refl). split; [vm_compute; reflexivity|]. split; [exact A1|]. split; [exact A2|].
  intros k I. assert (xtag k = $"optical" /\ valid reading general_xsd k) as [-> V]; [|split; [now left|exact V]]. destruct I as [<-|[<-|[]]]; (split; [reflexivity|]).
  - refine (with_local (some_optical [number_1; lf $"obsSubID" [ascii_of_nat 160]] [lf $"remarks" [ascii_of_nat 160]] a_time) _ _ _ _); [now left|apply valid_reading; vm_compute; reflexivity|vm_compute; reflexivity|vm_compute; reflexivity].
  - refine (with_local (some_optical [number_1] [lf $"remarks" $"clouds"] a_time) _ _ _ _); [now left|apply valid_reading; vm_compute; reflexivity|vm_compute; reflexivity|vm_compute; reflexivity].
Qed.
Example C48_said_example : xtag ex_said = $"ades" /\ valid reading general_xsd ex_said /\ well_named ex_said /\ NoDup (map fst (xattrs ex_said)) /\
  (forall k, inside k (said ex_said) -> psv_can k) /\ ~ (forall k, inside k ex_said -> psv_can k) /\
  said ex_said = Elem $"ades" [($"version", $"2022")] [nl] [some_optical [number_1] [] a_time; some_optical [number_1] [lf $"remarks" $"clouds"] a_time].
Proof.
  assert (said ex_said = Elem $"ades" [($"version", $"2022")] [nl] [some_optical [number_1] [] a_time; some_optical [number_1] [lf $"remarks" $"clouds"] a_time]) as E by (vm_compute; reflexivity).
  split; [reflexivity|]. split; [exact ex_said_valid|]. split; [apply well_named_iff; vm_compute; reflexivity|].
  split; [constructor; [intros []|constructor]|]. split; [|split; [|exact E]].
  - rewrite E. intros k I. apply psv_canb_ok. refine (nodes_ok _ _ _ k I). vm_compute. reflexivity.
  - intro H. destruct (H ex_local) as [Q _].
    + apply (inside_child ex_local (some_optical [number_1] [lf $"remarks" $"clouds"; ex_local] a_time) ex_said); [|right; now left].
      apply (inside_child ex_local ex_local _ (inside_self _)). unfold some_optical. cbn [xkids app]. do 8 right. now left.
    + apply Q. right. right. now left.
Qed.
