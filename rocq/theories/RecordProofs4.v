(** Validity of records written field by field. *)
From Verif Require Import SchemaSpec PyStrProofs Mpc80Proofs1 SchemaProofs3 RecordProofs1 RecordProofs2 RecordProofs3 AdesMasterTables.
From Verif Require Import Schema XsdSpec SchemaSpec XsdFiles RecordSpec.
From Verif Require Import Mpc80 DocSpec ValidSpec.
Local Open Scope nat_scope.

Lemma leaf_simple F S txt x : blank_text (txt x) = false ->
  (leaf_ok F S txt x <-> component S $"xsd:element" x <> None /\ simple F S (type_name S x) (txt x)).
Proof.
  intro B. unfold leaf_ok, type_name. split.
  - intros (d & C & V). rewrite C. split; [discriminate|]. apply valid_type_inv in V as [(Hs & _)|(ct & _ & B' & _)]; [exact Hs|]. cbn [xtext] in B'. congruence.
  - destruct (component S _ x) as [d|]; [|intros [H _]; now destruct H]. intros [_ H]. exists d. split; [reflexivity|]. now apply valid_simple.
Qed.
Lemma strip_not_blank s : strip s <> [] -> blank_text (strip s) = false.
Proof.
  intro H. destruct (blank_text (strip s)) eqn:B; [|reflexivity]. exfalso. apply H. rewrite <- strip_idem. now apply strip_nil.
Qed.

(** * Formulas when some fields are known to be absent *)
Definition FF : form := FAny [].
Definition is_ff (f : form) : bool := match f with FAny [] => true | _ => false end.
Fixpoint without (N : list str) (f : form) : form :=
  match f with
  | FHas x => if smem x N then FF else f
  | FNone l => match filter (fun x => negb (smem x N)) l with [] => FAll [] | l' => FNone l' end
  | FAll l =>
      let l' := filter (fun f => negb (is_true f)) (map (without N) l) in
      if existsb is_ff l' then FF else FAll l'
  | FAny l => let l' := filter (fun f => negb (is_ff f)) (map (without N) l) in
      if existsb is_true l' then FAll [] else FAny l'
  end.
Lemma true_sem h f : is_true f = true -> sem h f = true.
Proof. destruct f as [| |[|]|]; intro H; try discriminate H. reflexivity. Qed.
Lemma ff_sem h f : is_ff f = true -> sem h f = false.
Proof. destruct f as [| | |[|]]; intro H; try discriminate H. reflexivity. Qed.
Lemma without_ok h N f : forallb (fun x => negb (h x)) N = true -> sem h (without N f) = sem h f.
Proof.
  intro A. rewrite forallb_forall in A. induction f as [x|l|l IH|l IH] using form_ind'.
  - cbn [without]. destruct (smem x N) eqn:E; [|reflexivity]. apply smem_iff in E. cbn [sem FF existsb]. specialize (A x E). now destruct (h x).
  - cbn [without]. transitivity (forallb (fun x => negb (h x)) (filter (fun x => negb (smem x N)) l)); [now destruct (filter _ l)|].
    cbn [sem]. induction l as [|x l IH]; [reflexivity|]. cbn [filter forallb]. destruct (smem x N) eqn:E; cbn [negb].
    + apply smem_iff in E. rewrite (A x E). exact IH.
    + cbn [forallb]. now rewrite IH.
  - cbn [without]. set (l' := filter _ _). assert (forallb (sem h) l' = forallb (sem h) l) as K.
    { unfold l'. clear l'. induction IH as [|x l E _ IHl]; [reflexivity|]. cbn [map filter]. destruct (is_true (without N x)) eqn:T; cbn [negb forallb].
      - rewrite IHl, <- E, (true_sem h _ T). reflexivity.
      - now rewrite IHl, E. }
    destruct (existsb is_ff l') eqn:X; [|exact K]. cbn [sem FF existsb]. cbn [sem]. rewrite <- K. apply existsb_exists in X as (f & I & T). symmetry.
    destruct (forallb (sem h) l') eqn:Y; [|reflexivity]. rewrite forallb_forall in Y. specialize (Y f I). rewrite (ff_sem h f T) in Y. discriminate Y.
  - cbn [without]. set (l' := filter _ _). assert (existsb (sem h) l' = existsb (sem h) l) as K.
    { unfold l'. clear l'. induction IH as [|x l E _ IHl]; [reflexivity|]. cbn [map filter]. destruct (is_ff (without N x)) eqn:T; cbn [negb existsb].
      - rewrite IHl, <- E, (ff_sem h _ T). reflexivity.
      - now rewrite IHl, E. }
    destruct (existsb is_true l') eqn:X; [|exact K]. cbn [sem forallb]. rewrite <- K. apply existsb_exists in X as (f & I & T). symmetry.
    apply existsb_exists. exists f. split; [exact I|]. now apply true_sem.
Qed.

(** * Completeness in both schemas *)
Definition s_kind (S : xml) (k : str) : form := s_of S (type_of_tag S k).
Definition reserved_fields (k : str) : list str := filter (fun x => smem x (map lit reserved)) (fields k).
Lemma reserved_missing : forall k, In k (firstn 4 kinds6) -> missing submit_xsd 12 (type_of_tag submit_xsd k) (fields k) = reserved_fields k.
Proof. intros k I. do 4 (destruct I as [<-|I]; [vm_compute; reflexivity|]). destruct I. Qed.
Lemma submit_form : forall k, In k (firstn 4 kinds6) ->
  without (reserved_fields k) (s_kind general_xsd k) = without (reserved_fields k) (s_kind submit_xsd k).
Proof. intros k I. do 4 (destruct I as [<-|I]; [vm_compute; reflexivity|]). destruct I. Qed.
Lemma general_complete : forall k h, In k kinds6 -> sem h (s_kind general_xsd k) = complete k h.
Proof.
  intros k h I. destruct I as [<-|I]; [exact (s_optical h)|]. destruct I as [<-|I]; [exact (s_offset_type h)|].
  destruct I as [<-|I]; [exact (s_occultation h)|]. destruct I as [<-|I]; [exact (s_radar h)|].
  destruct I as [<-|I]; [exact (s_opticalResidual h)|]. destruct I as [<-|I]; [exact (s_radarResidual h)|]. destruct I.
Qed.
Lemma submit_complete : forall k h, In k (firstn 4 kinds6) -> forallb (fun x => negb (h x)) (reserved_fields k) = true ->
  sem h (s_kind submit_xsd k) = complete k h.
Proof.
  intros k h I A. rewrite <- (without_ok h (reserved_fields k) _ A), <- (submit_form k I), (without_ok h _ _ A).
  apply general_complete. do 4 (destruct I as [<-|I]; [do 3 (try (left; reflexivity); right); left; reflexivity|]). destruct I.
Qed.

(** * The offered fields are declared, and all are in the table *)
Definition offered (S : xml) (k : str) : list str := flat_map (tagsof S 12) (model S (type_of_tag S k)).
Definition declared (S : xml) (x : str) : bool := match component S $"xsd:element" x with Some _ => true | None => false end.
Definition covers (S : xml) (N : list str) (k : str) : bool :=
  forallb (fun x => smem x (N ++ offered S k)) (fields k) && forallb (declared S) (offered S k) && forallb (fun x => smem x (fields k)) (offered S k).
Lemma general_covers : forall k, In k kinds6 -> covers general_xsd [] k = true.
Proof. intros k I. do 6 (destruct I as [<-|I]; [vm_compute; reflexivity|]). destruct I. Qed.
Lemma submit_covers : forall k, In k (firstn 4 kinds6) -> covers submit_xsd (reserved_fields k) k = true.
Proof. intros k I. do 4 (destruct I as [<-|I]; [vm_compute; reflexivity|]). destruct I. Qed.
Lemma declared_kinds : forallb (fun k => declared general_xsd k && declared submit_xsd k) (firstn 4 kinds6) && forallb (declared general_xsd) kinds6 = true.
Proof. vm_compute. reflexivity. Qed.

(** the texts of an element *)
Lemma element_kids tag fs text : element tag fs text = Elem tag [] [] (kids (fun x => strip (text x)) fs).
Proof. reflexivity. Qed.
Lemma fine_simple F S N k text : covers S N k = true -> (forall x, In x N -> given text x = false) ->
  (fine_in F S (fun x => strip (text x)) (offered S k) <->
   forall x, In x (fields k) -> given text x = true -> simple F S (type_name S x) (strip (text x))).
Proof.
  intros C A. apply andb_prop in C as [C C3]. apply andb_prop in C as [C1 C2]. rewrite forallb_forall in C1, C2, C3. unfold fine_in.
  assert (forall x, has (fun x => strip (text x)) x = given text x) as E by reflexivity.
  assert (forall x, given text x = true -> blank_text (strip (text x)) = false) as B.
  { intros x G. apply strip_not_blank. unfold given in G. destruct (strip (text x)); [discriminate G|discriminate]. }
  split.
  - intros H x I G. specialize (C1 x I). apply smem_iff in C1. apply in_app_or in C1 as [C1|C1]; [rewrite (A x C1) in G; discriminate G|].
    exact (proj2 (proj1 (leaf_simple F S (fun x => strip (text x)) x (B x G)) (H x C1 G))).
  - intros H x I G. apply (leaf_simple F S (fun x => strip (text x)) x (B x G)). split.
    + specialize (C2 x I). unfold declared in C2. destruct (component S _ x); [discriminate|discriminate C2].
    + apply H; [|exact G]. apply smem_iff. now apply C3.
Qed.
Lemma sem_ext h h' f : (forall x, h x = h' x) -> sem h f = sem h' f.
Proof.
  intro E. induction f as [x|l|l IH|l IH] using form_ind'; cbn [sem]; [apply E| | |].
  - apply forallb_ext'. intro x. now rewrite E.
  - induction IH as [|x l H _ IHl]; [reflexivity|]. cbn [forallb]. now rewrite H, IHl.
  - induction IH as [|x l H _ IHl]; [reflexivity|]. cbn [existsb]. now rewrite H, IHl.
Qed.
Lemma valid_declared F S e : declared S (xtag e) = true -> (valid F S e <-> valid_type F S (type_of_tag S (xtag e)) e).
Proof.
  unfold declared, valid, type_of_tag. destruct (component S _ (xtag e)) as [d|]; [|intro H; discriminate H]. intros _. split.
  - intros (d' & E & V). injection E as <-. exact V.
  - intro V. now exists d.
Qed.
Lemma general_record F k text : In k kinds6 ->
  (valid F general_xsd (element k (fields k) text) <->
   complete k (given text) = true /\
   forall x, In x (fields k) -> given text x = true -> simple F general_xsd (type_name general_xsd x) (strip (text x))).
Proof.
  intro I. assert (declared general_xsd k = true) as D.
  { pose proof declared_kinds as H. apply andb_prop in H as [_ H]. rewrite forallb_forall in H. now apply H. }
  rewrite (valid_declared F general_xsd (element k (fields k) text) D). rewrite element_kids. cbn [xtag].
  pose proof general_ok as G. rewrite forallb_forall in G. rewrite (record_decided F _ 12 _ _ k _ (G k I)).
  pose proof general_all as M. rewrite forallb_forall in M. specialize (M k I). destruct (missing _ _ _ _); [|discriminate M].
  rewrite <- s_sem. change (s_of general_xsd (type_of_tag general_xsd k)) with (s_kind general_xsd k).
  rewrite (general_complete k _ I). change (has (fun x => strip (text x))) with (given text).
  fold (offered general_xsd k). rewrite (fine_simple F general_xsd [] k text (general_covers k I)); [|intros x []].
  split; [intros (_ & H)|intro H; split; [reflexivity|]]; exact H.
Qed.
Lemma submit_record F k text : In k (firstn 4 kinds6) ->
  (valid F submit_xsd (element k (fields k) text) <->
   complete k (given text) = true /\ (forall x, In x (fields k) -> In x (map lit reserved) -> given text x = false) /\
   forall x, In x (fields k) -> given text x = true -> simple F submit_xsd (type_name submit_xsd x) (strip (text x))).
Proof.
  intro I. assert (declared submit_xsd k = true) as D.
  { pose proof declared_kinds as H. apply andb_prop in H as [H _]. rewrite forallb_forall in H. specialize (H k I). now apply andb_prop in H. }
  rewrite (valid_declared F submit_xsd (element k (fields k) text) D). rewrite element_kids. cbn [xtag].
  pose proof submit_ok as G. rewrite forallb_forall in G. rewrite (record_decided F _ 12 _ _ k _ (G k I)).
  rewrite (reserved_missing k I). rewrite <- s_sem. change (s_of submit_xsd (type_of_tag submit_xsd k)) with (s_kind submit_xsd k).
  change (has (fun x => strip (text x))) with (given text). fold (offered submit_xsd k).
  assert (absent (fun x => strip (text x)) (reserved_fields k) = true <-> (forall x, In x (fields k) -> In x (map lit reserved) -> given text x = false)) as R.
  { rewrite absent_in. unfold reserved_fields. split.
    - intros H x J K. apply H. apply filter_In. split; [exact J|now apply smem_iff].
    - intros H x J. apply filter_In in J as [J K]. apply H; [exact J|now apply smem_iff]. }
  split.
  - intros (A & B & C). assert (forall x, In x (reserved_fields k) -> given text x = false) as A' by (apply absent_in, A).
    rewrite (submit_complete k (given text) I A) in B. split; [exact B|]. split; [now apply R|].
    exact (proj1 (fine_simple F submit_xsd _ k text (submit_covers k I) A') C).
  - intros (A & B & C). apply R in B. assert (forall x, In x (reserved_fields k) -> given text x = false) as A' by (apply absent_in, B).
    split; [exact B|]. rewrite (submit_complete k (given text) I B). split; [exact A|]. exact (proj2 (fine_simple F submit_xsd _ k text (submit_covers k I) A') C).
Qed.
