(** Lemmas of C47. *)
From Verif Require Import SchemaSpec PyStrProofs SchemaProofs3 RecordProofs1 RecordProofs2 RecordProofs3 RecordProofs4 RecordProofs5 RecordProofs6 AdesMasterTables.
From Verif Require Import XmlProofs Schema XsdSpec SchemaSpec XsdFiles DocSpec ValidSpec PropsRecord PsvToXml PsvSpec PsvProofs1 PsvProofs2 PsvProofs3 PsvValidSpec.
Import PsvSpec.
Local Open Scope nat_scope.

(** * what a described document is made of *)
Definition trimmed_line (l : line) : Prop :=
  match l with LTop _ t | LSub _ t => is_trimmed t | LHead _ _ => True | LData r => Forall is_trimmed r end.
Lemma cells_are_trimmed raw : Forall is_trimmed (cells raw).
Proof. unfold cells. apply Forall_forall. intros c I. apply in_map_iff in I as (x & <- & _). unfold is_trimmed. apply strip_idem. Qed.
Lemma reads_trimmed T raw l : reads_as T raw l -> trimmed_line l.
Proof.
  intros [n t C|n t C| |]; cbn [trimmed_line]; auto.
  - destruct C as (w1 & w2 & w3 & w4 & _ & _ & _ & _ & _ & _ & H & _). exact H.
  - destruct C as (w1 & w2 & w3 & w4 & _ & _ & _ & _ & _ & _ & H & _). exact H.
  - apply cells_are_trimmed.
Qed.
Lemma described_trimmed T raws d : Forall2 (reads_as T) raws (doc_lines d) -> forall l, In l (doc_lines d) -> trimmed_line l.
Proof. induction 1 as [|raw l raws ls H _ IH]; intros x []; subst; eauto using reads_trimmed. Qed.
Definition trimmed_item (i : item) : Prop := is_trimmed (i_text i) /\ Forall (fun nt => is_trimmed (snd nt)) (i_subs i).
Lemma ctx_trimmed its : (forall l, In l (ctx_lines its) -> trimmed_line l) -> Forall trimmed_item its.
Proof.
  intro H. apply Forall_forall. intros i I. split.
  - apply (H (LTop (i_name i) (i_text i))). unfold ctx_lines. apply in_flat_map. exists i. split; [exact I|]. now left.
  - apply Forall_forall. intros nt J. apply (H (LSub (fst nt) (snd nt))). unfold ctx_lines. apply in_flat_map. exists i. split; [exact I|]. right. apply in_map_iff. now exists nt.
Qed.
Definition trimmed_section (s : section) : Prop := Forall trimmed_item (s_ctx s) /\ Forall (Forall is_trimmed) (s_rows s).
Lemma doc_trimmed T raws d : Forall2 (reads_as T) raws (doc_lines d) -> Forall trimmed_section (d_secs d).
Proof.
  intro H. pose proof (described_trimmed T raws d H) as L. apply Forall_forall. intros s I.
  assert (forall l, In l (section_lines s) -> trimmed_line l) as LS by (intros l J; apply L; unfold doc_lines; apply in_or_app; left; apply in_flat_map; now exists s).
  split.
  - apply ctx_trimmed. intros l J. apply LS. unfold section_lines. apply in_or_app. now left.
  - apply Forall_forall. intros r J. apply (LS (LData r)). unfold section_lines. apply in_or_app. right. right. now apply in_map.
Qed.

(** * rows *)
Lemma value_in cols : forall row k, value_of cols row k = [] \/ In (value_of cols row k) row.
Proof.
  induction cols as [|c cols IH]; intros [|v row] k; cbn [value_of]; try (now left).
  destruct (streqb k c && _); [right; now left|]. destruct (IH row k) as [E|E]; [now left|right; now right].
Qed.
Lemma value_trimmed cols row k : Forall is_trimmed row -> strip (value_of cols row k) = value_of cols row k.
Proof. intro H. destruct (value_in cols row k) as [->|I]; [reflexivity|]. rewrite Forall_forall in H. exact (H _ I). Qed.
Lemma row_element al ty cols row : Forall is_trimmed row -> row_tree al ty cols row = element ty al (value_of cols row).
Proof.
  intro H. unfold row_tree, element. f_equal. induction al as [|k al IH]; [reflexivity|]. cbn [filter flat_map]. rewrite <- IH, (value_trimmed cols row k H).
  destruct (value_of cols row k) eqn:E; cbn [streqb negb]; [reflexivity|]. cbn [map app]. rewrite E. reflexivity.
Qed.
Lemma fields_order k : fields k = order_of ades_tables k. Proof. reflexivity. Qed.
Definition one_row (s : section) (row : list str) : xml := row_tree (order_of ades_tables (s_type s)) (s_type s) (s_cols s) row.
Lemma row_general F s row : In (s_type s) kinds6 -> Forall is_trimmed row ->
  (valid F general_xsd (one_row s row) <-> fields_fine F general_xsd (s_type s) (order_of ades_tables (s_type s)) (value_of (s_cols s) row)).
Proof. intros K T. unfold one_row. rewrite (row_element _ _ _ _ T), <- fields_order. exact (general_record F (s_type s) (value_of (s_cols s) row) K). Qed.
Lemma given_iff cols row x : Forall is_trimmed row -> given (value_of cols row) x = false <-> value_of cols row x = [].
Proof. intro H. unfold given. rewrite (value_trimmed cols row x H). destruct (value_of cols row x); split; congruence. Qed.
Lemma row_submit F s row : In (s_type s) (firstn 4 kinds6) -> Forall is_trimmed row ->
  (valid F submit_xsd (one_row s row) <-> fields_fine F submit_xsd (s_type s) (order_of ades_tables (s_type s)) (value_of (s_cols s) row) /\
   forall x, In x (map lit reserved) -> In x (order_of ades_tables (s_type s)) -> value_of (s_cols s) row x = []).
Proof.
  intros K T. unfold one_row. rewrite (row_element _ _ _ _ T), <- fields_order. rewrite (submit_record F (s_type s) (value_of (s_cols s) row) K). unfold fields_fine. split.
  - intros (A & B & C). split; [split; assumption|]. intros x I J. apply (given_iff _ _ _ T). exact (B x J I).
  - intros ((A & C) & B). split; [exact A|]. split; [|exact C]. intros x I J. apply (given_iff _ _ _ T). exact (B x J I).
Qed.

(** * context lines *)
Lemma trimmed_blank s : is_trimmed s -> blank_text s = true <-> s = [].
Proof.
  intro T. unfold blank_text. split; [|now intros ->]. intro B. unfold is_trimmed in T. rewrite <- T. unfold strip.
  rewrite (proj2 (lstrip_nil_iff s) B). reflexivity.
Qed.
Section Items.
Variables (F : derivation -> str -> Prop) (S : xml).
Hypothesis HS : In S [general_xsd; submit_xsd].
Lemma bare_item i : trimmed_item i -> bare (item_tree i) <-> i_text i = [].
Proof. intros [T _]. unfold bare, item_tree. cbn [xattrs xtext]. rewrite (trimmed_blank _ T). tauto. Qed.
Lemma sub_tags (i : item) : map xtag (xkids (item_tree i)) = map fst (i_subs i).
Proof. unfold item_tree. cbn [xkids]. rewrite map_map. reflexivity. Qed.
Lemma sub_in (i : item) k : In k (xkids (item_tree i)) <-> exists n v, In (n, v) (i_subs i) /\ k = leaf n v.
Proof.
  unfold item_tree. cbn [xkids]. rewrite in_map_iff. split.
  - intros ((n & v) & <- & I). now exists n, v.
  - intros (n & v & I & ->). now exists (n, v).
Qed.
Lemma leaf_value t n v : has_value F S t (leaf n v) <-> simple F S t v.
Proof. unfold has_value, leaf. cbn. tauto. Qed.
Lemma composed_item i ps : trimmed_item i -> composed F S ps (item_tree i) <-> i_text i = [] /\ named_parts F S ps (i_subs i).
Proof.
  intro T. unfold composed, named_parts. rewrite (bare_item i T), sub_tags. split.
  - intros (B & N & A & R). split; [exact B|]. split; [exact N|]. split; [|exact R]. intros n v I.
    destruct (A (leaf n v)) as (m & t & b & J & E & V); [apply sub_in; now exists n, v|]. exists m, t, b. split; [exact J|]. split; [exact E|]. now apply leaf_value in V.
  - intros (B & N & A & R). split; [exact B|]. split; [exact N|]. split; [|exact R]. intros k I. apply sub_in in I as (n & v & I & ->).
    destruct (A n v I) as (m & t & b & J & E & V). exists m, t, b. split; [exact J|]. split; [exact E|]. now apply leaf_value.
Qed.
Lemma listed_item i n : trimmed_item i -> listed F S n "StringTypeW100" (item_tree i) <-> i_text i = [] /\ list_of F S n (i_subs i).
Proof.
  intro T. unfold listed, list_of. rewrite (bare_item i T). split.
  - intros (B & N & A). split; [exact B|]. split; [intro E; apply N; unfold item_tree; cbn [xkids]; now rewrite E|]. intros m v I.
    destruct (A (leaf m v)) as [E V]; [apply sub_in; now exists m, v|]. split; [exact E|]. now apply leaf_value in V.
  - intros (B & N & A). split; [exact B|]. split; [intro E; apply N; unfold item_tree in E; cbn [xkids] in E; now apply map_eq_nil in E|]. intros k I.
    apply sub_in in I as (m & v & I & ->). destruct (A m v I) as [E V]. split; [exact E|]. now apply leaf_value.
Qed.
Lemma item_valid i : trimmed_item i -> (In (i_name i) (map lit context_parts) /\ valid F S (item_tree i)) <-> item_fine F S i.
Proof.
  intro T. destruct (C41_header_parts F S (item_tree i) HS) as (V1 & V2 & V3 & V4 & V5 & V6 & V7). change (xtag (item_tree i)) with (i_name i) in *.
  assert (forall (P : Prop), has_value F S $"StringTypeW100" (item_tree i) <-> i_subs i = [] /\ simple F S $"StringTypeW100" (i_text i)) as HV.
  { intros _. unfold has_value, item_tree. cbn [xattrs xkids xtext]. split.
    - intros (_ & K & V). split; [now apply map_eq_nil in K|exact V].
    - intros (K & V). rewrite K. auto. }
  unfold item_fine. split.
  - intros [I V]. unfold context_parts in I. cbn [map In] in I.
    destruct I as [E|[E|[E|[E|[E|[E|[E|[E|[E|[E|[]]]]]]]]]]]; symmetry in E.
    + left. split; [exact E|]. apply composed_item; [exact T|]. now apply V1.
    + right. left. split; [exact E|]. apply composed_item; [exact T|]. now apply V2.
    + do 4 right. left. split; [now left|]. apply listed_item; [exact T|]. apply V5; [rewrite E; now left|exact V].
    + do 4 right. left. split; [right; now left|]. apply listed_item; [exact T|]. apply V5; [rewrite E; right; now left|exact V].
    + do 2 right. left. split; [exact E|]. apply composed_item; [exact T|]. now apply V3.
    + do 3 right. left. split; [exact E|]. apply composed_item; [exact T|]. now apply V4.
    + do 4 right. left. split; [right; right; now left|]. apply listed_item; [exact T|]. apply V5; [rewrite E; right; right; now left|exact V].
    + do 4 right. left. split; [right; right; now right|]. apply listed_item; [exact T|]. apply V5; [rewrite E; right; right; right; now left|exact V].
    + do 6 right. split; [exact E|]. apply (HV True). now apply V7.
    + do 5 right. left. split; [exact E|]. apply listed_item; [exact T|]. now apply V6.
  - intros [(E & H)|[(E & H)|[(E & H)|[(E & H)|[(E & H)|[(E & H)|(E & H)]]]]]].
    + split; [rewrite E; vm_compute; tauto|]. apply V1; [exact E|]. now apply composed_item.
    + split; [rewrite E; vm_compute; tauto|]. apply V2; [exact E|]. now apply composed_item.
    + split; [rewrite E; vm_compute; tauto|]. apply V3; [exact E|]. now apply composed_item.
    + split; [rewrite E; vm_compute; tauto|]. apply V4; [exact E|]. now apply composed_item.
    + split; [destruct E as [E|[E|[E|E]]]; rewrite E; vm_compute; tauto|]. apply V5; [destruct E as [E|[E|[E|E]]]; rewrite E; cbn [In]; tauto|]. now apply listed_item.
    + split; [rewrite E; vm_compute; tauto|]. apply V6; [exact E|]. now apply listed_item.
    + split; [rewrite E; vm_compute; tauto|]. apply V7; [exact E|]. now apply (HV True).
Qed.
Lemma context_item its : Forall trimmed_item its ->
  (valid F S (Elem $"obsContext" [] [] (map item_tree its)) <-> context_fine F S its).
Proof.
  intro T. rewrite Forall_forall in T. rewrite (C41_context F S (Elem $"obsContext" [] [] (map item_tree its)) HS eq_refl). cbn [xkids]. rewrite map_map. change (fun x => xtag (item_tree x)) with i_name.
  unfold context_fine. rewrite Forall_forall. split.
  - intros (_ & N & A & R). split; [exact N|]. split; [exact R|]. intros i I. apply item_valid; [exact (T i I)|]. exact (A (item_tree i) (in_map _ _ _ I)).
  - intros (N & R & A). split; [split; reflexivity|]. split; [exact N|]. split; [|exact R]. intros k I. apply in_map_iff in I as (i & <- & I). apply (proj2 (item_valid i (T i I)) (A i I)).
Qed.
End Items.

(** * sections *)
Lemma rows_tag s e : In e (rows_trees ades_tables s) -> xtag e = s_type s.
Proof. unfold rows_trees. intro I. apply in_map_iff in I as (r & <- & _). reflexivity. Qed.
Lemma leaf_block_invalid F S s e : In S [general_xsd; submit_xsd] -> In e (rows_trees ades_tables s) -> s_type s = $"obsBlock" -> ~ valid F S e.
Proof.
  intros HS I T V. pose proof (rows_tag s e I) as TE. rewrite T in TE. apply (C41_block F S e HS TE) in V as (_ & c & d & K & TC & VC & _).
  apply (C41_context F S c HS TC) in VC as (_ & _ & _ & N).
  assert (xkids c = []) as KC.
  { unfold rows_trees in I. apply in_map_iff in I as (r & <- & _). unfold row_tree in K. cbn [xkids] in K.
    match type of K with ?l = _ => assert (In c l) as J by (rewrite K; now left) end. apply in_map_iff in J as (k & <- & _). reflexivity. }
  rewrite KC in N. destruct (N $"observatory" (or_introl eq_refl)).
Qed.
Lemma tail_invalid F S its : In S [general_xsd; submit_xsd] -> ~ valid F S (block its []).
Proof. intros HS V. apply (C41_block F S (block its []) HS eq_refl) in V as (_ & c & d & K & _). discriminate K. Qed.
Lemma four_kinds k : In k (map lit record_names) -> In k (firstn 4 kinds6) /\ In k kinds6 /\ k <> $"obsBlock".
Proof. intros [<-|[<-|[<-|[<-|[]]]]]; cbn [firstn kinds6 In]; (split; [tauto|]); (split; [tauto|discriminate]). Qed.
Lemma six_kinds k : In k (map lit record_names) \/ In k (map lit residual_names) -> In k kinds6.
Proof. intros [I|I]; [now apply four_kinds|]. destruct I as [<-|[<-|[]]]; cbn [kinds6 In]; tauto. Qed.
Lemma rows_general F s : In (s_type s) kinds6 -> Forall (Forall is_trimmed) (s_rows s) ->
  ((forall e, In e (rows_trees ades_tables s) -> valid F general_xsd e) <-> rows_fine F general_xsd s).
Proof.
  intros K T. unfold rows_fine. rewrite Forall_forall in *. split.
  - intros H r I. apply row_general; [exact K|exact (T r I)|]. apply H. unfold rows_trees. exact (in_map (one_row s) _ _ I).
  - intros H e I. unfold rows_trees in I. apply in_map_iff in I as (r & <- & I). apply (proj2 (row_general F s r K (T r I)) (H r I)).
Qed.
Lemma rows_submit F s : In (s_type s) (firstn 4 kinds6) -> Forall (Forall is_trimmed) (s_rows s) ->
  ((forall e, In e (rows_trees ades_tables s) -> valid F submit_xsd e) <-> rows_fine F submit_xsd s /\ nothing_reserved s).
Proof.
  intros K T. unfold rows_fine, nothing_reserved. rewrite !Forall_forall in *. split.
  - intro H. assert (forall r, In r (s_rows s) -> valid F submit_xsd (one_row s r)) as V by (intros r I; apply H; unfold rows_trees; exact (in_map (one_row s) _ _ I)).
    split; intros r I; apply (row_submit F s r K (T r I)) in V; auto; tauto.
  - intros [H1 H2] e I. unfold rows_trees in I. apply in_map_iff in I as (r & <- & I). apply (proj2 (row_submit F s r K (T r I))). split; [exact (H1 r I)|exact (H2 r I)].
Qed.
Lemma rows_some s : section_ok s -> exists e, In e (rows_trees ades_tables s).
Proof. intros [R _]. unfold rows_trees. destruct (s_rows s) as [|r l]; [congruence|]. eexists. now left. Qed.
(** a block of a section *)
Lemma data_block F S s (R : Prop) : In S [general_xsd; submit_xsd] -> trimmed_section s -> section_ok s ->
  (observations s -> ((forall e, In e (rows_trees ades_tables s) -> valid F S e) <-> R)) ->
  (valid F S (block (s_ctx s) [Elem $"obsData" [] [] (rows_trees ades_tables s)]) <-> context_fine F S (s_ctx s) /\ observations s /\ R).
Proof.
  intros HS [TC _] OK HR. unfold block. rewrite (C41_block F S (Elem $"obsBlock" [] [] _) HS eq_refl). cbn [xkids]. split.
  - intros (_ & c & d & E & _ & VC & _ & VD).
    assert (c = Elem $"obsContext" [] [] (map item_tree (s_ctx s))) as -> by exact (f_equal (hd c) (eq_sym E)).
    assert (d = Elem $"obsData" [] [] (rows_trees ades_tables s)) as -> by exact (f_equal (fun l => hd d (tl l)) (eq_sym E)).
    apply (context_item F S HS _ TC) in VC. apply (C41_data F S (Elem $"obsData" [] [] _) HS eq_refl) in VD as (_ & _ & kind & IK & A). cbn [xkids] in A.
    destruct (rows_some s OK) as (e & I). destruct (A e I) as [T _]. rewrite (rows_tag s e I) in T. subst kind. split; [exact VC|]. split; [exact IK|]. apply (HR IK). intros e' I'. exact (proj2 (A e' I')).
  - intros (VC & O & HRR). split; [split; reflexivity|]. do 2 eexists. split; [reflexivity|]. split; [reflexivity|]. split; [now apply context_item|]. split; [reflexivity|].
    apply (C41_data F S (Elem $"obsData" [] [] _) HS eq_refl). cbn [xkids]. split; [split; reflexivity|]. split; [destruct (rows_some s OK) as (e & I); intro E; rewrite E in I; destruct I|].
    exists (s_type s). split; [exact O|]. intros e I. split; [exact (rows_tag s e I)|]. exact (proj2 (HR O) HRR e I).
Qed.
Lemma section_general_iff F s : trimmed_section s -> section_ok s ->
  ((forall e, In e (section_trees ades_tables s) -> In (xtag e) (map lit (record_names ++ residual_names ++ ["obsBlock"%string])) /\ valid F general_xsd e) <-> section_general F general_xsd s).
Proof.
  intros TS OK. pose proof TS as [_ TR]. unfold section_trees, section_general. destruct (s_ctx s) as [|i its] eqn:C.
  - split.
    + intro H. destruct (rows_some s OK) as (e & I). destruct (H e I) as [T V]. rewrite (rows_tag s e I) in T. rewrite app_assoc, map_app in T. apply in_app_or in T as [T|T].
      * rewrite map_app in T. apply in_app_or in T. split; [|left; split; [reflexivity|exact T]]. apply (rows_general F s (six_kinds _ T) TR). intros e' I'. exact (proj2 (H e' I')).
      * destruct T as [T|[]]. destruct (leaf_block_invalid F general_xsd s e (or_introl eq_refl) I (eq_sym T) V).
    + intros [R [[_ K]|[N _]]]; [|congruence]. intros e I. rewrite (rows_tag s e I). split.
      * rewrite app_assoc, map_app. apply in_or_app. left. rewrite map_app. apply in_or_app. exact K.
      * exact (proj2 (rows_general F s (six_kinds _ K) TR) R e I).
  - rewrite <- C. split.
    + intro H. destruct (H _ (or_introl eq_refl)) as [_ V]. apply (data_block F general_xsd s (rows_fine F general_xsd s) (or_introl eq_refl) TS OK) in V as (A & O & R).
      * split; [exact R|]. right. split; [congruence|]. split; [exact A|exact O].
      * intro O. apply rows_general; [now apply four_kinds|exact TR].
    + intros [R [[N _]|(_ & A & O)]]; [congruence|]. intros e [<-|[]]. split; [vm_compute; tauto|].
      apply (data_block F general_xsd s (rows_fine F general_xsd s) (or_introl eq_refl) TS OK); [|auto]. intros _. apply rows_general; [now apply four_kinds|exact TR].
Qed.
Lemma section_submit_iff F s : trimmed_section s -> section_ok s ->
  ((forall e, In e (section_trees ades_tables s) -> xtag e = $"obsBlock" /\ valid F submit_xsd e) <-> section_submit F submit_xsd s).
Proof.
  intros TS OK. pose proof TS as [_ TR]. unfold section_trees, section_submit. destruct (s_ctx s) as [|i its] eqn:C.
  - split; [|intros (_ & _ & N & _); congruence]. intro H. destruct (rows_some s OK) as (e & I). destruct (H e I) as [T V]. rewrite (rows_tag s e I) in T.
    destruct (leaf_block_invalid F submit_xsd s e (or_intror (or_introl eq_refl)) I T V).
  - rewrite <- C. split.
    + intro H. destruct (H _ (or_introl eq_refl)) as [_ V]. apply (data_block F submit_xsd s (rows_fine F submit_xsd s /\ nothing_reserved s) (or_intror (or_introl eq_refl)) TS OK) in V as (A & O & R1 & R2).
      * split; [exact R1|]. split; [exact R2|]. split; [congruence|]. split; [exact A|exact O].
      * intro O. apply rows_submit; [now apply four_kinds|exact TR].
    + intros (R1 & R2 & _ & A & O). intros e [<-|[]]. split; [reflexivity|].
      apply (data_block F submit_xsd s (rows_fine F submit_xsd s /\ nothing_reserved s) (or_intror (or_introl eq_refl)) TS OK); [|auto]. intros _. apply rows_submit; [now apply four_kinds|exact TR].
Qed.
Lemma tail_iff t : doc_ok {| d_secs := []; d_tail := t |} -> finished t <-> tail_trees t = [].
Proof.
  intros [_ N]. cbn [d_tail] in N. unfold finished. destruct t as [|its|[|i its] cols ty]; cbn [tail_trees]; split; intro H; try reflexivity; try (now left); try discriminate H.
  - destruct H as [H|(c & y & H)]; discriminate H.
  - right. eauto.
  - destruct H as [H|(c & y & H)]; discriminate H.
Qed.
Lemma tail_cases t : tail_trees t = [] \/ exists its, tail_trees t = [block its []].
Proof. destruct t as [|its|[|i its] cols ty]; cbn [tail_trees]; eauto. Qed.
Lemma in_doc version d e : In e (xkids (doc_tree ades_tables version d)) <-> (exists s, In s (d_secs d) /\ In e (section_trees ades_tables s)) \/ In e (tail_trees (d_tail d)).
Proof. unfold doc_tree. cbn [xkids]. rewrite in_app_iff, in_flat_map. tauto. Qed.
Lemma doc_general F version d : Forall trimmed_section (d_secs d) -> doc_ok d ->
  (valid F general_xsd (doc_tree ades_tables version d) <->
   simple F general_xsd $"VersionType" version /\ Forall (section_general F general_xsd) (d_secs d) /\ finished (d_tail d)).
Proof.
  intros T [OK N]. rewrite (C41_ades_general F (doc_tree ades_tables version d) eq_refl). rewrite !Forall_forall in *.
  assert (finished (d_tail d) <-> tail_trees (d_tail d) = []) as FT by (apply tail_iff; split; [constructor|exact N]).
  split.
  - intros (_ & A & _ & K). split; [exact (proj2 (A _ _ (or_introl eq_refl)))|]. split.
    + intros s I. apply (section_general_iff F s (T s I) (OK s I)). intros e J. apply K. apply in_doc. left. now exists s.
    + apply FT. destruct (tail_cases (d_tail d)) as [E|(its & E)]; [exact E|]. exfalso. apply (tail_invalid F general_xsd its (or_introl eq_refl)). apply K. apply in_doc. right. rewrite E. now left.
  - intros (V & A & L). apply FT in L. split; [reflexivity|]. split; [intros k v [E|[]]; injection E as <- <-; split; [reflexivity|exact V]|]. split; [exists version; now left|].
    intros e I. apply in_doc in I as [(s & I & J)|I]; [|rewrite L in I; destruct I]. exact (proj2 (section_general_iff F s (T s I) (OK s I)) (A s I) e J).
Qed.
Lemma doc_submit F version d : Forall trimmed_section (d_secs d) -> doc_ok d ->
  (valid F submit_xsd (doc_tree ades_tables version d) <->
   simple F submit_xsd $"VersionType" version /\ d_secs d <> [] /\ Forall (section_submit F submit_xsd) (d_secs d) /\ finished (d_tail d)).
Proof.
  intros T [OK N]. rewrite (C41_ades_submit F (doc_tree ades_tables version d) eq_refl). rewrite !Forall_forall in *.
  assert (finished (d_tail d) <-> tail_trees (d_tail d) = []) as FT by (apply tail_iff; split; [constructor|exact N]).
  split.
  - intros (_ & A & _ & NE & K). split; [exact (proj2 (A _ _ (or_introl eq_refl)))|].
    assert (tail_trees (d_tail d) = []) as L.
    { destruct (tail_cases (d_tail d)) as [E|(its & E)]; [exact E|]. exfalso. apply (tail_invalid F submit_xsd its (or_intror (or_introl eq_refl))). apply K. apply in_doc. right. rewrite E. now left. }
    split; [intro Q; apply NE; unfold doc_tree; cbn [xkids]; now rewrite Q, L|]. split; [|now apply FT].
    intros s I. apply (section_submit_iff F s (T s I) (OK s I)). intros e J. apply K. apply in_doc. left. now exists s.
  - intros (V & NE & A & L). apply FT in L. split; [reflexivity|]. split; [intros k v [E|[]]; injection E as <- <-; split; [reflexivity|exact V]|]. split; [exists version; now left|].
    assert (forall e, In e (xkids (doc_tree ades_tables version d)) -> xtag e = $"obsBlock" /\ valid F submit_xsd e) as K.
    { intros e I. apply in_doc in I as [(s & I & J)|I]; [|rewrite L in I; destruct I]. exact (proj2 (section_submit_iff F s (T s I) (OK s I)) (A s I) e J). }
    split; [|exact K]. destruct (d_secs d) as [|s l] eqn:D; [congruence|]. intro Q.
    assert (exists e, In e (section_trees ades_tables s)) as (e & I).
    { unfold section_trees. destruct (s_ctx s); [apply rows_some; apply OK; now left|]. eexists. now left. }
    assert (In e (xkids (doc_tree ades_tables version d))) as J by (apply in_doc; left; exists s; rewrite D; split; [now left|exact I]). rewrite Q in J. destruct J.
Qed.
