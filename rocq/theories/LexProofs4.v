(** Lemmas of C48, part 4: valid documents can be written. *)
From Verif Require Import SchemaSpec PyStrProofs PsvLines RoundProofs2 SchemaProofs1 SchemaProofs2 SchemaProofs3 RecordProofs1 RecordProofs2 RecordProofs3 RecordProofs4 RecordProofs6 RecordProofs12 AdesMasterTables PropsRound PropsRecord PropsPsvValid.
From Verif Require Import PsvToXml PsvSpec2 Schema XsdSpec SchemaSpec XsdPattern XsdFiles ValueSpec ValidSpec ValidSpec2 LexSpec LexProofs1 LexProofs2 LexProofs3.
Local Open Scope nat_scope.

Section Doc.
Variable F : derivation -> str -> Prop.
Variable RT : reads_texts F.
Variable RL : reads_literals F.
Lemma plain_in k x : In k kinds4 -> In x (fields k) -> x <> $"localUse" -> In x (plain_fields k) /\ In x all_fields.
Proof.
  intros K I N. assert (In x (plain_fields k)) as P. { apply filter_In. split; [exact I|]. destruct (streqb x $"localUse") eqn:Q; [apply streqb_eq in Q; contradiction|reflexivity]. }
  split; [exact P|]. apply in_flat_map. now exists k.
Qed.
Lemma child_good S k c : In S both -> In k kinds4 -> In (xtag c) (fields k) -> valid F S c -> psv_can c ->
  good_child k c /\ (xtag c = $"obsTime" -> ~ starts_alpha (strip (xtext c))).
Proof.
  intros HS K I V (P1 & P2 & P3 & P4 & P5 & P6).
  destruct (plain_in k (xtag c) K I) as [Pl Al]. { intro Q. apply P1. rewrite Q. right; right; now left. }
  assert (declared S (xtag c) = true) as D. { destruct V as (d & E & _). unfold declared. now rewrite E. }
  apply (valid_declared F S c D) in V.
  pose proof (checked_simple S HS) as C. rewrite forallb_forall in C. specialize (C _ Al).
  apply (value_type F S (type_name S (xtag c)) c C) in V as (A & Kd & V).
  pose proof (checked_bar S HS) as CB. rewrite forallb_forall in CB. specialize (CB _ Al).
  pose proof (checked_tame S HS) as CT. rewrite forallb_forall in CT. specialize (CT _ Al).
  pose proof (checked_points S HS) as CP. rewrite forallb_forall in CP. specialize (CP _ K). cbv beta in CP. rewrite forallb_forall in CP. specialize (CP _ Pl).
  unfold offers in *. rewrite D in *.
  assert (xtag c = $"obsTime" -> exists a r, strip (xtext c) = a :: r /\ (isdig a = true \/ a = "-"%char)) as TV.
  { intro Q. apply (time_value F RT RL S (xtag c)); [|exact V]. rewrite Q. exact (checked_time S HS). }
  assert (is_text (xtag c) = true -> In (xtag c) (map lit text_fields)) as IT by (intro Q; now apply smem_iff).
  split; [|].
  - split; [exact A|]. split; [exact Kd|].
    assert (~ In "|"%char (strip (xtext c)) /\ strip (xtext c) <> [] /\ (xtag c <> $"remarks" -> ~ starts_hash (strip (xtext c)))) as (B & N & H).
    { destruct (streqb (xtag c) $"obsTime") eqn:Q.
      - apply streqb_eq in Q. split; [now apply P6|]. destruct (TV Q) as (a & r & E & Da). rewrite E. split; [intro X; discriminate X|].
        intros _ (a' & r' & E' & H). assert (a = a') as <- by congruence. destruct Da as [Da| ->]; [|destruct H as [H|H]; discriminate H].
        destruct H as [-> | ->]; discriminate Da.
      - split; [exact (bar_value F RT RL S (xtag c) _ CB V)|]. destruct (is_text (xtag c)) eqn:X.
        + split; [now apply P3, IT|]. now apply P4, IT.
        + destruct (tame_value F RT RL S (xtag c) _ CT V) as [N H]. split; [exact N|]. intros _. exact H. }
    split; [exact N|]. split; [exact P2|]. split; [exact B|]. split; [rewrite (last_is k K); exact H|].
    intro Fc. rewrite Fc in CP. destruct (is_pointed (xtag c)) eqn:X; [apply P5; now apply smem_iff|]. exact (point_value F RT RL S (xtag c) _ CP V).
  - intros Q (a & r & E & H). destruct (TV Q) as (a' & r' & E' & Da). rewrite E in E'. assert (a = a') as <- by congruence. destruct Da as [Da| ->]; [|discriminate H].
    revert a Da H E E'. clear. intros a Da H _ _. assert (is_alpha_ a = false) as X; [|rewrite X in H; discriminate H]. revert a Da H. intros a Da _. revert a Da. apply (implf_ascii isdig is_alpha_). vm_compute. reflexivity.
Qed.
Lemma time_required : forallb (fun k => match dget k (required ades_tables) with Some rq => smem $"obsTime" rq | None => false end) kinds4 = true.
Proof. vm_compute. reflexivity. Qed.
Lemma record_good k r : In k kinds4 -> xtag r = k -> valid F general_xsd r -> (forall c, inside c r -> psv_can c) -> good_record k r.
Proof.
  intros K T V P. pose proof (kinds4_6 k K) as K6.
  destruct (proj1 (general_any F k r T K6) V) as (B & O & _ & Kd).
  destruct (record_row F r r V (or_introl eq_refl)) as (al & rq & _ & R & _ & Rq); [rewrite T; exact K6|]. rewrite T in R.
  assert (forall c, In c (xkids r) -> good_child k c /\ (xtag c = $"obsTime" -> ~ starts_alpha (strip (xtext c)))) as G.
  { intros c I. apply (child_good general_xsd k c (or_introl eq_refl) K).
    - apply (in_order_incl _ _ O). now apply in_map.
    - now apply Kd.
    - apply P. exact (inside_child c c r (inside_self c) I). }
  split; [exact T|]. split; [exact K|]. split; [exact B|]. split; [exact O|]. split; [exists rq; now split|]. split; [apply Forall_forall; intros c I; now apply G|].
  pose proof time_required as TR. rewrite forallb_forall in TR. specialize (TR k K). cbv beta in TR. rewrite R in TR. apply smem_iff in TR. apply Rq in TR. apply in_map_iff in TR as (c & Tc & Ic).
  exists c. split; [exact Ic|]. split; [exact Tc|]. now apply G.
Qed.
(** * Headers *)
Definition good_item (i : xml) : Prop := xattrs i = [] /\ Forall (fun s => xattrs s = [] /\ xkids s = []) (xkids i).
Lemma good_item_normal i : good_item i -> normal_item i = trim_texts i.
Proof.
  destruct i as [t a s ks]. intros [A K]. cbn [xattrs xkids] in *. subst a. unfold normal_item. cbn [xtag xtext xkids trim_texts]. f_equal.
  apply map_ext_in. intros c I. rewrite Forall_forall in K. destruct (K c I) as [E1 E2]. destruct c as [t' a' s' ks']. cbn [xattrs xkids] in *. subst. reflexivity.
Qed.
Lemma composed_good S ps e : composed F S ps e -> good_item e.
Proof. intros ((A & _) & _ & H & _). split; [exact A|]. apply Forall_forall. intros k I. destruct (H k I) as (n & t & b & _ & _ & A' & K' & _). now split. Qed.
Lemma listed_good S n t e : listed F S n t e -> good_item e.
Proof. intros ((A & _) & _ & H). split; [exact A|]. apply Forall_forall. intros k I. destruct (H k I) as (_ & A' & K' & _). now split. Qed.
Lemma header_good S e : In S both -> In (xtag e) (map lit context_parts) -> valid F S e -> good_item e.
Proof.
  intros HS I V. destruct (C41_header_parts F S e HS) as (H1 & H2 & H3 & H4 & H5 & H6 & H7).
  destruct I as [I|[I|[I|[I|[I|[I|[I|[I|[I|[I|[]]]]]]]]]]]; symmetry in I.
  - now apply (composed_good S observatory_parts), H1.
  - now apply (composed_good S submitter_parts), H2.
  - apply (listed_good S "name" "StringTypeW100"), H5; [left; now symmetry|exact V].
  - apply (listed_good S "name" "StringTypeW100"), H5; [right; left; now symmetry|exact V].
  - now apply (composed_good S telescope_parts), H3.
  - now apply (composed_good S software_parts), H4.
  - apply (listed_good S "name" "StringTypeW100"), H5; [right; right; left; now symmetry|exact V].
  - apply (listed_good S "name" "StringTypeW100"), H5; [right; right; right; left; now symmetry|exact V].
  - apply H7 in V; [|exact I]. destruct V as (A & K & _). split; [exact A|]. rewrite K. constructor.
  - now apply (listed_good S "line" "StringTypeW100"), H6.
Qed.
Lemma well_named_kid t k : well_named t -> In k (xkids t) -> well_named k.
Proof. destruct t as [n a s ks]. cbn [well_named xkids]. intros (_ & _ & _ & W) I. induction ks as [|k' ks IH]; [destruct I|]. destruct W as [W1 W2]. destruct I as [<-|I]; [exact W1|now apply IH]. Qed.
Lemma well_named_tag t : well_named t -> valid_name (xtag t) = true.
Proof. destruct t. now intros (H & _). Qed.
Lemma item_writable i : well_named i -> (forall c, inside c i -> psv_can c) -> writable_item i.
Proof.
  intros W P. split; [now apply well_named_tag|]. split; [exact (proj1 (proj2 (P i (inside_self i))))|].
  apply Forall_forall. intros s I. split; [apply well_named_tag; exact (well_named_kid i s W I)|]. exact (proj1 (proj2 (P s (inside_child s s i (inside_self s) I)))).
Qed.
Lemma kinds4_names k : In k (map lit record_names) <-> In k kinds4. Proof. reflexivity. Qed.
Lemma kinds4_printable k : In k kinds4 -> printable ades_tables k.
Proof. intro I. pose proof C22_types as H. rewrite Forall_forall in H. exact (H k I). Qed.
Lemma tag_block : is_tag $"obsBlock" = fun c => streqb (xtag c) $"obsBlock". Proof. reflexivity. Qed.
Lemma kinds4_no_block : forallb (fun k => negb (streqb k $"obsBlock")) kinds4 = true. Proof. vm_compute. reflexivity. Qed.
Lemma child_document c : In (xtag c) (map lit (record_names ++ residual_names ++ ["obsBlock"%string])) -> valid F general_xsd c -> well_named c ->
  (forall k, inside k c -> psv_can k) -> writable_child ades_tables c /\ normal_child ades_tables c = trim_texts c.
Proof.
  intros I V W P. rewrite map_app in I. apply in_app_or in I as [I|I]; [|rewrite map_app in I; apply in_app_or in I as [I|I]].
  - pose proof (record_good (xtag c) c I eq_refl V P) as G. split.
    + left. exists (xtag c). split; [now apply kinds4_printable|now apply good_writable].
    + unfold normal_child. rewrite tag_block. pose proof kinds4_no_block as N. rewrite forallb_forall in N. specialize (N _ I). apply negb_true_iff in N. rewrite N. exact (good_normal _ _ G).
  - exfalso. destruct (P c (inside_self c)) as [P1 _]. apply P1. destruct I as [<-|[<-|[]]]; [now left|right; now left].
  - destruct I as [I|[]]. symmetry in I.
    apply (C41_block F general_xsd c (or_introl eq_refl) I) in V as ((A & B) & ctx & data & E & Tc & Vc & Td & Vd).
    apply (C41_context F general_xsd ctx (or_introl eq_refl) Tc) in Vc as ((Ac & Bc) & _ & Kc & Nc).
    apply (C41_data F general_xsd data (or_introl eq_refl) Td) in Vd as ((Ad & Bd) & Nd & kind & Ik & Kd).
    assert (forall k, inside k ctx -> psv_can k) as Pc by (intros k Hk; apply P; apply (inside_child k ctx c Hk); rewrite E; now left).
    assert (forall k, inside k data -> psv_can k) as Pd by (intros k Hk; apply P; apply (inside_child k data c Hk); rewrite E; right; now left).
    assert (well_named ctx) as Wc by (apply (well_named_kid c _ W); rewrite E; now left).
    assert (forall r, In r (xkids data) -> good_record kind r) as Gr.
    { intros r Ir. destruct (Kd r Ir) as [Tr Vr]. apply record_good; [exact Ik|exact Tr|exact Vr|]. intros k Hk. apply Pd. exact (inside_child k r data Hk Ir). }
    assert (forall i, In i (xkids ctx) -> good_item i /\ writable_item i) as Gi.
    { intros i Ii. destruct (Kc i Ii) as [Ti Vi]. split; [exact (header_good general_xsd i (or_introl eq_refl) Ti Vi)|]. apply item_writable; [exact (well_named_kid ctx i Wc Ii)|]. intros k Hk. apply Pc. exact (inside_child k i ctx Hk Ii). }
    destruct c as [tg a x ks]. cbn [xtag xattrs xtext xkids] in *. subst tg ks a. destruct ctx as [tgc ac xc kc]. destruct data as [tgd ad xd kd]. cbn [xtag xattrs xtext xkids] in *. subst tgc ac tgd ad.
    split.
    + right. exists [], x, [], xc, kc, [], xd, kd, kind. split; [reflexivity|]. split; [intro Q; subst kc; exact (Nc _ (or_introl eq_refl))|].
      split; [apply Forall_forall; intros i Ii; now apply Gi|]. split; [exact Nd|]. split; [now apply kinds4_printable|]. apply Forall_forall. intros r Ir. apply good_writable. now apply Gr.
    + unfold normal_child. cbn [is_tag xtag]. assert (is_tag $"obsBlock" (Elem $"obsBlock" [] x [Elem $"obsContext" [] xc kc; Elem $"obsData" [] xd kd]) = true) as -> by reflexivity.
      cbn [xkids trim_texts map]. rewrite (blank_strip x B), (blank_strip xc Bc), (blank_strip xd Bd). f_equal. f_equal; [f_equal|f_equal; f_equal].
      * apply map_ext_in. intros i Ii. apply good_item_normal. now apply Gi.
      * apply map_ext_in. intros r Ir. apply (good_normal kind). now apply Gr.
Qed.
(** * Documents *)
Lemma document_writable t : xtag t = $"ades" -> valid F general_xsd t -> well_named t -> NoDup (map fst (xattrs t)) ->
  (forall k, inside k t -> psv_can k) -> writable ades_tables t /\ normal ades_tables t = trim_texts t.
Proof.
  intros T V W N P. apply (C41_ades_general F t T) in V as (B & At & (v & Iv) & K).
  assert (xattrs t = [($"version", $"2022")]) as A.
  { assert (forall p, In p (xattrs t) -> p = ($"version", $"2022")) as All.
    { intros [k w] I. destruct (At k w I) as [-> Sw]. apply (C47_version F general_xsd w (or_introl eq_refl) RT) in Sw. now subst. }
    revert N Iv All. generalize (xattrs t). intros l. destruct l as [|p [|q l]]; [intros _ []| |]; intros N _ All.
    - now rewrite (All p (or_introl eq_refl)).
    - exfalso. rewrite (All p (or_introl eq_refl)), (All q (or_intror (or_introl eq_refl))) in N. cbn [map fst] in N. inversion_clear N as [|? ? NI _]. apply NI. now left. }
  assert (forall c, In c (xkids t) -> writable_child ades_tables c /\ normal_child ades_tables c = trim_texts c) as G.
  { intros c I. destruct (K c I) as [Tc Vc]. apply child_document; [exact Tc|exact Vc|exact (well_named_kid t c W I)|]. intros k Hk. apply P. exact (inside_child k c t Hk I). }
  split.
  - split; [exact T|]. split; [|split; [exact W|apply Forall_forall; intros c I; now apply G]].
    exists $"2022". rewrite A. split; [reflexivity|]. split; [|intro Q; vm_compute in Q; repeat (destruct Q as [Q|Q]; [discriminate Q|]); exact Q].
    split; intro Q; vm_compute in Q; repeat (destruct Q as [Q|Q]; [discriminate Q|]); exact Q.
  - unfold normal, version_of. destruct t as [tg a x ks]. cbn [xtag xattrs xtext xkids trim_texts] in *. subst tg a. rewrite (blank_strip x B). f_equal.
    apply map_ext_in. intros c I. now apply G.
Qed.
End Doc.
