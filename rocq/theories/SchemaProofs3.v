From Verif Require Import Master AdesMasterTables PyStrProofs XmlProofs TablesProofs SchemaProofs1 SchemaProofs2.
From Verif Require Import Schema XsdSpec SchemaSpec XsdFiles.
Local Open Scope nat_scope.

(** what can be reached from an element of a schema *)
Fixpoint offers (S p : xml) : list (str * str) * list str :=
  match p with Elem t a s ks =>
    let ins := map (offers S) ks in
    let inner := (flat_map fst ins, flat_map snd ins) in
    if has_tag $"xsd:element" p then
      match attr $"ref" p with
      | Some r => match component S $"xsd:element" r with Some d => ([(r, attr_text $"type" d)], []) | None => ([], []) end
      | None => match attr $"name" p, attr $"type" p with Some n, Some t => ([(n, t)], []) | _, _ => ([], []) end
      end
    else if has_tag $"xsd:group" p then match attr $"ref" p with Some r => ([], [r]) | None => ([], []) end
    else inner
  end.
Definition add_pair (x : str * str) N := if tmem (fst x) (snd x) N then N else x :: N.
Definition add_str (x : str) G := if smem x G then G else x :: G.
Definition grow (S : xml) (NG : list (str * str) * list str) :=
  let (N, G) := NG in
  let ins := map (offers S)
    (flat_map (fun x => match component S $"xsd:complexType" (snd x) with Some c => xkids c | None => [] end) N ++
     flat_map (fun g => match component S $"xsd:group" g with Some c => xkids c | None => [] end) G) in
  (fold_right add_pair N (flat_map fst ins), fold_right add_str G (flat_map snd ins)).
Definition reach (S : xml) := Nat.iter 8 (grow S) ([($"ades", $"ADESType")], []).
Definition sub_N := Eval vm_compute in fst (reach submit_xsd).
Definition sub_G := Eval vm_compute in snd (reach submit_xsd).
Lemma sub_closed : closed submit_xsd sub_N sub_G = true. Proof. vm_compute. reflexivity. Qed.
Lemma general_clash : no_clash general_xsd = true. Proof. vm_compute. reflexivity. Qed.
Lemma submit_clash : no_clash submit_xsd = true. Proof. vm_compute. reflexivity. Qed.

(** elements that only documents for exchange may contain *)
Definition distribution_only : list str := Eval compute in map list_ascii_of_string
 ["obsID"; "trkID"; "trkMPC"; "prog"; "nucMag"; "ref"; "subFrm"; "subFmt"; "precTime"; "precRA"; "precDec"; "deprecated"; "localUse";
  "orbProd"; "orbID"; "resRA"; "resDec"; "selAst"; "sigRA"; "sigDec"; "sigCorr"; "sigTime"; "biasRA"; "biasDec"; "biasTime"; "photProd";
  "resMag"; "selPhot"; "sigMag"; "biasMag"; "photMod"; "resDelay"; "selDelay"; "sigDelay"; "resDoppler"; "selDoppler"; "sigDoppler";
  "opticalResidual"; "radarResidual"]%string.
Lemma submit_reach F e : valid F submit_xsd e -> xtag e = $"ades" -> forall d, In d (descendants e) -> In (xtag d) (map fst sub_N).
Proof.
  intros V T. assert (K : exists d, component submit_xsd $"xsd:element" $"ades" = Some d /\ attr_text $"type" d = $"ADESType").
  { eexists. split; vm_compute; reflexivity. }
  destruct K as (d & K1 & K2). apply (closed_valid submit_xsd sub_N sub_G sub_closed F e d $"ADESType" V).
  - now rewrite T.
  - exact K2.
  - rewrite T. vm_compute. reflexivity.
Qed.
Lemma submit_clean F e : valid F submit_xsd e -> xtag e = $"ades" -> forall d, In d (descendants e) -> ~ In (xtag d) distribution_only.
Proof.
  intros V T d I J. pose proof (submit_reach F e V T d I) as K.
  assert (H : forallb (fun x => negb (smem x distribution_only)) (map fst sub_N) = true) by (vm_compute; reflexivity).
  rewrite forallb_forall in H. specialize (H _ K). apply negb_true_iff in H. unfold smem in H.
  assert (existsb (streqb (xtag d)) distribution_only = true); [|congruence]. apply existsb_exists. exists (xtag d). split; [exact J|apply streqb_refl].
Qed.


(** the children of ades in a submission *)
Lemma submit_blocks F e : valid F submit_xsd e -> xtag e = $"ades" -> xkids e <> [] /\ Forall (fun k => xtag k = $"obsBlock") (xkids e).
Proof.
  intros (d & C & V) T. rewrite T in C. assert (K : attr_text $"type" d = $"ADESType") by (vm_compute in C; injection C as <-; reflexivity).
  rewrite K in V. assert (R : kids_ok submit_xsd 5 $"ADESType" [$"obsBlock"] [$"obsBlock"] = true) by (vm_compute; reflexivity).
  destruct (kids_valid submit_xsd F 5 _ _ _ e R V) as [H1 H2]. split.
  - intros E. rewrite E in H2. exact (H2 _ (or_introl eq_refl)).
  - apply Forall_forall. intros k I. specialize (H1 _ (in_map xtag _ _ I)). destruct H1 as [H1|[]]. now symmetry.
Qed.

(** * the tables of C17 and the schema *)
Definition type_of_tag (S : xml) (tag : str) : str :=
  match component S $"xsd:element" tag with Some c => attr_text $"type" c | None => [] end.
Definition records : list str := [$"optical"; $"offset"; $"occultation"; $"radar"; $"opticalResidual"; $"radarResidual"].
Definition table_row (d : list (str * list str)) (tag : str) : list str := match dget tag d with Some l => l | None => [] end.
Lemma records_rows : forallb (fun tag => row_ok general_xsd 12 (type_of_tag general_xsd tag)
   (table_row (allowed ades_tables) tag) (table_row (required ades_tables) tag)) records = true.
Proof. vm_compute. reflexivity. Qed.
Definition others : list str := [$"obsContext"; $"observatory"; $"submitter"; $"observers"; $"measurers"; $"telescope"; $"software";
  $"coinvestigators"; $"collaborators"; $"comment"; $"obsData"; $"obsBlock"; $"ades"].
Lemma other_rows : forallb (fun tag => kids_ok general_xsd 12 (type_of_tag general_xsd tag)
   (table_row (allowed ades_tables) tag) (table_row (required ades_tables) tag)) others = true.
Proof. vm_compute. reflexivity. Qed.
Lemma record_row F e d : valid F general_xsd e -> d = e \/ In d (descendants e) -> In (xtag d) records ->
  exists al rq, dget (xtag d) (allowed ades_tables) = Some al /\ dget (xtag d) (required ades_tables) = Some rq /\
    subsequence (map xtag (xkids d)) al /\ incl rq (map xtag (xkids d)).
Proof.
  intros V I R.
  assert (K : exists c al rq, component general_xsd $"xsd:element" (xtag d) = Some c /\ dget (xtag d) (allowed ades_tables) = Some al /\
     dget (xtag d) (required ades_tables) = Some rq).
  { unfold records in R. repeat (destruct R as [<-|R]; [do 3 eexists; split; [vm_compute; reflexivity|split; vm_compute; reflexivity]|]). destruct R. }
  destruct K as (c & al & rq & K1 & K2 & K3). exists al, rq. split; [exact K2|]. split; [exact K3|].
  pose proof (valid_everywhere general_xsd general_clash F e d c V I K1) as VT. pose proof records_rows as H. rewrite forallb_forall in H.
  specialize (H _ R). unfold type_of_tag, table_row in H. rewrite K1, K2, K3 in H. exact (row_valid general_xsd F 12 _ _ _ d H VT).
Qed.
Lemma other_row F e d : valid F general_xsd e -> d = e \/ In d (descendants e) -> In (xtag d) others ->
  exists al rq, dget (xtag d) (allowed ades_tables) = Some al /\ dget (xtag d) (required ades_tables) = Some rq /\
    incl (map xtag (xkids d)) al /\ incl rq (map xtag (xkids d)).
Proof.
  intros V I R.
  assert (K : exists c al rq, component general_xsd $"xsd:element" (xtag d) = Some c /\ dget (xtag d) (allowed ades_tables) = Some al /\
     dget (xtag d) (required ades_tables) = Some rq).
  { unfold others in R. repeat (destruct R as [<-|R]; [do 3 eexists; split; [vm_compute; reflexivity|split; vm_compute; reflexivity]|]). destruct R. }
  destruct K as (c & al & rq & K1 & K2 & K3). exists al, rq. split; [exact K2|]. split; [exact K3|].
  pose proof (valid_everywhere general_xsd general_clash F e d c V I K1) as VT. pose proof other_rows as H. rewrite forallb_forall in H.
  specialize (H _ R). unfold type_of_tag, table_row in H. rewrite K1, K2, K3 in H. exact (kids_valid general_xsd F 12 _ _ _ d H VT).
Qed.

(** inversions *)
Lemma valid_type_inv F S t e : valid_type F S t e ->
  (simple F S t (xtext e) /\ xkids e = [] /\ xattrs e = []) \/
  (exists ct, component S $"xsd:complexType" t = Some ct /\ blank_text (xtext e) = true /\ attributes_ok F S ct (xattrs e) /\
     sequence F S (filter is_particle (xkids ct)) (xkids e)).
Proof. destruct 1 as [t e H1 H2 H3|t ct e H1 H2 H3 H4]; [left; auto|right; exists ct; auto]. Qed.
Lemma simple_inv F S t s : simple F S t s ->
  (exists d, derives S t d /\ F d s) \/
  (exists st u m, component S $"xsd:simpleType" t = Some st /\ In u (xkids st) /\ xtag u = $"xsd:union" /\
     In m (split_ws (attr_text $"memberTypes" u)) /\ simple F S m s).
Proof. destruct 1 as [t d s H1 H2|t st u m s H1 H2 H3 H4 H5]; [left; exists d; auto|right; exists st, u, m; auto]. Qed.
Lemma derives_inv S t d : derives S t d ->
  (builtin t = true /\ d = (t, [])) \/
  (exists st r b d', component S $"xsd:simpleType" t = Some st /\ In r (xkids st) /\ xtag r = $"xsd:restriction" /\
     derives S (attr_text $"base" r) (b, d') /\ d = (b, facets_of r :: d')).
Proof. destruct 1 as [t H|t st r b d H1 H2 H3 H4]; [left; auto|right; exists st, r, b, d; auto]. Qed.
(** a reading of the facets that accepts more *)
Lemma simple_weaken (F F' : derivation -> str -> Prop) S t s : (forall d s, F d s -> F' d s) -> simple F S t s -> simple F' S t s.
Proof.
  intros H. induction 1 as [t d s D K|t st u m s Co I T J _ IH].
  - apply (simple_derived F' S t d s D). now apply H.
  - exact (simple_union F' S t st u m s Co I T J IH).
Qed.
Lemma valid_weaken (F F' : derivation -> str -> Prop) S e : (forall d s, F d s -> F' d s) -> valid F S e -> valid F' S e.
Proof.
  intros H (d & C & V). exists d. split; [exact C|]. revert V. generalize (attr_text $"type" d). intros t V.
  assert (K : (forall t e, valid_type F S t e -> valid_type F' S t e) /\
  (forall p ks, particle F S p ks -> particle F' S p ks) /\
  (forall p n ks, times F S p n ks -> times F' S p n ks) /\
  (forall ps ks, sequence F S ps ks -> sequence F' S ps ks) /\
  (forall p ks, term F S p ks -> term F' S p ks) /\
  (forall ks, laxly F S ks -> laxly F' S ks)); [|now apply K].
  apply content_ind.
  - intros t' e' Hs K A. apply valid_simple; [now apply (simple_weaken F)|assumption..].
  - intros t' ct e' Co B [A1 A2] _ IH. apply (valid_complex F' S t' ct e' Co B); [|exact IH]. split; [|exact A2].
    intros k v I. destruct (A1 k v I) as (d' & I' & T & N & Hs). exists d'. split; [exact I'|]. split; [exact T|]. split; [exact N|now apply (simple_weaken F)].
  - intros p n ks _ IH O. now apply (particle_times F' S p n).
  - constructor.
  - intros. now constructor.
  - constructor.
  - intros. now constructor.
  - intros p r d' e' T A C' Te _ IH. now apply (term_ref F' S p r d').
  - intros p n t' e' T A A1 A2 Te _ IH. now apply (term_local F' S p n t').
  - intros p r g ks T A C' _ IH. now apply (term_group F' S p r g).
  - intros p ks T _ IH. now apply term_sequence.
  - intros p q ks T I _ IH. now apply (term_choice F' S p q).
  - intros p ks ks' T P _ IH. now apply (term_all F' S p ks ks').
  - intros p e' T _ IH. now apply term_any.
  - constructor.
  - intros e' d' l C' _ IH1 _ IH2. now apply (lax_known F' S e' d').
  - intros e' l C' _ IH1 _ IH2. now apply lax_unknown.
Qed.
