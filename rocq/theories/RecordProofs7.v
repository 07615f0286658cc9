(** Documents made from 80-column files. *)
From Verif Require Import SchemaSpec PyStrProofs SchemaProofs3 RecordProofs1 RecordProofs2 RecordProofs3 RecordProofs4 RecordProofs5 RecordProofs6 AdesMasterTables.
From Verif Require Import Mpc80 Mpc80Spec Schema XsdSpec SchemaSpec XsdFiles DocSpec ValidSpec.
Local Open Scope nat_scope.

Lemma leaf_value F S n t v : has_value F S t (leaf n v) <-> simple F S t v.
Proof. unfold has_value, leaf. cbn [xattrs xkids xtext]. tauto. Qed.
Lemma bare_elem t ks : bare (Elem t [] [] ks). Proof. split; reflexivity. Qed.
Lemma in_composed S tag ps : In S both -> In (tag, ps) [("observatory", observatory_parts); ("submitter", submitter_parts); ("telescope", telescope_parts); ("software", software_parts)]%string ->
  composed_ok S $tag ps = true.
Proof. intros I J. pose proof (ok_composed S I) as H. rewrite forallb_forall in H. exact (H (tag, ps) J). Qed.
Lemma in_listed S tag : In S both -> In tag ["observers"; "measurers"; "coinvestigators"; "collaborators"]%string -> listed_ok S $tag "name" "StringTypeW100" = true.
Proof. intros I J. pose proof (ok_listed S I) as H. apply andb_prop in H as [H _]. rewrite forallb_forall in H. exact (H tag J). Qed.
Section Head.
Variable F : derivation -> str -> Prop.
Variable S : xml.
Hypothesis B : In S both.
Lemma names_fine tag v : In tag ["observers"; "measurers"; "coinvestigators"; "collaborators"]%string ->
  (valid F S (Elem $tag [] [] (names v)) <-> forall n, In n (splitc "," v) -> simple F S $"StringTypeW100" n).
Proof.
  intro I. rewrite (listed_valid F S "name" "StringTypeW100" (Elem $tag [] [] (names v)) (in_listed S tag B I)). unfold listed. cbn [xkids]. unfold names. split.
  - intros (_ & _ & H) n J. destruct (H (leaf $"name" n) (in_map _ _ _ J)) as [_ V]. now apply leaf_value in V.
  - intro H. split; [apply bare_elem|]. split.
    + assert (splitc "," v <> []) as N; [|now destruct (splitc "," v)]. clear H. destruct v as [|c v]; cbn [splitc]; [intro Q; discriminate Q|].
      destruct (ceqb c ","); [intro Q; discriminate Q|]. destruct (splitc "," v); intro Q; discriminate Q.
    + intros k J. apply in_map_iff in J as (n & <- & J). split; [reflexivity|]. now apply leaf_value, H.
Qed.
Lemma comment_fine vs : vs <> [] -> (valid F S (Elem $"comment" [] [] (map (leaf $"line") vs)) <-> forall v, In v vs -> simple F S $"StringTypeW100" v).
Proof.
  intro N. pose proof (ok_listed S B) as H. apply andb_prop in H as [_ H]. rewrite (listed_valid F S "line" "StringTypeW100" (Elem $"comment" [] [] (map (leaf $"line") vs)) H). unfold listed. cbn [xkids]. split.
  - intros (_ & _ & K) v J. destruct (K _ (in_map _ _ _ J)) as [_ V]. now apply leaf_value in V.
  - intro K. split; [apply bare_elem|]. split; [now destruct vs|]. intros k J. apply in_map_iff in J as (v & <- & J). split; [reflexivity|]. now apply leaf_value, K.
Qed.
(** parts given as leaves with distinct names *)
Lemma leaves_fine tag ps (l : list (str * str)) : composed_ok S $tag ps = true ->
  distinct (map fst l) = true -> forallb (fun x => existsb (fun p => streqb (fst x) $(fst (fst p))) ps) l = true ->
  distinct (map (fun p => $(fst (fst p))) ps) = true ->
  forallb (fun p => negb (snd p) || smem $(fst (fst p)) (map fst l)) ps = true ->
  (valid F S (Elem $tag [] [] (map (fun x => leaf (fst x) (snd x)) l)) <->
   forall n v t b, In (n, v) l -> In (t, b) (flat_map (fun p => if streqb n $(fst (fst p)) then [(snd (fst p), snd p)] else []) ps) -> simple F S $t v).
Proof.
  intros C N M D R. rewrite (composed_valid F S ps (Elem $tag [] [] (map (fun x => leaf (fst x) (snd x)) l)) C). unfold composed. cbn [xkids].
  assert (map xtag (map (fun x => leaf (fst x) (snd x)) l) = map fst l) as E by (rewrite map_map; apply map_ext; now intros [a b]). rewrite E.
  rewrite forallb_forall in M, R. split.
  - intros (_ & _ & A & _) n v t b I J. destruct (A (leaf n v)) as (n' & t' & b' & K & X & V). { apply in_map_iff. exists (n, v). now split. }
    apply leaf_value in V. cbn [leaf xtag] in X. apply in_flat_map in J as ([[n2 t2] b2] & K2 & J). cbn [fst snd] in J. destruct (streqb n $n2) eqn:Q; [|destruct J]. destruct J as [J|[]].
    injection J as -> ->. apply streqb_eq in Q. assert (t' = t) as ->; [|exact V]. clear - X Q K K2 D. subst n. apply distinct_ok in D.
    apply in_split in K as (a & c & ->). apply in_app_or in K2 as [K2|[K2|K2]].
    + exfalso. rewrite map_app in D. apply NoDup_remove_2 in D. apply D. apply in_or_app. left. apply in_map_iff. exists (n2, t, b). split; [exact X|exact K2].
    + now injection K2 as _ -> _.
    + exfalso. rewrite map_app in D. apply NoDup_remove_2 in D. apply D. apply in_or_app. right. apply in_map_iff. exists (n2, t, b). split; [exact X|exact K2].
  - intro A. split; [apply bare_elem|]. split; [now apply distinct_ok|]. split.
    + intros k I. apply in_map_iff in I as ([n v] & <- & I). specialize (M (n, v) I). apply existsb_exists in M as ([[n2 t2] b2] & K & Q). cbn [fst] in Q. apply streqb_eq in Q.
      exists n2, t2, b2. split; [exact K|]. split; [exact Q|]. apply leaf_value. apply (A n v t2 b2 I). apply in_flat_map. exists (n2, t2, b2). split; [exact K|]. cbn [fst snd]. rewrite (proj2 (streqb_eq n $n2) Q). now left.
    + intros n t I. specialize (R (n, t, true) I). cbn [fst snd negb orb] in R. now apply smem_iff in R.
Qed.

Definition keywords : list string := ["COD"; "CON"; "OBS"; "MEA"; "TEL"]%string.
Definition tag_of (w : str) : str :=
  if called w "COD" then $"observatory" else if called w "CON" then $"submitter" else if called w "OBS" then $"observers"
  else if called w "MEA" then $"measurers" else if called w "TEL" then $"telescope" else [].
Lemma called_eq w x : called w x = true <-> w = $x. Proof. apply streqb_eq. Qed.
Lemma heading_one h : match heading h with [] => tag_of (keyword h) = [] | [e] => xtag e = tag_of (keyword h) /\ xtag e <> [] | _ => False end.
Proof.
  unfold heading, tag_of. destruct (called _ _); [split; [reflexivity|discriminate]|]. destruct (called _ _); [split; [reflexivity|discriminate]|].
  destruct (called _ _); [split; [reflexivity|discriminate]|]. destruct (called _ _); [split; [reflexivity|discriminate]|]. destruct (called _ _); [split; [reflexivity|discriminate]|]. reflexivity.
Qed.
Ltac one := let X := fresh in intro X; repeat (destruct X as [X|X]; [injection X as <- <-|]); try destruct X.
Lemma heading_fine_iff h e : In e (heading h) -> (valid F S e <-> heading_fine F S h).
Proof.
  unfold heading, heading_fine. destruct (called (keyword h) "COD").
  { intros [<-|[]]. pose proof (leaves_fine "observatory" observatory_parts [($"mpcCode", value h)] (in_composed S _ _ B (or_introl eq_refl)) eq_refl eq_refl eq_refl eq_refl) as K.
    refine (iff_trans K _). split.
    - intro H. apply (H $"mpcCode" (value h) "StationType"%string true); left; reflexivity.
    - intros H n v t b I J. destruct I as [I|[]]. assert (n = $"mpcCode") as -> by exact (f_equal fst (eq_sym I)). assert (v = value h) as -> by exact (f_equal snd (eq_sym I)). destruct J as [J|[]]. now injection J as <- <-. }
  destruct (called (keyword h) "CON").
  { intros [<-|[]]. destruct (after_comma (value h)) as [i|].
    - pose proof (leaves_fine "submitter" submitter_parts [($"name", until_comma (value h)); ($"institution", i)] (in_composed S _ _ B (or_intror (or_introl eq_refl))) eq_refl eq_refl eq_refl eq_refl) as K.
      refine (iff_trans K _). split.
      + intro H. split; [apply (H $"name" (until_comma (value h)) "StringTypeW100"%string true); left; reflexivity|].
        intros i' E. injection E as <-. apply (H $"institution" i "StringTypeW100"%string false); [right; left; reflexivity|left; reflexivity].
      + intros [H1 H2] n v t b I J. destruct I as [I|[I|[]]].
        * assert (n = $"name") as -> by exact (f_equal fst (eq_sym I)). assert (v = until_comma (value h)) as -> by exact (f_equal snd (eq_sym I)). destruct J as [J|[]]. now injection J as <- <-.
        * assert (n = $"institution") as -> by exact (f_equal fst (eq_sym I)). assert (v = i) as -> by exact (f_equal snd (eq_sym I)). destruct J as [J|[]]. injection J as <- <-. now apply H2.
    - pose proof (leaves_fine "submitter" submitter_parts [($"name", until_comma (value h))] (in_composed S _ _ B (or_intror (or_introl eq_refl))) eq_refl eq_refl eq_refl eq_refl) as K.
      refine (iff_trans K _). split.
      + intro H. split; [apply (H $"name" (until_comma (value h)) "StringTypeW100"%string true); left; reflexivity|]. intros i E. discriminate E.
      + intros [H1 _] n v t b I J. destruct I as [I|[]]. assert (n = $"name") as -> by exact (f_equal fst (eq_sym I)). assert (v = until_comma (value h)) as -> by exact (f_equal snd (eq_sym I)). destruct J as [J|[]]. now injection J as <- <-. }
  destruct (called (keyword h) "OBS"). { intros [<-|[]]. cbn [orb]. apply (names_fine "observers"). left. reflexivity. }
  destruct (called (keyword h) "MEA"). { intros [<-|[]]. cbn [orb]. apply (names_fine "measurers"). right. left. reflexivity. }
  cbn [orb]. destruct (called (keyword h) "TEL"); [|intros []]. intros [<-|[]].
  pose proof (leaves_fine "telescope" telescope_parts [($"name", value h); ($"design", $"Unknown"); ($"aperture", $"9999"); ($"detector", $"Unknown")]
    (in_composed S _ _ B (or_intror (or_intror (or_introl eq_refl)))) eq_refl eq_refl eq_refl eq_refl) as K.
  refine (iff_trans K _). split.
  - intro H. split; [apply (H $"name" (value h) "StringTypeW100"%string false); left; reflexivity|]. split.
    + apply (H $"design" $"Unknown" "StringTypeW25"%string true); [right; left; reflexivity|left; reflexivity].
    + apply (H $"aperture" $"9999" "PosDecimalTypeW6"%string true); [right; right; left; reflexivity|left; reflexivity].
  - intros (H1 & H2 & H3) n v t b I J. destruct I as [I|[I|[I|[I|[]]]]].
    + assert (n = $"name") as -> by exact (f_equal fst (eq_sym I)). assert (v = value h) as -> by exact (f_equal snd (eq_sym I)). destruct J as [J|[]]. now injection J as <- <-.
    + assert (n = $"design") as -> by exact (f_equal fst (eq_sym I)). assert (v = $"Unknown") as -> by exact (f_equal snd (eq_sym I)). destruct J as [J|[]]. now injection J as <- <-.
    + assert (n = $"aperture") as -> by exact (f_equal fst (eq_sym I)). assert (v = $"9999") as -> by exact (f_equal snd (eq_sym I)). destruct J as [J|[]]. now injection J as <- <-.
    + assert (n = $"detector") as -> by exact (f_equal fst (eq_sym I)). assert (v = $"Unknown") as -> by exact (f_equal snd (eq_sym I)). destruct J as [J|[]]. now injection J as <- <-.
Qed.
End Head.
