(** Lemmas about ValueSpec, part 1: types derived by restrictions from any built-in type. *)
From Verif Require Import PyStrProofs SchemaProofs1 SchemaProofs2 SchemaProofs3.
From Verif Require Import XsdPattern XsdFiles IdSpec IdProofs3 IdProofs4 IdProofs5 ValueSpec.
Local Open Scope nat_scope.

(** types derived from the built-in type b by restrictions only *)
Fixpoint chain_of (T : xml) (b : str) (n : nat) (t : str) : option (list facets) :=
  if streqb t b then (if component T $"xsd:simpleType" t then None else Some [])
  else match n with
  | O => None
  | S n' => if builtin t then None else
      match component T $"xsd:simpleType" t with
      | Some st => match xkids st with
          | [r] => if has_tag $"xsd:restriction" r then
                     match chain_of T b n' (attr_text $"base" r) with Some l => Some (facets_of r :: l) | None => None end
                   else None
          | _ => None end
      | None => None end
  end.
Lemma chain_of_derives T b n : builtin b = true -> forall t l, chain_of T b n t = Some l -> forall d, derives T t d <-> d = (b, l).
Proof.
  intro Bb. induction n as [|n IH]; intros t l H d; cbn [chain_of] in H.
  - destruct (streqb t b) eqn:E; [|discriminate H]. apply streqb_eq in E. subst t.
    destruct (component T _ _) eqn:C; [discriminate H|]. injection H as <-. split.
    + intro D. apply derives_inv in D as [(_ & ->)|(st & r & b' & d' & Co & _)]; [reflexivity|rewrite C in Co; discriminate Co].
    + intros ->. apply der_builtin. exact Bb.
  - destruct (streqb t b) eqn:E.
    + apply streqb_eq in E. subst t.
      destruct (component T _ _) eqn:C; [discriminate H|]. injection H as <-. split.
      * intro D. apply derives_inv in D as [(_ & ->)|(st & r & b' & d' & Co & _)]; [reflexivity|rewrite C in Co; discriminate Co].
      * intros ->. apply der_builtin. exact Bb.
    + destruct (builtin t) eqn:B; [discriminate H|]. destruct (component T _ t) as [st|] eqn:C; [|discriminate H].
      destruct (xkids st) as [|r [|]] eqn:K; try discriminate H. destruct (has_tag _ r) eqn:R; [|discriminate H].
      destruct (chain_of T b n (attr_text $"base" r)) as [l'|] eqn:Ch; [|discriminate H]. injection H as <-.
      apply streqb_eq in R. split.
      * intro D. apply derives_inv in D as [(B' & _)|(st' & r' & b' & d' & Co & I & _ & D & ->)]; [rewrite B in B'; discriminate B'|].
        rewrite C in Co. injection Co as <-. rewrite K in I. destruct I as [<-|[]]. apply (IH _ _ Ch) in D. injection D as -> ->. reflexivity.
      * intros ->. eapply der_restriction; [exact C|rewrite K; left; reflexivity|exact R|]. now apply (IH _ _ Ch).
Qed.
Lemma chain_of_simple F T b n t l s : builtin b = true -> chain_of T b n t = Some l -> (simple F T t s <-> F (b, l) s).
Proof.
  intros Bb H. split.
  - intro S. apply simple_inv in S as [(d & D & S)|(st & u & m & Co & I & U & _)].
    + apply (chain_of_derives _ _ _ Bb _ _ H) in D. now rewrite <- D.
    + exfalso. destruct n; cbn [chain_of] in H; (destruct (streqb t b) eqn:E; [apply streqb_eq in E; subst t; rewrite Co in H; discriminate H|]);
        [discriminate H|]. destruct (builtin t); [discriminate H|]. rewrite Co in H. destruct (xkids st) as [|r [|]] eqn:K; try discriminate H.
      destruct (has_tag _ r) eqn:R; [|discriminate H]. apply streqb_eq in R. destruct I as [<-|[]]. rewrite R in U. discriminate U.
  - intro S. eapply simple_derived; [|exact S]. now apply (chain_of_derives _ _ _ Bb _ _ H).
Qed.

(** ** Character classes *)
Lemma r_an s : forallb (fun c => xorb false (in_ranges [("A", "Z"); ("a", "z"); ("0", "9"); ("_", "_")]%char c)) s = forallb alnum_ s.
Proof. apply forallb_eq. apply eqb_ascii. vm_compute. reflexivity. Qed.
Lemma an_solid : forall c, alnum_ c = true -> solid_char c = true. Proof. apply imp_ascii. vm_compute. reflexivity. Qed.
Definition an_pattern : str := $"[A-Za-z0-9_]*".
Lemma an_read : pattern an_pattern = Some (PSeq (PRep (PSet false [("A", "Z"); ("a", "z"); ("0", "9"); ("_", "_")]%char) 0 None) PEps).
Proof. vm_compute. reflexivity. Qed.
Lemma an_lang s : matches an_pattern s <-> forallb alnum_ s = true.
Proof.
  rewrite (matches_lang _ _ s an_read), lang_end, lang_rep_set, r_an. split; [intros [H _]; exact H|]. intro H. split; [exact H|split; [lia|exact I]].
Qed.
Lemma an_textual s : s <> [] -> forallb alnum_ s = true -> matches string_pattern s.
Proof.
  intros N H. apply string_lang. split; [revert H; apply forallb_imp; intros c Hc; now apply solid_plain, an_solid|].
  destruct s as [|c s]; [now elim N|]. cbn [forallb] in H. apply andb_prop in H as [H _]. cbn [existsb]. now rewrite (an_solid c H).
Qed.
Lemma textual_ne s : matches string_pattern s -> s <> [].
Proof. intros H E. apply (proj1 (string_lang s)) in H as [_ H]. rewrite E in H. discriminate H. Qed.

Section Texts.
Variable F : derivation -> str -> Prop.
Hypothesis R : reads_texts F.
Notation G := general_xsd.
Lemma an_type t v s : chain G 6 $t = Some [[($"xsd:maxLength", $v)]; [($"xsd:pattern", an_pattern)]; [($"xsd:pattern", string_pattern)]] ->
  (simple F G $t s <-> s <> [] /\ length s <= value $v /\ forallb alnum_ s = true).
Proof.
  intro H. rewrite (chain_simple F G 6 $t _ s H), (R _ s), forall_3, !one_pattern, one_length, an_lang. split.
  - intros (A & B & C). split; [now apply textual_ne|]. now split.
  - intros (A & B & C). split; [exact B|]. split; [exact C|]. now apply an_textual.
Qed.
Lemma mode_type s : simple F G $"ModeType" s <-> s <> [] /\ length s <= 3 /\ forallb alnum_ s = true.
Proof. apply (an_type "ModeType" "3"). vm_compute. reflexivity. Qed.
Lemma band_type s : simple F G $"BandType" s <-> s <> [] /\ length s <= 3 /\ forallb alnum_ s = true.
Proof. apply (an_type "BandType" "3"). vm_compute. reflexivity. Qed.
Lemma notes_type s : simple F G $"NotesType" s <-> s <> [] /\ length s <= 6 /\ forallb alnum_ s = true.
Proof. apply (an_type "NotesType" "6"). vm_compute. reflexivity. Qed.
Lemma prog_type s : simple F G $"ProgType" s <-> s <> [] /\ length s <= 2 /\ forallb alnum_ s = true.
Proof. apply (an_type "ProgType" "2"). vm_compute. reflexivity. Qed.
Lemma fmt_type s : simple F G $"SubFmtType" s <-> s <> [] /\ length s <= 4 /\ forallb alnum_ s = true.
Proof. apply (an_type "SubFmtType" "4"). vm_compute. reflexivity. Qed.
Lemma length2 v w s : step_allows s [($"xsd:minLength", v); ($"xsd:maxLength", w)] <-> value v <= length s <= value w.
Proof.
  split.
  - intros (_ & _ & H1 & H2). split; [apply H1; now left|apply H2; right; now left].
  - intros [A B]. split; [intros (p & [E|[E|[]]]); discriminate E|]. split; [intros (p & [E|[E|[]]]); discriminate E|].
    split; intros x [E|[E|[]]]; try discriminate E; injection E as ->; assumption.
Qed.
Lemma stn_type s : simple F G $"StationType" s <-> 3 <= length s <= 4 /\ forallb alnum_ s = true.
Proof.
  rewrite (chain_simple F G 6 $"StationType" [[($"xsd:minLength", $"3"); ($"xsd:maxLength", $"4")]; [($"xsd:pattern", an_pattern)]; [($"xsd:pattern", string_pattern)]] s ltac:(vm_compute; reflexivity)).
  rewrite (R _ s), forall_3, !one_pattern, length2, an_lang. change (value $"3") with 3. change (value $"4") with 4. split.
  - intros (A & B & C). now split.
  - intros (A & B). split; [exact A|]. split; [exact B|]. apply an_textual; [|exact B]. intros ->. cbn in A. lia.
Qed.
Lemma ref_type s : simple F G $"RefType" s <-> length s <= 16 /\ textual s.
Proof.
  rewrite (chain_simple F G 6 $"RefType" [[($"xsd:maxLength", $"16")]; [($"xsd:pattern", string_pattern)]] s ltac:(vm_compute; reflexivity)).
  rewrite (R _ s), forall_2, one_pattern, one_length, string_lang. reflexivity.
Qed.
Lemma r_cat s : forallb (fun c => xorb false (in_ranges [(".", "."); ("A", "Z"); ("a", "z"); ("0", "9"); ("_", "_")]%char c)) s = forallb (fun c => alnum_ c || ceqb c ".") s.
Proof. apply forallb_eq. apply eqb_ascii. vm_compute. reflexivity. Qed.
Definition cat_pattern : str := $"[.A-Za-z0-9_]*".
Lemma cat_read : pattern cat_pattern = Some (PSeq (PRep (PSet false [(".", "."); ("A", "Z"); ("a", "z"); ("0", "9"); ("_", "_")]%char) 0 None) PEps).
Proof. vm_compute. reflexivity. Qed.
Lemma cat_type s : simple F G $"CatType" s <-> (forallb (fun c => alnum_ c || ceqb c ".") s = true /\ length s <= 8) /\ textual s.
Proof.
  rewrite (type2 F G $"CatType" cat_pattern $"8" s R ltac:(vm_compute; reflexivity)), (matches_lang _ _ s cat_read), lang_end, lang_rep_set, r_cat, string_lang.
  change (value $"8") with 8. split.
  - intros (((A & _) & B) & C). auto.
  - intros ((A & B) & C). repeat split; auto; try apply C. lia.
Qed.
Lemma enum_type t l s : chain G 6 $t = Some [map (fun v => ($"xsd:enumeration", v)) l] -> l <> [] -> (simple F G $t s <-> In s l).
Proof.
  intros H N. rewrite (chain_simple F G 6 $t _ s H), (R _ s). split.
  - intro A. destruct (Forall_inv A) as (_ & B & _). destruct l as [|x l]; [now elim N|].
    assert (In ($"xsd:enumeration", s) (map (fun v => ($"xsd:enumeration", v)) (x :: l))) as I by (apply B; exists x; now left).
    apply in_map_iff in I as (y & E & I). injection E as ->. exact I.
  - intro I. constructor; [|constructor]. split; [intros (p & J); apply in_map_iff in J as (y & E & _); discriminate (f_equal fst E)|].
    split; [intros _; apply in_map_iff; exists s; split; [reflexivity|exact I]|].
    split; intros v J; apply in_map_iff in J as (y & E & _); discriminate (f_equal fst E).
Qed.
Lemma disc_type s : simple F G $"DiscType" s <-> In s [$"*"; $"+"].
Proof. apply (enum_type "DiscType"); [vm_compute; reflexivity|discriminate]. Qed.
Lemma deprecated_type s : simple F G $"DeprecatedType" s <-> In s [$"X"].
Proof. apply (enum_type "DeprecatedType"); [vm_compute; reflexivity|discriminate]. Qed.
Lemma frame_type : simple F G $"SubFrmType" $"B1950.0".
Proof.
  assert (matches $"([BJ]\d{4}.0)|APP\." $"B1950.0") as M.
  { eexists. split; [vm_compute; reflexivity|]. left. exists $"B1950.0", []. split; [reflexivity|]. split; [|reflexivity].
    exists $"B", $"1950.0". split; [reflexivity|]. split; [exists "B"%char; split; reflexivity|].
    exists $"1950", $".0". split; [reflexivity|]. split; [apply lang_rep_set; vm_compute; repeat split; lia|].
    exists $".", $"0". split; [reflexivity|]. split; [exists "."%char; split; reflexivity|]. exists $"0", []. split; [reflexivity|].
    split; [exists "0"%char; split; reflexivity|reflexivity]. }
  apply (chain_simple F G 6 $"SubFrmType" [[($"xsd:pattern", $"([BJ]\d{4}.0)|APP\.")]; [($"xsd:pattern", string_pattern)]] _ ltac:(vm_compute; reflexivity)).
  apply (R _ _), forall_2. rewrite !one_pattern. split; [exact M|]. apply string_lang. split; reflexivity.
Qed.
End Texts.
