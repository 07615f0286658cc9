(** Lemmas about XsdPattern: reading the schema's identifier types. *)
From Verif Require Import PyStrProofs SchemaProofs1 SchemaProofs2 SchemaProofs3.
From Verif Require Import XsdPattern XsdFiles IdSpec.
Local Open Scope nat_scope.

Lemma eqb_ascii (f g : ascii -> bool) : forallb (fun n => Bool.eqb (f (ascii_of_nat n)) (g (ascii_of_nat n))) (seq 0 256) = true -> forall c, f c = g c.
Proof.
  intros H c. rewrite forallb_forall in H. specialize (H (nat_of_ascii c)). rewrite ascii_nat_embedding in H. apply eqb_prop, H, in_seq.
  pose proof (nat_ascii_bounded c). lia.
Qed.
Lemma lang_rep_set neg rs mn mx s : lang (PRep (PSet neg rs) mn mx) s <->
  forallb (fun c => xorb neg (in_ranges rs c)) s = true /\ mn <= length s /\ match mx with Some k => length s <= k | None => True end.
Proof.
  cbn [lang]. split.
  - intros (l & -> & Hl & B1 & B2).
    assert (length (concat l) = length l /\ forallb (fun c => xorb neg (in_ranges rs c)) (concat l) = true) as [E1 E2].
    { clear B1 B2. induction Hl as [|x l (c & -> & Hc) Hl [IH1 IH2]]; [now split|]. cbn. rewrite Hc, IH1, IH2. now split. }
    rewrite E1, E2. auto.
  - intros (Hs & B1 & B2). exists (map (fun c => [c]) s). rewrite map_length. split.
    + clear. induction s; [reflexivity|]. cbn. congruence.
    + split; [|now split]. apply Forall_map, Forall_forall. intros c Hc. rewrite forallb_forall in Hs. eauto.
Qed.
Lemma lang_opt p s : lang (PRep p 0 (Some 1)) s <-> s = [] \/ lang p s.
Proof.
  cbn [lang]. split.
  - intros (l & -> & Hl & _ & B). destruct l as [|x [|y l]]; cbn in B; [now left| |lia]. right. inversion Hl. cbn. now rewrite app_nil_r.
  - intros [->|H]; [exists []|exists [s]]; cbn; rewrite ?app_nil_r; auto.
Qed.
Lemma lang_seq p q s : lang (PSeq p q) s <-> exists x y, s = x ++ y /\ lang p x /\ lang q y.
Proof. reflexivity. Qed.
Lemma lang_end p s : lang (PSeq p PEps) s <-> lang p s.
Proof.
  rewrite lang_seq. cbn [lang]. split.
  - intros (x & y & -> & H & ->). now rewrite app_nil_r.
  - intro H. exists s, []. now rewrite app_nil_r.
Qed.
Lemma in_one c d : xorb false (in_ranges [(c, c)] d) = true <-> d = c.
Proof.
  unfold in_ranges. cbn [existsb fst snd]. rewrite orb_false_r, xorb_false_l, andb_true_iff, !N.leb_le. unfold code. split; [|intros ->; split; apply N.le_refl].
  intros [A B]. rewrite <- (ascii_N_embedding d), <- (ascii_N_embedding c). f_equal. now apply N.le_antisymm.
Qed.
Lemma lang_char c q s : lang (PSeq (PSet false [(c, c)]) q) s <-> exists t, s = c :: t /\ lang q t.
Proof.
  rewrite lang_seq. split.
  - intros (x & y & -> & (d & -> & H) & Hq). exists y. apply in_one in H. subst d. now split.
  - intros (t & -> & H). exists [c], t. split; [reflexivity|]. split; [|exact H]. exists c. split; [reflexivity|]. now apply in_one.
Qed.

(** types derived from xsd:string by restrictions only *)
Fixpoint chain (T : xml) (n : nat) (t : str) : option (list facets) :=
  if streqb t $"xsd:string" then (if component T $"xsd:simpleType" t then None else Some [])
  else match n with
  | O => None
  | S n' => if builtin t then None else
      match component T $"xsd:simpleType" t with
      | Some st => match xkids st with
          | [r] => if has_tag $"xsd:restriction" r then
                     match chain T n' (attr_text $"base" r) with Some l => Some (facets_of r :: l) | None => None end
                   else None
          | _ => None end
      | None => None end
  end.
Lemma chain_derives T n : forall t l, chain T n t = Some l -> forall d, derives T t d <-> d = ($"xsd:string", l).
Proof.
  induction n as [|n IH]; intros t l H d; cbn [chain] in H.
  - destruct (streqb t $"xsd:string") eqn:E; [|discriminate H]. apply streqb_eq in E. subst t.
    destruct (component T _ _) eqn:C; [discriminate H|]. injection H as <-. split.
    + intro D. apply derives_inv in D as [(_ & ->)|(st & r & b & d' & Co & _)]; [reflexivity|rewrite C in Co; discriminate Co].
    + intros ->. apply der_builtin. reflexivity.
  - destruct (streqb t $"xsd:string") eqn:E.
    + apply streqb_eq in E. subst t.
      destruct (component T _ _) eqn:C; [discriminate H|]. injection H as <-. split.
      * intro D. apply derives_inv in D as [(_ & ->)|(st & r & b & d' & Co & _)]; [reflexivity|rewrite C in Co; discriminate Co].
      * intros ->. apply der_builtin. reflexivity.
    + destruct (builtin t) eqn:B; [discriminate H|]. destruct (component T _ t) as [st|] eqn:C; [|discriminate H].
      destruct (xkids st) as [|r [|]] eqn:K; try discriminate H. destruct (has_tag _ r) eqn:R; [|discriminate H].
      destruct (chain T n (attr_text $"base" r)) as [l'|] eqn:Ch; [|discriminate H]. injection H as <-.
      apply streqb_eq in R. split.
      * intro D. apply derives_inv in D as [(B' & _)|(st' & r' & b & d' & Co & I & _ & D & ->)]; [rewrite B in B'; discriminate B'|].
        rewrite C in Co. injection Co as <-. rewrite K in I. destruct I as [<-|[]]. apply (IH _ _ Ch) in D. injection D as -> ->. reflexivity.
      * intros ->. eapply der_restriction; [exact C|rewrite K; left; reflexivity|exact R|]. now apply (IH _ _ Ch).
Qed.
Lemma chain_simple F T n t l s : chain T n t = Some l -> (simple F T t s <-> F ($"xsd:string", l) s).
Proof.
  intro H. split.
  - intro S. apply simple_inv in S as [(d & D & S)|(st & u & m & Co & I & U & _)].
    + apply (chain_derives _ _ _ _ H) in D. now rewrite <- D.
    + exfalso. destruct n; cbn [chain] in H; (destruct (streqb t $"xsd:string") eqn:E; [apply streqb_eq in E; subst t; rewrite Co in H; discriminate H|]);
        [discriminate H|]. destruct (builtin t); [discriminate H|]. rewrite Co in H. destruct (xkids st) as [|r [|]] eqn:K; try discriminate H.
      destruct (has_tag _ r) eqn:R; [|discriminate H]. apply streqb_eq in R. destruct I as [<-|[]]. rewrite R in U. discriminate U.
  - intro S. eapply simple_derived; [|exact S]. now apply (chain_derives _ _ _ _ H).
Qed.
(** unions *)
Lemma union_simple F T t u ms s : builtin t = false -> option_map xkids (component T $"xsd:simpleType" t) = Some [u] -> has_tag $"xsd:union" u = true ->
  split_ws (attr_text $"memberTypes" u) = ms -> (simple F T t s <-> exists m, In m ms /\ simple F T m s).
Proof.
  intros B C U E. destruct (component T $"xsd:simpleType" t) as [st|] eqn:Co; [|discriminate C]. injection C as C. apply streqb_eq in U. split.
  - intro S. apply simple_inv in S as [(d & D & S)|(st' & u' & m & Co' & I & _ & Im & S)].
    + apply derives_inv in D as [(B' & _)|(st' & r & b & d' & Co' & I & R & _)]; [rewrite B in B'; discriminate B'|].
      rewrite Co in Co'. injection Co' as <-. rewrite C in I. destruct I as [<-|[]]. rewrite U in R. discriminate R.
    + rewrite Co in Co'. injection Co' as <-. rewrite C in I. destruct I as [<-|[]]. rewrite E in Im. eauto.
  - intros (m & I & S). eapply simple_union; [exact Co|rewrite C; left; reflexivity|exact U| |exact S]. now rewrite E.
Qed.

Definition string_pattern : str := $"[^|]*[^|\s][^|]*".
Definition perm_pattern : str := $"\d+([IPD](-[A-Z]{1,2})?)?|((Mars|Jupiter|Saturn|Uranus|Neptune) \d{1,3}|\(\d+\) \d{1,3})".
Definition prov_pattern : str := $"\d{4} [A-HJ-Y][A-HJ-Z]\d*|\d{4} (P-L|T-[123])|[ADCPX]/\d{4} [A-Z]{1,2}\d*(-[A-Z])?|S/\d{4} ((M|J|S|U|N)|\((\d+|\d{4} [A-HJ-Y][A-HJ-Z]?\d+)\)) \d+".
Definition old_prov_pattern : str := $"A[89]\d{2} [A-HJ-Y][A-HJ-Z]".
Definition trk_pattern : str := $"[-A-Za-z0-9_]*".
Definition old_trk_pattern : str := $"[- ?+@.()/\\A-Za-z0-9_]*".

Lemma one_pattern p s : step_allows s [($"xsd:pattern", p)] <-> matches p s.
Proof.
  split.
  - intros (H & _). destruct H as (q & [E|[]] & M); [exists p; now left|]. injection E as ->. exact M.
  - intro M. split; [intros _; exists p; split; [now left|exact M]|]. split; [intros (v & [E|[]]); discriminate E|].
    split; intros v [E|[]]; discriminate E.
Qed.
Lemma one_length v s : step_allows s [($"xsd:maxLength", v)] <-> length s <= value v.
Proof.
  split.
  - intros (_ & _ & _ & H). apply H. now left.
  - intro M. split; [intros (p & [E|[]]); discriminate E|]. split; [intros (p & [E|[]]); discriminate E|].
    split; intros w [E|[]]; [discriminate E|]. injection E as ->. exact M.
Qed.
Lemma pattern_length p v s : step_allows s [($"xsd:pattern", p); ($"xsd:maxLength", v)] <-> matches p s /\ length s <= value v.
Proof.
  split.
  - intros (H & _ & _ & L). split; [|apply L; right; now left]. destruct H as (q & [E|[E|[]]] & M); [exists p; now left| |discriminate E]. injection E as ->. exact M.
  - intros [M L]. split; [intros _; exists p; split; [now left|exact M]|]. split; [intros (w & [E|[E|[]]]); discriminate E|].
    split; intros w [E|[E|[]]]; try discriminate E. injection E as ->. exact L.
Qed.
Lemma forall_3 {A} (P : A -> Prop) a b c : Forall P [a; b; c] <-> P a /\ P b /\ P c.
Proof. rewrite !Forall_cons_iff. intuition. Qed.
Lemma forall_2 {A} (P : A -> Prop) a b : Forall P [a; b] <-> P a /\ P b.
Proof. rewrite !Forall_cons_iff. intuition. Qed.

Definition is_type3 (T : xml) (t p v : str) : Prop :=
  chain T 5 t = Some [[($"xsd:pattern", p)]; [($"xsd:maxLength", v)]; [($"xsd:pattern", string_pattern)]].
Definition is_type2 (T : xml) (t p v : str) : Prop :=
  chain T 5 t = Some [[($"xsd:pattern", p); ($"xsd:maxLength", v)]; [($"xsd:pattern", string_pattern)]].
Lemma type3 F T t p v s : reads_texts F -> is_type3 T t p v ->
  (simple F T t s <-> matches p s /\ length s <= value v /\ matches string_pattern s).
Proof.
  intros R H. rewrite (chain_simple F T 5 t _ s H), (R _ s), forall_3, !one_pattern, one_length. reflexivity.
Qed.
Lemma type2 F T t p v s : reads_texts F -> is_type2 T t p v ->
  (simple F T t s <-> (matches p s /\ length s <= value v) /\ matches string_pattern s).
Proof.
  intros R H. rewrite (chain_simple F T 5 t _ s H), (R _ s), forall_2, !one_pattern, pattern_length. reflexivity.
Qed.
Lemma perm_general : is_type3 general_xsd $"PermIDType" perm_pattern $"25". Proof. vm_compute. reflexivity. Qed.
Lemma perm_submit : is_type3 submit_xsd $"PermIDType" perm_pattern $"25". Proof. vm_compute. reflexivity. Qed.
Lemma base_general : is_type3 general_xsd $"BaseProvIDType" prov_pattern $"25". Proof. vm_compute. reflexivity. Qed.
Lemma base_submit : is_type3 submit_xsd $"BaseProvIDType" prov_pattern $"25". Proof. vm_compute. reflexivity. Qed.
Lemma old_general : is_type3 general_xsd $"OldProvIDType" old_prov_pattern $"25". Proof. vm_compute. reflexivity. Qed.
Lemma trk_general : is_type2 general_xsd $"BaseTrkSubType" trk_pattern $"8". Proof. vm_compute. reflexivity. Qed.
Lemma trk_submit : is_type2 submit_xsd $"BaseTrkSubType" trk_pattern $"8". Proof. vm_compute. reflexivity. Qed.
Lemma oldtrk_general : is_type2 general_xsd $"OldTrkSubType" old_trk_pattern $"8". Proof. vm_compute. reflexivity. Qed.
Lemma matches_lang p a s : pattern p = Some a -> (matches p s <-> lang a s).
Proof.
  intro E. split; [intros (b & E' & H); rewrite E in E'; now injection E' as <-|intro H; exists a; now split].
Qed.

Definition plain_char (c : ascii) : bool := negb (ceqb c "|").
Definition solid_char (c : ascii) : bool := plain_char c && negb (ceqb c " " || ceqb c tab || ceqb c nl || ceqb c cr).
Definition pat_of (p : str) : pat := match pattern p with Some a => a | None => PEps end.
Definition string_pat : pat := Eval vm_compute in pat_of string_pattern.
Lemma string_read : pattern string_pattern = Some string_pat. Proof. vm_compute. reflexivity. Qed.
Lemma string_lang s : matches string_pattern s <-> forallb plain_char s = true /\ existsb solid_char s = true.
Proof.
  rewrite (matches_lang string_pattern string_pat s string_read). unfold string_pat.
  assert (forall w, forallb (fun c => xorb true (in_ranges [("|", "|")]%char c)) w = forallb plain_char w) as K.
  { intro w. induction w as [|d w IH]; [reflexivity|]. cbn [forallb]. rewrite IH. f_equal. revert d. clear. apply eqb_ascii. vm_compute. reflexivity. }
  rewrite lang_seq. split.
  - intros (x & y & -> & H1 & H2). apply lang_seq in H2 as (a & b & -> & (c & -> & Hc) & Hb). apply (proj1 (lang_end _ _)) in Hb.
    apply lang_rep_set in H1 as [H1 _]. apply lang_rep_set in Hb as [Hb _]. rewrite K in H1, Hb.
    assert (solid_char c = true) as Hs.
    { rewrite <- Hc. revert c Hc. clear. intros c _. revert c. apply eqb_ascii. vm_compute. reflexivity. }
    rewrite !forallb_app, !existsb_app, H1, Hb. cbn [forallb existsb]. rewrite Hs. assert (plain_char c = true) as -> by (apply andb_prop in Hs; apply Hs).
    split; [reflexivity|]. now rewrite orb_true_r.
  - intros [P Q]. apply existsb_exists in Q as (c & I & Hc). apply in_split in I as (x & y & ->). rewrite forallb_app in P. apply andb_prop in P as [P1 P2].
    cbn [forallb] in P2. apply andb_prop in P2 as [_ P2]. exists x, (c :: y). split; [reflexivity|]. split; [apply lang_rep_set; rewrite K; repeat split; [assumption|lia]|].
    apply lang_seq. exists [c], y. split; [reflexivity|]. split; [|apply (proj2 (lang_end _ _)), lang_rep_set; rewrite K; repeat split; [assumption|lia]].
    exists c. split; [reflexivity|]. rewrite <- Hc. revert c Hc P1 P2. clear. intros c _ _ _. revert c. apply eqb_ascii. vm_compute. reflexivity.
Qed.
