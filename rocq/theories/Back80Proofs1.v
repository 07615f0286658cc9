(** Lemmas about Back80Spec, part 1: the designation. *)
From Verif Require Import PackUtil PackProofs12 PackProofs7 PackProofs3 PyReProofs.
From Verif Require Import IdSpec IdProofs1 IdProofs2.
Local Open Scope nat_scope.

(** * No newline comes out of unpacking *)
Definition nonl (s : str) : Prop := ~ In nl s.
Definition nonl_o (o : option str) : Prop := match o with Some s => nonl s | None => True end.
Lemma nonl_app a b : nonl a -> nonl b -> nonl (a ++ b).
Proof. unfold nonl. rewrite in_app_iff. tauto. Qed.
Lemma nonl_cons c a : c <> nl -> nonl a -> nonl (c :: a).
Proof. unfold nonl. cbn [In]. intros H K [E|E]; auto. Qed.
Lemma reprel_incl k mn mx s s' : RepRel k mn mx s s' -> nonl s -> nonl s'.
Proof. induction 1; auto. intro N. apply IHRepRel. intro Q. apply N. now right. Qed.
Lemma mat_nonl r s c s' c' : Mat r s c s' c' -> nonl s -> (forall i, nonl_o (grp c i)) -> nonl s' /\ forall i, nonl_o (grp c' i).
Proof.
  induction 1; intros N C; auto.
  - split; auto. intro Q. apply N. now right.
  - destruct (IHMat1 N C) as [A B]. exact (IHMat2 A B).
  - split; auto. eapply reprel_incl; eauto.
  - destruct (IHMat N C) as [A B]. split; auto. intro j. cbn [grp]. destruct (Nat.eqb j i); [|apply B].
    intro Q. apply N. rewrite <- (firstn_skipn (length s - length s') s). apply in_or_app. now left.
Qed.
Lemma match_nonl r s g : re_match r s = Some g -> nonl s -> forall i, nonl_o (grp g i).
Proof. intros H N. apply re_match_mat in H as [s' H]. apply (mat_nonl _ _ _ _ _ H N). intro i. exact I. Qed.
Lemma gstr_nonl r s g i w : re_match r s = Some g -> nonl s -> gstr g i = Ok w -> nonl w.
Proof. intros H N E. pose proof (match_nonl r s g H N i) as K. unfold gstr in E. destruct (grp g i); [|discriminate E]. injection E as <-. exact K. Qed.
Lemma chars_nonl (f : ascii -> bool) w : f nl = false -> forallb f w = true -> nonl w.
Proof. intros H F Q. rewrite forallb_forall in F. rewrite (F _ Q) in H. discriminate H. Qed.
Definition numchar (c : ascii) : bool := isdig c || ceqb c "-".

Lemma dec_nonl n : nonl (dec n).
Proof.
  unfold dec. destruct (Z.ltb_spec n 0).
  - apply nonl_cons; [discriminate|]. apply (chars_nonl isdig); [reflexivity|]. apply decn_spec. lia.
  - apply (chars_nonl isdig); [reflexivity|]. apply decn_spec. lia.
Qed.
Lemma nstr_nonl n : nonl (nstr n).
Proof. unfold nstr. destruct (n =? 0)%Z; [intros []|apply dec_nonl]. Qed.
Lemma strip_nonl s : nonl s -> nonl (strip s).
Proof. intros N Q. destruct (strip_decomp s) as (a & b & E & _). apply N. rewrite E. apply in_or_app. right. apply in_or_app. now left. Qed.
Lemma upper_nonl s : nonl s -> nonl (upper s).
Proof.
  intros N Q. unfold upper in Q. apply in_map_iff in Q as (c & E & I).
  assert (forall c, implb (ceqb (upperc c) nl) (ceqb c nl) = true) as K by (apply forall_ascii; vm_compute; reflexivity).
  specialize (K c). rewrite E, ceqb_refl in K. cbn [implb] in K. apply ceqb_eq in K. subst c. exact (N I).
Qed.
Lemma lit_nonl s : existsb (ceqb nl) s = false -> nonl s.
Proof. intros H Q. assert (existsb (ceqb nl) s = true) as E by (apply existsb_exists; exists nl; split; [exact Q|apply ceqb_refl]). congruence. Qed.
Lemma index_nonl s i c : nonl s -> pyindex s i = Ok c -> c <> nl.
Proof.
  intros N H ->. apply N. unfold pyindex in H.
  repeat match type of H with context [if ?b then _ else _] => destruct b end; try discriminate H;
  match type of H with context [nth_error ?a ?b] => destruct (nth_error a b) eqn:E; [|discriminate H]; injection H as ->; apply nth_error_In in E; exact E | _ => idtac end.
Qed.

Definition gives {A} (P : A -> Prop) (r : res A) : Prop := match r with Ok x => P x | Err _ => True end.
Lemma gives_bind {A B} (Q : A -> Prop) (P : B -> Prop) r f : gives Q r -> (forall x, Q x -> gives P (f x)) -> gives P (rbind r f).
Proof. destruct r; cbn; auto. Qed.
Lemma gives_any {A B} (P : B -> Prop) (r : res A) f : (forall x, gives P (f x)) -> gives P (rbind r f).
Proof. destruct r; cbn; auto. Qed.
Lemma gives_if {A} (P : A -> Prop) (b : bool) x y : gives P x -> gives P y -> gives P (if b then x else y).
Proof. now destruct b. Qed.
Lemma gives_gstr r s g i : re_match r s = Some g -> nonl s -> gives nonl (gstr g i).
Proof. intros H N. destruct (gstr g i) eqn:E; cbn; auto. eapply gstr_nonl; eauto. Qed.
Lemma gives_chat s i : nonl s -> gives (fun c => c <> nl) (chat s i).
Proof. intro N. unfold chat. destruct (nth_error s i) eqn:E; cbn; auto. intros ->. apply N. eapply nth_error_In; eauto. Qed.
Lemma gives_ol i : gives (fun c => c <> nl) (pyindex order_letters i).
Proof. destruct (pyindex order_letters i) eqn:E; cbn; auto. eapply index_nonl; [|exact E]. apply lit_nonl. reflexivity. Qed.
Lemma gives_planet c : gives nonl (planetName c).
Proof. unfold planetName. repeat apply gives_if; cbn; auto; apply lit_nonl; reflexivity. Qed.
Ltac texts_nonl := repeat first [apply nonl_app | apply dec_nonl | apply nstr_nonl | apply upper_nonl | apply strip_nonl | assumption
  | apply nonl_cons; [assumption|] | (apply lit_nonl; reflexivity)].
Ltac out R N :=
  repeat match goal with
  | |- gives _ (rbind (gint _ _) _) => apply gives_any; intro
  | |- gives _ (rbind (gletter _ _) _) => apply gives_any; intro
  | |- gives _ (rbind (unRadix62_4 _) _) => apply gives_any; intro
  | |- gives _ (rbind (gstr _ _) _) => eapply gives_bind; [apply (gives_gstr _ _ _ _ R N)|intros]
  | |- gives _ (rbind (chat _ _) _) => eapply gives_bind; [apply gives_chat; assumption|intros]
  | |- gives _ (rbind (pyindex order_letters _) _) => eapply gives_bind; [apply gives_ol|intros]
  | |- gives _ (if _ then _ else _) => apply gives_if
  | |- gives _ (Err _) => exact I
  | |- gives nonl_o (Ok (Some _)) => cbn [gives nonl_o]; texts_nonl
  | |- gives nonl_o (Ok None) => exact I
  | |- gives nonl (Ok _) => cbn [gives]; texts_nonl
  end.
Definition nonl3 (t : triple) : Prop := let '(a, b, c) := t in nonl_o a /\ nonl_o b /\ nonl_o c.
Lemma minor_nonl p : nonl p -> gives nonl3 (unpack_minor p).
Proof.
  intro N. unfold unpack_minor. destruct (re_match minorplanetPackedIDRegex p) as [g|] eqn:R; [|cbn; auto]. cbv zeta.
  apply (gives_bind nonl_o).
  { apply gives_if; [|exact I]. apply (gives_bind (fun _ => True)); [now destruct (if gtrue g 1 then _ else _)|intros n _]. out R N. }
  intros perm HP. apply (gives_bind nonl_o).
  { apply gives_if; [|apply gives_if]; out R N. }
  intros prov HQ. apply (gives_bind nonl_o).
  { apply gives_if; [out R N|exact HQ]. }
  intros prov' HQ'. cbn [gives nonl3]. split; [exact HP|]. split; [exact HQ'|].
  pose proof (match_nonl _ _ _ R N 12) as T. destruct (negb (otrue perm) && otrue (grp g 12)); [|exact T].
  destruct (grp g 12); cbn [option_map]; [|exact I]. apply strip_nonl, T.
Qed.
Lemma comet_nonl p st : nonl p -> nonl3 st -> gives nonl3 (unpack_comet p st).
Proof.
  intros N H. unfold unpack_comet. destruct (re_match cometPackedIDRegex p) as [g|] eqn:R; [|exact H].
  destruct st as [[a b] c]. destruct H as (HA & HB & HC). apply (gives_bind nonl_o).
  { apply gives_if; [|exact HA]. apply gives_any; intro n. apply gives_if; [exact I|].
    eapply gives_bind; [apply (gives_gstr _ _ _ _ R N)|intros ty HT]. apply gives_if; [exact I|]. cbv zeta.
    apply (gives_bind nonl). { out R N. } intros x HX. apply (gives_bind nonl). { out R N. } intros y HY. exact HY. }
  intros perm HP. apply (gives_bind nonl_o).
  { apply gives_if; [|exact HB]. do 2 (apply gives_any; intro). cbv zeta. do 2 (apply gives_any; intro). 
    pose proof (match_nonl _ _ _ R N 8) as T8. pose proof (match_nonl _ _ _ R N 9) as T9.
    eapply gives_bind; [apply (gives_gstr _ _ _ _ R N)|intros ty HT]. eapply gives_bind; [apply (gives_gstr _ _ _ _ R N)|intros hm HH].
    cbn [gives nonl_o]. texts_nonl.
    - destruct (grp g 8); [exact T8|intros []].
    - destruct (gtrue g 9); [|intros []]. destruct (grp g 9); [|intros []]. texts_nonl. }
  intros prov HQ. cbn [gives nonl3]. auto.
Qed.
Lemma sat_nonl p st : nonl p -> nonl3 st -> gives nonl3 (unpack_sat p st).
Proof.
  intros N H. unfold unpack_sat. destruct (re_match satellitePackedIDRegex p) as [g|] eqn:R; [|exact H].
  destruct st as [[a b] c]. destruct H as (HA & HB & HC). apply (gives_bind nonl_o).
  { apply gives_if; [|exact HA]. apply gives_any; intro n. apply gives_if; [exact I|].
    eapply gives_bind; [apply (gives_gstr _ _ _ _ R N)|intros ty HT]. apply (gives_bind nonl).
    { destruct ty as [|x [|? ?]]; try exact I. apply gives_planet. }
    intros pn HN. cbn [gives nonl_o]. texts_nonl. }
  intros perm HP. apply (gives_bind nonl_o).
  { apply gives_if; [|exact HB]. out R N. }
  intros prov HQ. cbn [gives nonl3]. auto.
Qed.
Lemma unpack_nonl p a b c : nonl p -> unpackPackedID p = Ok (a, b, c) -> nonl_o a /\ nonl_o b /\ nonl_o c.
Proof.
  intros N H. apply unpack_split in H as (st & st' & H1 & H2 & H3).
  pose proof (minor_nonl p N) as K1. rewrite H1 in K1. pose proof (comet_nonl p st N K1) as K2. rewrite H2 in K2.
  pose proof (sat_nonl p st' N K2) as K3. rewrite H3 in K3. exact K3.
Qed.

(** * Texts that pack are tidy *)
Definition seen (o : option str) : option str :=
  match o with None => None | Some s => match strip s with [] => None | v => Some v end end.

Definition begins (s : str) : Prop := exists c m, s = c :: m /\ pyspace c = false.
Definition ends (s : str) : Prop := exists m d, s = m ++ [d] /\ pyspace d = false.
Lemma lastc_app m d : PyStrProofs.lastc (m ++ [d]) = Some d.
Proof. unfold lastc. now rewrite rev_app_distr. Qed.
Lemma tidy_ends s : begins s -> ends s -> strip s = s.
Proof.
  intros (c & m & -> & H) (m' & d & E & K). apply strip_trimmed. unfold trimmed. rewrite H. cbn [negb andb]. now rewrite E, lastc_app, K.
Qed.
Lemma begins_app a b : begins a -> begins (a ++ b).
Proof. intros (c & m & -> & H). exists c, (m ++ b). auto. Qed.
Lemma ends_app a b : ends b -> ends (a ++ b).
Proof. intros (m & d & -> & H). exists (a ++ m), d. rewrite app_assoc. auto. Qed.
Definition dark (c : ascii) : bool := negb (pyspace c).
Lemma dark_begins w : forallb dark w = true -> w <> [] -> begins w.
Proof. destruct w as [|c w]; [congruence|]. cbn [forallb]. intros H _. apply andb_prop in H as [H _]. exists c, w. split; auto. now apply negb_true_iff in H. Qed.
Lemma dark_ends w : forallb dark w = true -> w <> [] -> ends w.
Proof.
  intros H N. destruct (exists_last N) as (m & d & ->). rewrite forallb_app in H. apply andb_prop in H as [_ H]. cbn in H. rewrite andb_true_r in H.
  exists m, d. split; auto. now apply negb_true_iff in H.
Qed.
Lemma impl_dark (f : ascii -> bool) : forallb (fun n => implb (f (ascii_of_nat n)) (dark (ascii_of_nat n))) (seq 0 256) = true -> forall w, forallb f w = true -> forallb dark w = true.
Proof.
  intros H w. assert (forall c, f c = true -> dark c = true) as K.
  { intros c F. rewrite forallb_forall in H. specialize (H (nat_of_ascii c)). rewrite ascii_nat_embedding, F in H. apply H.
    apply in_seq. pose proof (nat_ascii_bounded c). lia. }
  induction w as [|c w IH]; [auto|]. cbn [forallb]. intro F. apply andb_prop in F as [F1 F2]. now rewrite (K c F1), IH.
Qed.
Lemma dig_dark w : forallb isdig w = true -> forallb dark w = true. Proof. apply impl_dark. vm_compute. reflexivity. Qed.
Lemma up_dark w : forallb isupper w = true -> forallb dark w = true. Proof. apply impl_dark. vm_compute. reflexivity. Qed.
Lemma hm_dark w : forallb half_month w = true -> forallb dark w = true. Proof. apply impl_dark. vm_compute. reflexivity. Qed.
Lemma or_dark w : forallb order_letter w = true -> forallb dark w = true. Proof. apply impl_dark. vm_compute. reflexivity. Qed.
Lemma trk_dark w : forallb trk_char w = true -> forallb dark w = true. Proof. apply impl_dark. vm_compute. reflexivity. Qed.
Lemma digits_b w : digits w -> begins w. Proof. intros [H N]. now apply dark_begins; [apply dig_dark|]. Qed.
Lemma digits_e w : digits w -> ends w. Proof. intros [H N]. now apply dark_ends; [apply dig_dark|]. Qed.
Lemma four_b y : four y -> begins y. Proof. intros [H N]. apply digits_b. split; auto. intros ->. discriminate N. Qed.
Lemma one_e (f : ascii -> bool) c : (forall w, forallb f w = true -> forallb dark w = true) -> f c = true -> ends [c].
Proof. intros K H. apply dark_ends; [|discriminate]. apply K. cbn. now rewrite H. Qed.
Lemma ends_digs a w : ends a -> forallb isdig w = true -> ends (a ++ w).
Proof. intros E H. destruct w as [|c w]; [now rewrite app_nil_r|]. apply ends_app, digits_e. split; [exact H|discriminate]. Qed.
Lemma lit_b s : match s with c :: _ => negb (pyspace c) | [] => false end = true -> begins s.
Proof. destruct s as [|c s]; [discriminate|]. intro H. apply negb_true_iff in H. exists c, s. auto. Qed.
Lemma perm_tidy i : perm_shaped i -> strip (perm_written i) = perm_written i /\ perm_written i <> [].
Proof.
  intros S. assert (begins (perm_written i) /\ ends (perm_written i)) as [B E].
  { destruct i as [w|w t f|q w|w n]; cbn [perm_shaped perm_written] in *.
    - split; [now apply digits_b|now apply digits_e].
    - destruct S as (D & T & U & L). split; [now apply begins_app, digits_b|]. apply ends_app. destruct f as [|x f].
      + rewrite app_nil_r. destruct T as [<-|[<-|[<-|[]]]]; (apply dark_ends; [reflexivity|discriminate]).
      + apply ends_app, ends_app, dark_ends; [now apply up_dark|discriminate].
    - destruct S as [Q D]. split.
      + apply begins_app. destruct Q as [<-|[<-|[<-|[<-|[<-|[]]]]]]; apply lit_b; reflexivity.
      + now apply ends_app, ends_app, digits_e.
    - destruct S as [D N]. split; [apply lit_b; reflexivity|]. do 3 apply ends_app. now apply digits_e. }
  split; [now apply tidy_ends|]. destruct B as (c & m & -> & _). discriminate.
Qed.
Lemma prov_tidy i : prov_shaped i -> strip (prov_written i) = prov_written i /\ prov_written i <> [].
Proof.
  intros S. assert (begins (prov_written i) /\ ends (prov_written i)) as [B E].
  { destruct i as [y h o w|y s1 s2|t y h o w f|y q w|y b w]; cbn [prov_shaped prov_written] in *.
    - destruct S as (Y & H & O & W). split; [now apply begins_app, four_b|]. apply ends_app, ends_app. apply ends_digs; [|exact W].
      apply (ends_app [h]). now apply (one_e order_letter); [apply or_dark|].
    - destruct S as [Y S]. split; [now apply begins_app, four_b|]. do 4 apply ends_app. unfold is_survey in S.
      apply (one_e (fun c => ceqb c "L" || (ceqb c "1" || ceqb c "2" || ceqb c "3"))); [apply impl_dark; vm_compute; reflexivity|].
      apply orb_prop in S as [S|S]; apply andb_prop in S as [_ S]; rewrite S; [reflexivity|apply orb_true_r].
    - destruct S as (T & Y & H & O & W & F). split.
      + apply begins_app. destruct T as [<-|[<-|[<-|[<-|[<-|[]]]]]]; apply lit_b; reflexivity.
      + do 4 apply ends_app. rewrite app_assoc. rewrite app_assoc.
        assert (ends (([h] ++ letter_of o) ++ w)) as K.
        { apply ends_digs; [|exact W]. destruct o as [c|]; cbn [letter_of capital] in *.
          - apply ends_app. now apply (one_e isupper); [apply up_dark|].
          - rewrite app_nil_r. now apply (one_e isupper); [apply up_dark|]. }
        destruct f as [c|]; cbn [capital] in F; [|now rewrite app_nil_r]. apply ends_app, ends_app. now apply (one_e isupper); [apply up_dark|].
    - destruct S as (Y & Q & W). split; [apply lit_b; reflexivity|]. do 5 apply ends_app. now apply digits_e.
    - destruct S as (Y & Q & W). split; [apply lit_b; reflexivity|]. do 5 apply ends_app. now apply digits_e. }
  split; [now apply tidy_ends|]. destruct B as (c & m & -> & _). discriminate.
Qed.
Lemma pack_perm_tidy s st : nonl s -> pack_perm (Some s) = Ok st -> strip s = s /\ s <> [] /\ otrue (pk_s st) = true.
Proof.
  intros N H. assert (otrue (pk_s st) = true) as O.
  { unfold pack_perm in H. repeat (match type of H with (do x <- ?e; _) = Ok _ => destruct e; cbn [rbind] in H; [|discriminate H] end).
    destruct (otrue _) eqn:E; [|discriminate H]. injection H as <-. exact E. }
  destruct (pack_perm_grammar s st N H) as (i & A & <-). destruct (perm_tidy i A). auto.
Qed.
Lemma pack_prov_tidy s st : nonl s -> pack_prov (Some s) = Ok st -> strip s = s /\ s <> [] /\ otrue (pk_s st) = true.
Proof.
  intros N H. assert (otrue (pk_s st) = true) as O.
  { unfold pack_prov in H. repeat (match type of H with (do x <- ?e; _) = Ok _ => destruct e; cbn [rbind] in H; [|discriminate H] end).
    destruct (otrue _) eqn:E; [|discriminate H]. injection H as <-. exact E. }
  destruct (pack_prov_grammar s st N H) as (i & A & <-). destruct (prov_tidy i A). auto.
Qed.
Lemma seen_tidy s : strip s = s -> s <> [] -> seen (Some s) = Some s.
Proof. intros H N. unfold seen. rewrite H. now destruct s. Qed.
Lemma trk_perm c pa pb pp : pk_s pa = Some pp -> pack_trk c pa pb = Ok None.
Proof. intro E. unfold pack_trk. rewrite E. now destruct c. Qed.
Lemma trk_prov c pa pb pv : pk_s pa = None -> pk_s pb = Some pv -> otrue (Some pv) = true -> exists u, pack_trk c pa pb = Ok u.
Proof. intros E F O. unfold pack_trk. rewrite E, F, O. destruct c as [c|]; [|eexists; reflexivity]. cbv zeta. match goal with |- context [if otrue ?t then _ else _] => destruct (otrue t) end; eexists; reflexivity. Qed.
(** A designation that was unpacked and packs again does so from the texts of an element. *)
Theorem id_back p a b c : nonl p -> unpackPackedID p = Ok (a, b, c) -> packTupleID (a, b, c) = Ok p ->
  packTupleID (seen a, seen b, seen c) = Ok p.
Proof.
  intros N U H. destruct (unpack_nonl p a b c N U) as (NA & NB & NC). destruct (unpack_nonempty p a b c U) as (x & X & XE). unfold packTupleID in *.
  destruct (pack_perm a) as [pa|] eqn:PA; [|discriminate H]. cbn [rbind] in H. destruct (pack_prov b) as [pb|] eqn:PB; [|discriminate H]. cbn [rbind] in H.
  assert (seen a = a) as ->. { destruct a as [s|]; [|reflexivity]. destruct (pack_perm_tidy s pa NA PA) as (A & B & _). now apply seen_tidy. }
  assert (seen b = b) as ->. { destruct b as [s|]; [|reflexivity]. destruct (pack_prov_tidy s pb NB PB) as (A & B & _). now apply seen_tidy. }
  rewrite PA, PB. cbn [rbind]. destruct (pk_s pa) as [pp|] eqn:EP.
  { rewrite (trk_perm c pa pb pp EP) in H. now rewrite (trk_perm (seen c) pa pb pp EP). }
  destruct (pk_s pb) as [pv|] eqn:EQ.
  - assert (otrue (Some pv) = true) as O.
    { destruct b as [s|]; [|cbn in PB; injection PB as <-; discriminate EQ]. destruct (pack_prov_tidy s pb NB PB) as (_ & _ & O). now rewrite EQ in O. }
    destruct (trk_prov c pa pb pv EP EQ O) as [u Hu]. destruct (trk_prov (seen c) pa pb pv EP EQ O) as [v Hv]. rewrite Hu in H. rewrite Hv. cbn [rbind] in *. unfold pack_join in *. rewrite EP, EQ in *. exact H.
  - assert (a = None) as ->. { destruct a as [s|]; [|reflexivity]. destruct (pack_perm_tidy s pa NA PA) as (_ & _ & O). rewrite EP in O. discriminate O. }
    assert (b = None) as ->. { destruct b as [s|]; [|reflexivity]. destruct (pack_prov_tidy s pb NB PB) as (_ & _ & O). rewrite EQ in O. discriminate O. }
    destruct XE as [XE|[XE|XE]]; try discriminate XE. subst c. cbn [nonl_o] in NC.
    rewrite seen_tidy; [exact H| |exact X].
    unfold pack_trk in H. rewrite EP, EQ in H.
    destruct (re_match trksubRegex x) as [g|] eqn:T; [|cbn in H; discriminate H].
    apply trk_inv in T as (w & W & L & TW & ->). assert (w = x) as ->.
    { destruct W as [W|W]; [now symmetry|]. exfalso. apply NC. rewrite W. apply in_or_app. right. now left. }
    apply tidy_ends; [apply dark_begins|apply dark_ends]; auto; now apply trk_dark.
Qed.
