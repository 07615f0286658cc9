(** Lemmas of C50, part 7: packed designations are not header lines. *)
From Verif Require Import PyStrProofs PackProofs2 PackProofs3 PackProofs7 PackProofs8 Mpc80 Mpc80Spec.
Local Open Scope Z_scope.

Definition N4 (st : pk) : Prop := forall s, pk_s st = Some s -> nth_error s 3 <> Some " "%char.
Lemma dig_n a : isdig a = true -> Some a <> Some " "%char. Proof. intros H E. injection E as ->. discriminate H. Qed.
Lemma zpad4_n n t : 0 <= n < 10000 -> nth_error (zpad10 n 10000 ++ t) 3 <> Some " "%char.
Proof. intro H. destruct (zpad_4 n H) as (a & b & c & d & -> & A). cbn [app nth_error]. apply dig_n. tauto. Qed.
Lemma zpad4_n' x n : 0 <= n < 10000 -> nth_error (x :: zpad10 n 10000) 3 <> Some " "%char.
Proof. intro H. destruct (zpad_4 n H) as (a & b & c & d & -> & A). cbn [app nth_error]. apply dig_n. tauto. Qed.
Lemma zpad3_n x n t : 0 <= n < 1000 -> nth_error ([x] ++ zpad10 n 1000 ++ t) 3 <> Some " "%char.
Proof. intro H. destruct (zpad_3 n H) as (a & b & c & -> & A). cbn [app nth_error]. apply dig_n. tauto. Qed.
Lemma letter_n d : 0 <= d < 62 -> letter d <> " "%char.
Proof.
  intros H E. assert (forallb (fun k => negb (ceqb (letter (Z.of_nat k)) " ")) (seq 0 62) = true) as A by (vm_compute; reflexivity).
  rewrite forallb_forall in A. specialize (A (Z.to_nat d)). rewrite Z2Nat.id, E in A by lia. discriminate A. apply in_seq. lia.
Qed.
Lemma radix_n n : nth_error (radix62_4 n) 3 <> Some " "%char.
Proof. rewrite radix62_4_eq. cbn [nth_error]. intro E. injection E as E. revert E. apply letter_n. apply Z.mod_pos_bound. lia. Qed.
Lemma minor_n p st st' : N4 st -> perm_minor p st = Ok st' -> N4 st'.
Proof.
  intro N. unfold perm_minor. destruct (re_match minorplanetPermIDRegex p) as [g|] eqn:H; [|intros [= <-]; exact N].
  unfold minorplanetPermIDRegex in H. invert_match H. intro HE.
  match goal with H : forallb _ _ = true |- _ => apply forallb_cls_dig in H as Hd end.
  erewrite gint_num in HE by (first [reflexivity | eassumption]). cbn [rbind] in HE.
  match goal with HE : context [decval ?x] |- _ => set (n := decval x) in * end.
  destruct ((n >? 0) && (n <? 15396336)) eqn:E; [|discriminate].
  destruct (Z.ltb_spec n 620000).
  - rewrite index_letter in HE by lia. cbn [rbind] in HE. injection HE as <-. intros s Es. injection Es as <-. apply zpad4_n'. lia.
  - injection HE as <-. intros s Es. injection Es as <-. apply radix_n.
Qed.
Lemma comet_n p st st' : N4 st -> perm_comet p st = Ok st' -> N4 st'.
Proof.
  intro N. unfold perm_comet. destruct (re_match cometPermIDRegex p) as [g|] eqn:H; [|intros [= <-]; exact N].
  unfold cometPermIDRegex in H. invert_match H. intro HE.
  match goal with H : forallb _ _ = true |- _ => apply forallb_cls_dig in H as Hd end.
  erewrite gint_num in HE by (first [reflexivity | eassumption]). cbn [rbind gstr grp Nat.eqb] in HE.
  match goal with HE : context [decval ?x] |- _ => pose proof (decval_bound x Hd) as HB; set (n := decval x) in * end.
  destruct (Z.gtb_spec n 9999); [discriminate|]. destruct (Z.eqb_spec n 0); [discriminate|].
  injection HE as <-. intros s Es. injection Es as <-. apply zpad4_n. lia.
Qed.
Lemma frag_n p st st' : N4 st -> perm_cometfrag p st = Ok st' -> N4 st'.
Proof.
  intro N. unfold perm_cometfrag. destruct (re_match cometfragmentPermIDRegex p) as [g|] eqn:H; [|intros [= <-]; exact N].
  unfold cometfragmentPermIDRegex in H. invert_match H. intro HE.
  match goal with H : forallb (incls (Cl false [("0", "9")]%char)) _ = true |- _ => apply forallb_cls_dig in H as Hd end.
  erewrite gint_num in HE by (first [reflexivity | eassumption]). cbn [rbind gstr grp Nat.eqb] in HE.
  match goal with HE : context [decval ?x] |- _ => pose proof (decval_bound x Hd) as HB; set (n := decval x) in * end.
  destruct (Z.gtb_spec n 9999); [discriminate|]. destruct (Z.eqb_spec n 0); [discriminate|].
  injection HE as <-. intros s Es. injection Es as <-. apply zpad4_n. lia.
Qed.
Lemma sat_n p st st' : N4 st -> perm_sat p st = Ok st' -> N4 st'.
Proof.
  intro N. unfold perm_sat. destruct (re_match satellitePermIDRegex p) as [g|] eqn:H; [|intros [= <-]; exact N].
  unfold satellitePermIDRegex in H. invert_match H; intro HE.
  all: match goal with H : forallb (incls (Cl false [("0", "9")]%char)) _ = true |- _ => apply forallb_cls_dig in H as Hd end.
  all: erewrite gint_num in HE by (first [reflexivity | eassumption]); cbn [rbind gstr grp Nat.eqb chat nth_error app] in HE.
  all: match goal with HE : context [decval ?x] |- _ => pose proof (decval_bound x Hd) as HB; set (n := decval x) in * end.
  all: destruct (Z.gtb_spec n 999); [discriminate|]; destruct (Z.eqb_spec n 0); [discriminate|].
  all: injection HE as <-; intros s Es; injection Es as <-; apply zpad3_n; lia.
Qed.
Lemma perm_n a st : pack_perm a = Ok st -> N4 st.
Proof.
  destruct a as [p|]; [|intros [= <-] s E; discriminate E]. unfold pack_perm. assert (N4 pk0) as N0 by (intros s E; discriminate E).
  destruct (perm_minor p pk0) as [a|] eqn:E1; [|discriminate]; cbn [rbind]. apply (minor_n _ _ _ N0) in E1.
  destruct (perm_comet p a) as [a1|] eqn:E2; [|discriminate]; cbn [rbind]. apply (comet_n _ _ _ E1) in E2.
  destruct (perm_cometfrag p a1) as [a2|] eqn:E3; [|discriminate]; cbn [rbind]. apply (frag_n _ _ _ E2) in E3.
  destruct (perm_sat p a2) as [a3|] eqn:E4; [|discriminate]; cbn [rbind]. apply (sat_n _ _ _ E3) in E4.
  unfold perm_astsat. destruct (re_match asteroidsatellitePermIDRegex p); [discriminate|]; cbn [rbind].
  destruct (otrue (pk_s a3)) eqn:E; [|discriminate]. intros [= <-]. exact E4.
Qed.
Lemma keyword_starts k : In k keywords -> exists a b c, k = [a; b; c] /\ a <> " "%char.
Proof. intro I. repeat (destruct I as [<-|I]; [do 3 eexists; split; [reflexivity|discriminate]|]). destruct I. Qed.
Lemma nth_firstn {A} n m (s : list A) : (m < n)%nat -> nth_error (firstn n s) m = nth_error s m.
Proof. revert m s. induction n as [|n IH]; intros m s H; [lia|]. destruct s as [|x s]; [now destruct m|]. destruct m as [|m]; [reflexivity|]. cbn [firstn nth_error]. apply IH. lia. Qed.
Lemma pack_not_header t id rest : packTupleID t = Ok id -> ~ header_line (id ++ rest).
Proof.
  intros H (k & v & I & E). pose proof (c09 t id H) as L. destruct (keyword_starts k I) as (x & y & z & -> & Nx).
  assert (nth_error id 0 = Some x /\ nth_error id 3 = Some " "%char) as (A & B).
  { assert (forall m, (m < 12)%nat -> nth_error id m = nth_error (id ++ rest) m) as Q by (intros m Hm; symmetry; apply nth_error_app1; lia).
    rewrite !Q by lia. rewrite E. split; reflexivity. }
  destruct t as [[p q] tr]. unfold packTupleID in H.
  destruct (pack_perm p) as [st|] eqn:Ep; [|discriminate H]. cbn [rbind] in H. pose proof (perm_n _ _ Ep) as N.
  destruct (pack_prov q) as [st2|] eqn:Eq; [|discriminate H]. cbn [rbind] in H.
  destruct (pack_trk tr st st2) as [tk|] eqn:Et; [|discriminate H]. cbn [rbind] in H. unfold pack_join in H.
  destruct (pk_s st) as [pp|] eqn:Es.
  - destruct p as [p|]; [|injection Ep as <-; discriminate Es]. destruct (pack_perm_good p st Ep) as (s & kd & Es' & _ & Ls & _). rewrite Es in Es'. injection Es' as <-.
    specialize (N pp Es). apply N. assert (nth_error id 3 = nth_error pp 3) as <-; [|exact B].
    destruct (pk_s st2).
    + repeat match type of H with (if ?b then _ else _) = _ => destruct b; [discriminate H|] end. injection H as <-. apply nth_error_app1. lia.
    + destruct (otrue tk); [discriminate H|]. cbv zeta in H. destruct (okind_eqb _ _).
      * destruct (pk_f st) as [f|]; [|discriminate H]. injection H as <-. destruct pp as [|a1 [|a2 [|a3 [|a4 pp]]]]; try discriminate Ls. reflexivity.
      * injection H as <-. apply nth_error_app1. lia.
  - destruct (pk_s st2) as [pv|]; [injection H as <-; injection A as A; now apply Nx|]. destruct tk as [[|c tk]|]; try discriminate H. injection H as <-. injection A as A. now apply Nx.
Qed.
