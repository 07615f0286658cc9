From Verif Require Import Mpc80 FmtRe PyStrProofs PackProofs13 PyReProofs.
From Verif Require Export Mpc80Proofs1.
Local Open Scope nat_scope.

(** * Header lines *)
Fixpoint lit (k : str) : re :=
  match k with [] => REps | [c] => RCls (c_one c) | c :: k' => RSeq (RCls (c_one c)) (lit k') end.
Fixpoint alts (ks : list str) : re :=
  match ks with [] => REps | [k] => lit k | k :: ks' => RAlt (lit k) (alts ks') end.
Lemma headerRegex_eq : headerRegex =
  RSeq (RGrp 1 (alts keywords)) (RSeq (RCls (c_one " ")) (RSeq (RGrp 2 (RRep c_dot 0 None)) REos)).
Proof. vm_compute. reflexivity. Qed.
Definition starts (k s : str) : bool := streqb (firstn (length k) s) k.
Lemma incls_one c x : incls (c_one c) x = ceqb x c.
Proof.
  destruct (ceqb x c) eqn:E.
  - apply ceqb_eq in E as ->. unfold incls, c_one, PyRe.inr. cbn. unfold cle. rewrite N.leb_refl. reflexivity.
  - apply Bool.not_true_iff_false. intros H. unfold incls, c_one, PyRe.inr in H. cbn in H. unfold cle in H.
    rewrite ?andb_true_r, ?orb_false_r, ?xorb_false_l in H. repeat (apply andb_prop in H as [H ?]).
    repeat match goal with X : (_ <=? _)%N = true |- _ => apply N.leb_le in X end.
    assert (code x = code c) as K by lia. unfold code in K.
    assert (x = c) by (rewrite <- (ascii_N_embedding x), <- (ascii_N_embedding c); congruence). subst.
    rewrite (proj2 (ceqb_eq c c) eq_refl) in E. discriminate.
Qed.
Lemma mtch_lit {A} k : forall s c (kont : str -> caps -> option A),
  mtch (lit k) s c kont = if starts k s then kont (skipn (length k) s) c else None.
Proof.
  induction k as [|x k IH]; intros s c kont.
  - cbn. reflexivity.
  - destruct k as [|y k].
    + cbn [lit mtch length]. unfold starts. destruct s as [|z s]; [reflexivity|].
      cbn [length firstn skipn streqb]. rewrite incls_one. destruct (ceqb z x); reflexivity.
    + change (lit (x :: y :: k)) with (RSeq (RCls (c_one x)) (lit (y :: k))). cbn [mtch].
      destruct s as [|z s]; [reflexivity|]. rewrite incls_one. unfold starts in *.
      change (firstn (length (x :: y :: k)) (z :: s)) with (z :: firstn (length (y :: k)) s).
      cbn [streqb]. destruct (ceqb z x); cbn [andb]; [|reflexivity]. rewrite IH. reflexivity.
Qed.
Lemma mtch_alts {A} ks n : forall s c (kont : str -> caps -> option A),
  ks <> [] -> Forall (fun k => length k = n) ks ->
  mtch (alts ks) s c kont = if existsb (fun k => starts k s) ks then kont (skipn n s) c else None.
Proof.
  induction ks as [|k ks IH]; intros s c kont N F; [congruence|].
  inversion F as [|? ? F1 F2]; subst. destruct ks as [|k2 ks].
  - cbn [alts existsb]. rewrite mtch_lit, orb_false_r. reflexivity.
  - change (alts (k :: k2 :: ks)) with (RAlt (lit k) (alts (k2 :: ks))). cbn [mtch].
    rewrite mtch_lit, IH by (auto; discriminate).
    change (existsb (fun k0 => starts k0 s) (k :: k2 :: ks)) with (starts k s || existsb (fun k0 => starts k0 s) (k2 :: ks)).
    destruct (starts k s); cbn [orb]; auto.
    destruct (kont (skipn (length k) s) c); auto. destruct (existsb _ _); auto.
Qed.
Lemma rep_all {A} k v (ck : str -> option A) x : forallb k v = true -> ck [] = Some x -> rep k 0 None v ck = Some x.
Proof. intros H1 H2. rewrite <- (app_nil_r v). apply rep_many; auto. lia. Qed.
Definition is_header (l : str) : bool := existsb (fun k => starts (k ++ $" ") l) keywords.
Lemma existsb_tail (l : str) : existsb (fun k => starts (k ++ $" ") l) keywords =
  existsb (fun k => starts k l) keywords && match skipn 3 l with x :: _ => ceqb x " " | [] => false end.
Proof.
  assert (forall k, length k = 3 -> starts (k ++ $" ") l = starts k l && match skipn 3 l with x :: _ => ceqb x " " | [] => false end) as H.
  { intros [|a [|b [|c [|]]]] K; try discriminate K. unfold starts.
    destruct l as [|x [|y [|z l]]]; cbn; rewrite ?andb_false_r; auto.
    destruct l as [|w l]; cbn; rewrite ?andb_false_r; auto.
    destruct (ceqb x a), (ceqb y b), (ceqb z c); cbn; auto. now rewrite andb_true_r. }
  assert (Forall (fun k => length k = 3) keywords) as F by (repeat constructor).
  induction F as [|k ks F1 F2 IH]; [reflexivity|]. cbn [existsb]. rewrite IH, H by auto.
  now rewrite andb_orb_distrib_l.
Qed.
Lemma match_header l : ~ In nl l ->
  re_match headerRegex l = if is_header l then Some [(2, skipn 4 l); (1, firstn 3 l)] else None.
Proof.
  intros NL. rewrite headerRegex_eq. unfold re_match, is_header. rewrite existsb_tail.
  change (mtch (RSeq (RGrp 1 (alts keywords)) (RSeq (RCls (c_one " ")) (RSeq (RGrp 2 (RRep c_dot 0 None)) REos))) l [] (fun _ c => Some c))
    with (mtch (alts keywords) l [] (fun s' c' =>
       mtch (RSeq (RCls (c_one " ")) (RSeq (RGrp 2 (RRep c_dot 0 None)) REos)) s'
         ((1, firstn (length l - length s') l) :: c') (fun _ c => Some c))).
  rewrite (mtch_alts keywords 3) by (try discriminate; repeat constructor).
  destruct (existsb (fun k => starts k l) keywords) eqn:E; cbn [andb]; [|reflexivity].
  destruct l as [|a [|b [|c l]]]; try reflexivity.
  cbn [skipn]. destruct l as [|d l]; [reflexivity|]. cbn [mtch]. rewrite incls_one.
  destruct (ceqb d " "); [|reflexivity].
  assert (forallb (incls c_dot) l = true) as D.
  { apply forallb_forall. intros x Hx. destruct (incls c_dot x) eqn:I; auto. exfalso.
    assert (forall x, implb (negb (incls c_dot x)) (ceqb x nl) = true) as S by (apply forall_ascii; vm_compute; reflexivity).
    specialize (S x). rewrite I in S. cbn in S. apply ceqb_eq in S as ->. apply NL. cbn. auto. }
  apply rep_all; [exact D|]. cbn [mtch length]. rewrite Nat.sub_0_r, firstn_all.
  replace (S (S (S (S (length l)))) - S (length l)) with 3 by lia. reflexivity.
Qed.
Lemma is_header_iff l : is_header l = true <-> header_line l.
Proof.
  unfold is_header, header_line. rewrite existsb_exists. split.
  - intros (k & I & S). exists k. unfold starts in S. apply streqb_eq in S.
    exists (skipn (length (k ++ $" ")) l). split; auto. rewrite app_assoc, <- S at 1. 
    rewrite S at 1. rewrite <- (firstn_skipn (length (k ++ $" ")) l) at 1. now rewrite S.
  - intros (k & v & I & ->). exists k. split; auto. unfold starts. rewrite app_assoc, firstn_app, firstn_all, Nat.sub_diag.
    cbn [firstn]. rewrite app_nil_r. apply streqb_refl.
Qed.
Lemma header_fields k v : In k keywords -> firstn 3 (k ++ $" " ++ v) = k /\ skipn 4 (k ++ $" " ++ v) = v.
Proof. intros I. repeat (destruct I as [<-|I]; [split; reflexivity|]). destruct I. Qed.
