(** Proofs for C51. *)
From Verif Require Import PyStrProofs XmlProofs ReadXml ReadXmlSpec.

Lemma indent_spaces d : indent d = spaces (2 * d + 1).
Proof. unfold indent, spaces. rewrite repeat_app. reflexivity. Qed.

(** ** Lines *)
Lemma written_app a b : written (a ++ b) = written a ++ written b.
Proof. unfold written. rewrite map_app. apply concat_app. Qed.
Lemma lists_app a b e f : lists a e -> lists b f -> lists (a ++ b) (e ++ f).
Proof. induction 1; intro H'; cbn; [exact H'|constructor; auto|constructor; auto]. Qed.
Lemma In_spaces c n : In c (spaces n) -> c = " "%char.
Proof. unfold spaces. intro H. now apply repeat_spec in H. Qed.
Lemma nl_space : nl <> " "%char.
Proof. discriminate. Qed.
Lemma name_one_line t : a_name t -> one_line t.
Proof. intros [_ H] I. apply (H _ I). right. right. left. reflexivity. Qed.
Lemma one_line_app a b : one_line a -> one_line b -> one_line (a ++ b).
Proof. unfold one_line. intros A B I. apply in_app_or in I. tauto. Qed.
Lemma one_line_spaces n : one_line (spaces n).
Proof. intro I. apply In_spaces in I. now apply nl_space. Qed.

(** ** repr of simple texts *)
Lemma simple_no_quote s : simple s -> existsb (ceqb "'") s = false.
Proof.
  intro H. destruct (existsb (ceqb "'") s) eqn:E; [|reflexivity]. apply existsb_exists in E. destruct E as (c & I & Q). apply ceqb_eq in Q. subst c. destruct (H _ I) as (_ & N & _). now destruct N.
Qed.
Lemma simple_char c : (32 <= code c <= 126)%N -> c <> "'"%char -> c <> "\"%char -> repr_char "'" c = [c].
Proof.
  intros R Q B. unfold repr_char. destruct (ceqb c "'") eqn:E1; [apply ceqb_eq in E1; contradiction|]. destruct (ceqb c "\") eqn:E2; [apply ceqb_eq in E2; contradiction|]. cbn [orb].
  replace (code c =? 9)%N with false by (symmetry; apply N.eqb_neq; lia). replace (code c =? 10)%N with false by (symmetry; apply N.eqb_neq; lia). replace (code c =? 13)%N with false by (symmetry; apply N.eqb_neq; lia).
  replace (code c <? 32)%N with false by (symmetry; apply N.ltb_ge; lia). replace (127 <=? code c)%N with false by (symmetry; apply N.leb_gt; lia). replace (code c =? 173)%N with false by (symmetry; apply N.eqb_neq; lia). reflexivity.
Qed.
Lemma repr_simple s : simple s -> repr s = $"'" ++ s ++ $"'".
Proof.
  intro H. unfold repr. rewrite (simple_no_quote _ H). cbn. f_equal. f_equal. induction s as [|c s IH]; [reflexivity|]. cbn. rewrite (simple_char c) by (apply (H c); now left). cbn. f_equal. apply IH. intros x I. apply H. now right.
Qed.
Lemma simple_one_line s : simple s -> one_line s.
Proof. intros H I. destruct (H _ I) as ((L & _) & _). vm_compute in L. now apply L. Qed.
Lemma split_quote a b r q : ~ In "'"%char a -> ~ In "'"%char b -> a ++ $"'" ++ r = b ++ $"'" ++ q -> a = b /\ r = q.
Proof.
  revert b. induction a as [|x a IH]; intros [|y b] A B H; cbn in H.
  - split; [reflexivity|congruence].
  - injection H as E _. exfalso. apply B. left. congruence.
  - injection H as E _. exfalso. apply A. left. congruence.
  - injection H as E H. subst y. destruct (IH b) as (U & V); [intro I; apply A; now right|intro I; apply B; now right|exact H|]. subst. now split.
Qed.
Lemma simple_quote s : simple s -> ~ In "'"%char s.
Proof. intros H I. destruct (H _ I) as (_ & N & _). now apply N. Qed.
Definition pair_repr (kv : str * str) : str := repr (fst kv) ++ $": " ++ repr (snd kv).
Lemma pair_inj k v k' v' r r' : simple k -> simple v -> simple k' -> simple v' -> pair_repr (k, v) ++ r = pair_repr (k', v') ++ r' -> (k, v) = (k', v') /\ r = r'.
Proof.
  intros A B C D H. unfold pair_repr in H. cbn [fst snd] in H. rewrite !repr_simple in H by assumption. rewrite <- !app_assoc in H.
  apply (app_inv_head $"'") in H. apply split_quote in H; [|now apply simple_quote|now apply simple_quote]. destruct H as (E & H). subst k'.
  apply (app_inv_head $": ") in H. apply (app_inv_head $"'") in H. apply split_quote in H; [|now apply simple_quote|now apply simple_quote]. destruct H as (E & H). subst. now split.
Qed.
Lemma join_cons p l : joinc $", " (p :: l) = p ++ match l with [] => [] | _ => $", " ++ joinc $", " l end.
Proof. destruct l; cbn; [now rewrite app_nil_r|reflexivity]. Qed.
Lemma repr_attrib_inj a b : simple_attributes a -> simple_attributes b -> repr_attrib a = repr_attrib b -> a = b.
Proof.
  unfold repr_attrib. change (fun kv : str * str => repr (fst kv) ++ $": " ++ repr (snd kv)) with pair_repr. intros A B H. apply (app_inv_head $"{") in H.
  assert (forall a b r, simple_attributes a -> simple_attributes b -> joinc $", " (map pair_repr a) ++ $"}" = joinc $", " (map pair_repr b) ++ r -> r = $"}" -> a = b) as K; [|exact (K a b _ A B H eq_refl)].
  clear. induction a as [|[k v] a IH]; intros [|[k' v'] b] r A B H R; subst r.
  - reflexivity.
  - exfalso. cbn [map] in H. rewrite join_cons in H. unfold pair_repr at 1 in H. rewrite repr_simple in H by (apply (B k' v'); now left). cbn in H. discriminate H.
  - exfalso. cbn [map] in H. rewrite join_cons in H. unfold pair_repr at 1 in H. rewrite repr_simple in H by (apply (A k v); now left). cbn in H. discriminate H.
  - cbn [map] in H. rewrite !join_cons, <- !app_assoc in H. destruct (A k v) as [A1 A2]; [now left|]. destruct (B k' v') as [B1 B2]; [now left|].
    apply pair_inj in H; try assumption. destruct H as (E & H). rewrite E. f_equal.
    assert (simple_attributes a) as A' by (intros x y I; apply A; now right). assert (simple_attributes b) as B' by (intros x y I; apply B; now right).
    destruct a as [|p a]; destruct b as [|p' b]; [reflexivity|cbn in H; discriminate H|cbn in H; discriminate H|].
    cbn [map] in H. rewrite <- !app_assoc in H. apply (app_inv_head $", ") in H. exact (IH _ _ A' B' H eq_refl).
Qed.
Lemma repr_one_line s : simple s -> one_line (repr s).
Proof. intro H. rewrite (repr_simple _ H). apply one_line_app; [|apply one_line_app; [now apply simple_one_line|]]; intros [E|[]]; discriminate E. Qed.
Lemma repr_attrib_one_line a : simple_attributes a -> one_line (repr_attrib a).
Proof.
  intro A. unfold repr_attrib. apply one_line_app; [intros [E|[]]; discriminate E|]. apply one_line_app; [|intros [E|[]]; discriminate E].
  change (fun kv : str * str => repr (fst kv) ++ $": " ++ repr (snd kv)) with pair_repr. induction a as [|[k v] a IH]; [intros []|]. cbn [map]. rewrite join_cons. destruct (A k v) as [K V]; [now left|]. apply one_line_app.
  - unfold pair_repr. cbn [fst snd]. apply one_line_app; [now apply repr_one_line|]. apply one_line_app; [intros [E|[E|[]]]; discriminate E|now apply repr_one_line].
  - destruct a as [|p a]; [intros []|]. cbn [map]. apply one_line_app; [intros [E|[E|[]]]; discriminate E|]. apply IH. intros x y I. apply A. now right.
Qed.

(** ** The first line of an element *)
Definition shown_text (x : str) : str := match x with [] => [] | _ => if forallb pyspace x then [] else $": " ++ x end.
Definition shown_attrib (a : list (str * str)) : str := match a with [] => [] | _ => $": " ++ repr_attrib a end.
Lemma print_unfold d t a x ks : printElement d (Elem t a x ks) =
  (indent d ++ t ++ shown_text x ++ shown_attrib a) ++ [nl] ++
  (if streqb t $"optical" then processOptical (map (fun i => (xtag i, xtext i)) ks) (S d) else concat (map (printElement (S d)) ks)).
Proof. cbn [printElement]. unfold shown_text, shown_attrib. now rewrite <- !app_assoc. Qed.
Lemma blank_forallb x : forallb pyspace x = true <-> blank x.
Proof. unfold blank. rewrite forallb_forall. tauto. Qed.
Lemma shown_text_blank x : blank x -> shown_text x = [].
Proof. intro B. unfold shown_text. destruct x; [reflexivity|]. now rewrite (proj2 (blank_forallb _) B). Qed.
Lemma shown_text_cases x : simple_text x -> blank x /\ shown_text x = [] \/ shown_text x = $": " ++ x /\ one_line x /\ ~ In "{"%char x.
Proof.
  intros T. destruct (forallb pyspace x) eqn:E.
  - left. apply blank_forallb in E. split; [exact E|now apply shown_text_blank].
  - right. unfold shown_text. rewrite E. destruct T as [T|T]; [apply blank_forallb in T; congruence|]. destruct x; [discriminate E|]. now split.
Qed.
Lemma shown_text_one_line x : simple_text x -> one_line (shown_text x).
Proof. intro T. destruct (shown_text_cases x T) as [(_ & E)|(E & O & _)]; rewrite E; [intros []|]. apply one_line_app; [intros [H|[H|[]]]; discriminate H|exact O]. Qed.
Lemma shown_attrib_one_line a : simple_attributes a -> one_line (shown_attrib a).
Proof. intro A. unfold shown_attrib. destruct a; [intros []|]. apply one_line_app; [intros [H|[H|[]]]; discriminate H|now apply repr_attrib_one_line]. Qed.
Lemma after_shown x a : after_name (shown_text x ++ shown_attrib a).
Proof.
  unfold shown_text, shown_attrib. assert (after_name (match a with [] => [] | _ => $": " ++ repr_attrib a end)) as K.
  { destruct a; [now left|]. right. eexists. left. reflexivity. }
  destruct x as [|c x]; [exact K|]. destruct (forallb pyspace (c :: x)); [exact K|]. right. eexists. left. rewrite <- app_assoc. reflexivity.
Qed.

(** ** One line for each element *)
Lemma value_lines d k : listed_value k -> exists l, indent d ++ xtag k ++ $" = " ++ match xtext k with [] => $"None" | _ => xtext k end ++ [nl] = l ++ [nl] /\ one_line l /\ lists [l] (preorder d k).
Proof.
  intros [t x N O1 O2 O3]. cbn [xtag xtext preorder map concat]. exists (spaces (2 * d + 1) ++ t ++ $" = " ++ match x with [] => $"None" | _ => x end). split; [rewrite indent_spaces, <- !app_assoc; reflexivity|]. split.
  - apply one_line_app; [apply one_line_spaces|]. apply one_line_app; [now apply name_one_line|]. apply one_line_app; [intros [H|[H|[H|[]]]]; discriminate H|]. destruct x; [|exact O2]. intros [H|[H|[H|[H|[]]]]]; discriminate H.
  - apply lists_element; [exact O1| |apply lists_none]. right. eexists. right. reflexivity.
Qed.
Lemma values_lines d ks : Forall listed_value ks -> exists ls, concat (map (fun tt => indent d ++ fst tt ++ $" = " ++ (match snd tt with [] => $"None" | _ => snd tt end) ++ [nl]) (map (fun i => (xtag i, xtext i)) ks)) = written ls
  /\ Forall one_line ls /\ lists ls (concat (map (preorder d) ks)).
Proof.
  induction 1 as [|k ks K KS (ls & E & F & L)]; [exists []; split; [reflexivity|split; constructor]|].
  destruct (value_lines d k K) as (l & E1 & O1 & L1). exists (l :: ls). cbn [map concat]. cbn [fst snd]. rewrite E, E1. split; [reflexivity|]. split; [now constructor|].
  apply (lists_app [l] ls); assumption.
Qed.
Lemma element_lines e : listable e -> forall d, exists ls, printElement d e = written ls /\ Forall one_line ls /\ lists ls (preorder d e).
Proof.
  induction e as [t a x ks IH] using xml_ind'. intros L d. rewrite print_unfold. inversion L as [a' x' ks' A T K|t' a' x' ks' N O A T K]; subst.
  - change (streqb $"optical" $"optical") with true. cbv iota. unfold processOptical. destruct (values_lines (S d) ks K) as (ls & E & F & LS). rewrite E.
    exists ((spaces (2 * d + 1) ++ $"optical" ++ shown_text x ++ shown_attrib a) :: (spaces (2 * (d + 1) + 1) ++ $"OPTICAL ELEMENT LIST FOUND") :: ls). split; [|split].
    + rewrite !indent_spaces. unfold written. cbn [map concat]. replace (2 * S d + 1)%nat with (2 * (d + 1) + 1)%nat by lia. rewrite <- !app_assoc. reflexivity.
    + constructor; [|constructor; [|exact F]].
      * apply one_line_app; [apply one_line_spaces|]. apply one_line_app; [intro H; repeat (destruct H as [H|H]; [discriminate H|]); exact H|]. apply one_line_app; [now apply shown_text_one_line|now apply shown_attrib_one_line].
      * apply one_line_app; [apply one_line_spaces|]. intro H. repeat (destruct H as [H|H]; [discriminate H|]); exact H.
    + cbn [preorder]. apply lists_optical; [apply after_shown|exact LS].
  - destruct (streqb t $"optical") eqn:S; [apply streqb_eq in S; contradiction|].
    assert (exists ls, concat (map (printElement (Datatypes.S d)) ks) = written ls /\ Forall one_line ls /\ lists ls (concat (map (preorder (Datatypes.S d)) ks))) as (ls & E & F & LS).
    { clear L A T N O S. induction ks as [|k ks IH2]; [exists []; split; [reflexivity|split; constructor]|]. inversion IH as [|? ? I1 I2]; subst. inversion K as [|? ? K1 K2]; subst.
      destruct (I1 K1 (Datatypes.S d)) as (l1 & E1 & F1 & L1). destruct (IH2 I2 K2) as (l2 & E2 & F2 & L2). exists (l1 ++ l2). cbn [map concat]. rewrite written_app, E1, E2. split; [reflexivity|]. split; [now apply Forall_app|now apply lists_app]. }
    rewrite E. exists ((spaces (2 * d + 1) ++ t ++ shown_text x ++ shown_attrib a) :: ls). split; [|split].
    + rewrite indent_spaces. unfold written. cbn [map concat]. rewrite <- !app_assoc. reflexivity.
    + constructor; [|exact F]. apply one_line_app; [apply one_line_spaces|]. apply one_line_app; [now apply name_one_line|]. apply one_line_app; [now apply shown_text_one_line|now apply shown_attrib_one_line].
    + cbn [preorder]. apply lists_element; [exact O|apply after_shown|exact LS].
Qed.

(** ** Reading a listing back *)
Lemma split_nl a b r q : one_line a -> one_line b -> a ++ [nl] ++ r = b ++ [nl] ++ q -> a = b /\ r = q.
Proof.
  revert b. induction a as [|x a IH]; intros [|y b] A B H; cbn in H.
  - split; [reflexivity|congruence].
  - exfalso. apply B. left. congruence.
  - exfalso. apply A. left. congruence.
  - assert (x = y /\ a ++ [nl] ++ r = b ++ [nl] ++ q) as (E & H') by (split; [congruence|cbn; congruence]). subst y. destruct (IH b) as (U & V); [intro I; apply A; now right|intro I; apply B; now right|exact H'|]. subst. now split.
Qed.
(** blanks in front of something that is not a blank *)
Lemma split_blanks n m a b c e : c <> " "%char -> e <> " "%char -> spaces n ++ c :: a = spaces m ++ e :: b -> n = m /\ c :: a = e :: b.
Proof.
  intros C E. revert m. induction n as [|n IH]; intros [|m] H; cbn in H.
  - now split.
  - exfalso. apply C. now injection H.
  - exfalso. apply E. now injection H.
  - destruct (IH m) as (U & V); [now injection H|]. split; [congruence|exact V].
Qed.
(** a name up to what is not in it *)
Lemma split_name t u r q : (forall c, In c t -> ~ In c [" "%char; ":"%char; nl]) -> (forall c, In c u -> ~ In c [" "%char; ":"%char; nl]) -> after_name r -> after_name q -> t ++ r = u ++ q -> t = u /\ r = q.
Proof.
  revert u. induction t as [|x t IH]; intros [|y u] T U R Q H; cbn in H.
  - now split.
  - exfalso. subst r. destruct R as [R|(r' & [R|R])]; cbn in R; [discriminate R| |]; injection R as R _; apply (U y); [now left|subst; cbn; auto|now left|subst; cbn; auto].
  - exfalso. subst q. destruct Q as [Q|(q' & [Q|Q])]; cbn in Q; [discriminate Q| |]; injection Q as Q _; apply (T x); [now left|subst; cbn; auto|now left|subst; cbn; auto].
  - assert (x = y /\ t ++ r = u ++ q) as (E & H') by (split; congruence). subst y. destruct (IH u) as (V & W); [intros c I; apply T; now right|intros c I; apply U; now right|exact R|exact Q|exact H'|]. subst. now split.
Qed.
Lemma name_head t : a_name t -> exists c t', t = c :: t' /\ c <> " "%char.
Proof. intros [N H]. destruct t as [|c t]; [contradiction|]. exists c, t. split; [reflexivity|]. intro E. apply (H c); [now left|]. subst. now left. Qed.

(** the text and the attributes of a line *)
Lemma split_brace a b r q : ~ In "{"%char a -> ~ In "{"%char b -> a ++ "{"%char :: r = b ++ "{"%char :: q -> a = b /\ r = q.
Proof.
  revert b. induction a as [|x a IH]; intros [|y b] A B H; cbn in H.
  - split; [reflexivity|congruence].
  - exfalso. apply B. left. congruence.
  - exfalso. apply A. left. congruence.
  - assert (x = y /\ a ++ "{"%char :: r = b ++ "{"%char :: q) as (E & H') by (split; congruence). subst y. destruct (IH b) as (U & V); [intro I; apply A; now right|intro I; apply B; now right|exact H'|]. subst. now split.
Qed.
Lemma shown_text_brace x : simple_text x -> ~ In "{"%char (shown_text x).
Proof. intro T. destruct (shown_text_cases x T) as [(_ & E)|(E & _ & O)]; rewrite E; [intros []|]. intros [H|[H|H]]; [discriminate H|discriminate H|contradiction]. Qed.
Lemma shown_text_inj x y : simple_text x -> simple_text y -> shown_text x = shown_text y -> x = y \/ blank x /\ blank y.
Proof.
  intros X Y. destruct (shown_text_cases x X) as [(B1 & E1)|(E1 & _)], (shown_text_cases y Y) as [(B2 & E2)|(E2 & _)]; rewrite E1, E2; intro H; [now right|discriminate H|discriminate H|].
  left. exact (app_inv_head $": " _ _ H).
Qed.
Lemma shown_inj x y a b : simple_text x -> simple_text y -> simple_attributes a -> simple_attributes b -> shown_text x ++ shown_attrib a = shown_text y ++ shown_attrib b -> (x = y \/ blank x /\ blank y) /\ a = b.
Proof.
  intros X Y A B H. pose proof (shown_text_brace x X) as NX. pose proof (shown_text_brace y Y) as NY.
  destruct a as [|p a], b as [|p' b]; cbn [shown_attrib] in H.
  - rewrite !app_nil_r in H. split; [now apply shown_text_inj|reflexivity].
  - exfalso. rewrite app_nil_r in H. apply NX. rewrite H. apply in_or_app. right. right. right. left. reflexivity.
  - exfalso. rewrite app_nil_r in H. apply NY. rewrite <- H. apply in_or_app. right. right. right. left. reflexivity.
  - set (u := p :: a) in *. set (v := p' :: b) in *. assert (repr_attrib u = "{"%char :: skipn 1 (repr_attrib u)) as U by reflexivity. assert (repr_attrib v = "{"%char :: skipn 1 (repr_attrib v)) as V by reflexivity.
    rewrite U, V in H. rewrite !app_assoc in H. apply split_brace in H.
    2: { intro I. apply in_app_or in I. destruct I as [I|[I|[I|[]]]]; [contradiction|discriminate I|discriminate I]. }
    2: { intro I. apply in_app_or in I. destruct I as [I|[I|[I|[]]]]; [contradiction|discriminate I|discriminate I]. }
    destruct H as (H1 & H2). apply app_inv_tail in H1. split; [now apply shown_text_inj|]. apply repr_attrib_inj; try assumption. rewrite U, V. now rewrite H2.
Qed.

(** what follows the lines of an element of depth d *)
Definition outside (d : nat) (r : str) : Prop := r = [] \/ exists n c r', r = spaces (2 * n + 1) ++ c :: r' /\ c <> " "%char /\ (n <= d)%nat.
Lemma outside_inside d n c r s : outside d r -> c <> " "%char -> (d < n)%nat -> r = spaces (2 * n + 1) ++ c :: s -> False.
Proof.
  intros [R|(m & c' & r' & R & C' & L)] C D H; subst r.
  - destruct (2 * n + 1)%nat eqn:E; [lia|cbn in H; discriminate H].
  - apply split_blanks in H; try assumption. lia.
Qed.
Lemma value_head d k : listed_value k -> exists c s, indent d ++ xtag k ++ $" = " ++ match xtext k with [] => $"None" | _ => xtext k end ++ [nl] = spaces (2 * d + 1) ++ c :: s /\ c <> " "%char.
Proof. intros [t x N _ _ _]. cbn [xtag xtext]. destruct (name_head t N) as (c & t' & E & C). subst t. rewrite indent_spaces. eexists. eexists. split; [cbn [app]; reflexivity|exact C]. Qed.
Lemma element_head d e : listable e -> exists c s, printElement d e = spaces (2 * d + 1) ++ c :: s /\ c <> " "%char.
Proof.
  intros [a x ks A T K|t a x ks N O A T K]; rewrite print_unfold, indent_spaces.
  - eexists. eexists. split; [rewrite <- !app_assoc; reflexivity|discriminate].
  - destruct (name_head t N) as (c & t' & E & C). subst t. eexists. eexists. split; [rewrite <- !app_assoc; cbn [app]; reflexivity|exact C].
Qed.
Lemma value_inj d k l r q : listed_value k -> listed_value l ->
  (indent d ++ xtag k ++ $" = " ++ match xtext k with [] => $"None" | _ => xtext k end ++ [nl]) ++ r = (indent d ++ xtag l ++ $" = " ++ match xtext l with [] => $"None" | _ => xtext l end ++ [nl]) ++ q -> k = l /\ r = q.
Proof.
  intros [t x [N1 N2] O1 O2 O3] [u y [M1 M2] P1 P2 P3] H. cbn [xtag xtext] in H. rewrite <- !app_assoc in H. apply app_inv_head in H.
  apply split_name in H; [|exact N2|exact M2|right; eexists; right; reflexivity|right; eexists; right; reflexivity]. destruct H as (E & H). subst u.
  apply app_inv_head in H. apply split_nl in H; [|destruct x; [intros [H'|[H'|[H'|[H'|[]]]]]; discriminate H'|exact O2]|destruct y; [intros [H'|[H'|[H'|[H'|[]]]]]; discriminate H'|exact P2]]. destruct H as (E & H). split; [|exact H]. f_equal.
  destruct x as [|c x], y as [|c' y]; [reflexivity|exfalso; apply P3; now symmetry|contradiction|exact E].
Qed.
Lemma values_inj d ks : forall ls r q, Forall listed_value ks -> Forall listed_value ls -> outside d r -> outside d q ->
  concat (map (fun tt => indent (S d) ++ fst tt ++ $" = " ++ (match snd tt with [] => $"None" | _ => snd tt end) ++ [nl]) (map (fun i => (xtag i, xtext i)) ks)) ++ r =
  concat (map (fun tt => indent (S d) ++ fst tt ++ $" = " ++ (match snd tt with [] => $"None" | _ => snd tt end) ++ [nl]) (map (fun i => (xtag i, xtext i)) ls)) ++ q -> ks = ls /\ r = q.
Proof.
  induction ks as [|k ks IH]; intros [|l ls] r q K L R Q H; cbn [map concat fst snd] in H.
  - now split.
  - exfalso. inversion L as [|? ? L1 L2]; subst. destruct (value_head (S d) l L1) as (c & s & E & C). rewrite E in H. rewrite <- !app_assoc in H. cbn [app] in H. exact (outside_inside d (S d) c r _ R C (Nat.lt_succ_diag_r d) H).
  - exfalso. inversion K as [|? ? L1 L2]; subst. destruct (value_head (S d) k L1) as (c & s & E & C). rewrite E in H. rewrite <- !app_assoc in H. cbn [app] in H. exact (outside_inside d (S d) c q _ Q C (Nat.lt_succ_diag_r d) (eq_sym H)).
  - inversion K as [|? ? K1 K2]; subst. inversion L as [|? ? L1 L2]; subst. rewrite <- (app_assoc _ _ r), <- (app_assoc _ _ q) in H. apply value_inj in H; try assumption. destruct H as (E & H). subst l.
    destruct (IH ls r q K2 L2 R Q H) as (E & E'). subst. now split.
Qed.
Lemma same_refl e : same e e.
Proof. induction e as [t a x ks IH] using xml_ind'. constructor; [now left|]. induction IH; constructor; assumption. Qed.
Lemma same_all ks : Forall2 same ks ks.
Proof. induction ks; constructor; [apply same_refl|assumption]. Qed.
Lemma line_one_line t x a : one_line t -> simple_text x -> simple_attributes a -> forall d, one_line (indent d ++ t ++ shown_text x ++ shown_attrib a).
Proof. intros T X A d. rewrite indent_spaces. apply one_line_app; [apply one_line_spaces|]. apply one_line_app; [exact T|]. apply one_line_app; [now apply shown_text_one_line|now apply shown_attrib_one_line]. Qed.
Lemma optical_name : a_name $"optical".
Proof. split; [discriminate|]. intros c I. assert (forallb (fun c => negb (existsb (ceqb c) [" "%char; ":"%char; nl])) $"optical" = true) as H by reflexivity. rewrite forallb_forall in H. specialize (H c I). intro I2. apply Bool.negb_true_iff in H. assert (existsb (ceqb c) [" "%char; ":"%char; nl] = true) as X by (apply existsb_exists; exists c; split; [exact I2|apply ceqb_refl]). congruence. Qed.
Lemma print_inj e : forall f d r q, listable e -> listable f -> outside d r -> outside d q -> printElement d e ++ r = printElement d f ++ q -> same e f /\ r = q.
Proof.
  induction e as [t a x ks IH] using xml_ind'. intros [u b y ls] d r q L M R Q H.
  assert (a_name t /\ simple_attributes a /\ simple_text x) as (NT & AT & XT) by (inversion L; subst; [split; [apply optical_name|now split]|split; [assumption|now split]]).
  assert (a_name u /\ simple_attributes b /\ simple_text y) as (NU & AU & XU) by (inversion M; subst; [split; [apply optical_name|now split]|split; [assumption|now split]]).
  rewrite !print_unfold, <- (app_assoc _ _ r), <- (app_assoc _ _ q) in H. rewrite <- (app_assoc [nl] _ r), <- (app_assoc [nl] _ q) in H.
  apply split_nl in H; [|apply line_one_line; [now apply name_one_line|assumption|assumption]|apply line_one_line; [now apply name_one_line|assumption|assumption]].
  destruct H as (H1 & H2). apply app_inv_head in H1. apply split_name in H1; [|apply NT|apply NU|apply after_shown|apply after_shown]. destruct H1 as (E & H1). subst u.
  apply shown_inj in H1; try assumption. destruct H1 as (EX & EA). subst b.
  inversion L as [a' x' ks' _ _ K|t' a' x' ks' _ O _ _ K]; subst.
  - inversion M as [a'' x'' ls' _ _ K'|t'' a'' x'' ls' _ O' _ _ K']; subst; [|now destruct O'].
    match type of H2 with context [if ?b then _ else _] => change b with true in H2 end. cbv iota in H2. unfold processOptical in H2. rewrite <- !(app_assoc (indent (S d))), <- !(app_assoc $"OPTICAL ELEMENT LIST FOUND"), <- !(app_assoc [nl]) in H2. do 3 apply app_inv_head in H2.
    destruct (values_inj d ks ls r q K K' R Q H2) as (E & E'). subst. split; [|reflexivity]. constructor; [exact EX|apply same_all].
  - inversion M as [a'' x'' ls' _ _ K'|t'' a'' x'' ls' _ _ _ _ K']; subst; [now destruct O|].
    destruct (streqb t $"optical") eqn:S; [apply streqb_eq in S; contradiction|].
    assert (Forall2 same ks ls /\ r = q) as (F & E); [|split; [now constructor|exact E]].
    clear - IH K K' R Q H2. revert ls K' H2. induction ks as [|k ks IHk]; intros [|l ls] K' H; cbn [map concat] in H.
    + split; [constructor|exact H].
    + exfalso. inversion K' as [|? ? L1 L2]; subst. destruct (element_head (S d) l L1) as (c & s & E & C). rewrite E in H. rewrite <- !app_assoc in H. cbn [app] in H. exact (outside_inside d (S d) c r _ R C (Nat.lt_succ_diag_r d) H).
    + exfalso. inversion K as [|? ? L1 L2]; subst. destruct (element_head (S d) k L1) as (c & s & E & C). rewrite E in H. rewrite <- !app_assoc in H. cbn [app] in H. exact (outside_inside d (S d) c q _ Q C (Nat.lt_succ_diag_r d) (eq_sym H)).
    + inversion IH as [|? ? I1 I2]; subst. inversion K as [|? ? K1 K2]; subst. inversion K' as [|? ? L1 L2]; subst. rewrite <- (app_assoc _ _ r), <- (app_assoc _ _ q) in H.
      assert (forall zs z, Forall listable zs -> outside d z -> outside (S d) (concat (map (printElement (S d)) zs) ++ z)) as W.
      { intros [|z1 zs] z Z ZR; cbn [map concat app].
        - destruct ZR as [ZR|(n & c & z' & E & C & LE)]; [now left|right; exists n, c, z'; split; [exact E|split; [exact C|lia]]].
        - inversion Z as [|? ? Z1 Z2]; subst. destruct (element_head (S d) z1 Z1) as (c & s & E & C). right. exists (S d). eexists. eexists. split; [rewrite E, <- !app_assoc; cbn [app]; reflexivity|split; [exact C|lia]]. }
      destruct (I1 l (S d) _ _ K1 L1 (W _ _ K2 R) (W _ _ L2 Q) H) as (E1 & H'). destruct (IHk I2 K2 ls L2 H') as (E2 & E3). split; [now constructor|exact E3].
Qed.
