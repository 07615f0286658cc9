(** Lemmas of C50, part 11: what is left of a header. *)
From Verif Require Import SchemaSpec PyStrProofs AdesMasterTables Schema XsdSpec SchemaSpec XsdFiles ValueSpec RecordProofs6 PropsRecord ValidSpec PropsPrint.
From Verif Require Import PyFloat SexVals XmlToMpc80 JustSpec JustProofs Line80Spec Mpc80 Mpc80Spec FileLines DocSpec Back80Spec Print80Spec Submit80Spec Return80Spec Return80Proofs10.
From Verif Require Back80Proofs12.
From Verif Require Import Return80Spec Mpc80Spec DocSpec.
Local Open Scope nat_scope.

(** * Keywords *)
Definition com (h : item) : bool := streqb (keyword h) $"COM".
Lemma com_heading h : com h = true -> heading h = [].
Proof. unfold com. intro E. apply streqb_eq in E. unfold heading, called. rewrite E. reflexivity. Qed.
Lemma foe_all hs : NoDup (map keyword (filter (fun h => negb (com h)) hs)) -> flat_map heading (first_of_each hs) = flat_map heading hs.
Proof.
  induction hs as [|h hs IH]; intro N; [reflexivity|]. cbn [first_of_each flat_map]. f_equal. cbn [filter] in N.
  assert (NoDup (map keyword (filter (fun h => negb (com h)) hs))) as N'. { destruct (negb (com h)); [now inversion N|exact N]. }
  rewrite <- (IH N'). assert (forall g, In g (first_of_each hs) -> streqb (keyword g) (keyword h) = true -> heading g = []) as K.
  { intros g I E. apply streqb_eq in E. destruct (com h) eqn:C.
    - apply com_heading. unfold com in *. now rewrite E.
    - cbn [negb] in N. inversion N as [|? ? NI _]; subst. elim NI. rewrite <- E. apply in_map. apply filter_In. split; [now apply Back80Proofs12.first_of_each_in|]. unfold com in *. rewrite E, C. reflexivity. }
  clear - K. induction (first_of_each hs) as [|g gs IH]; [reflexivity|]. cbn [filter flat_map]. destruct (streqb (keyword g) (keyword h)) eqn:E; cbn [negb flat_map].
  - rewrite (K g (or_introl eq_refl) E). cbn [app]. apply IH. intros x I. apply K. now right.
  - f_equal. apply IH. intros x I. apply K. now right.
Qed.
Definition kw (t : str) : str :=
  if streqb t $"comment" then $"COM" else if streqb t $"observatory" then $"COD" else if streqb t $"telescope" then $"TEL" else if streqb t $"submitter" then $"CON"
  else if streqb t $"observers" then $"OBS" else if streqb t $"measurers" then $"MEA" else [].
Definition with_line : list string := ["comment"; "observatory"; "telescope"; "submitter"; "observers"; "measurers"]%string.
Lemma kw_inj t t' : In t (map lit with_line) -> In t' (map lit with_line) -> kw t = kw t' -> t = t'.
Proof.
  intros I J. cbn [map with_line In] in I, J. repeat (destruct I as [<-|I]; [repeat (destruct J as [<-|J]; [first [reflexivity|intro E; vm_compute in E; discriminate E]|]); destruct J|]). destruct I.
Qed.
(** the records of the lines of one part *)
Definition part_records (k : xml) : list item := map header_read (heading80 k).
Lemma read_keyword p l : length p = 3 -> keyword (header_read (p ++ l)) = p.
Proof. intro L. unfold header_read. change (keyword (texts [($"headerKeyword", firstn 3 (p ++ l)); ($"headerValue", skipn 4 (firstn 80 (p ++ l))); ($"code", $"0")])) with (firstn 3 (p ++ l)). rewrite firstn_app, L, firstn_all2 by lia. cbn [Nat.sub firstn]. apply app_nil_r. Qed.
Lemma part_keyword k h : In h (part_records k) -> In (xtag k) (map lit with_line) /\ keyword h = kw (xtag k).
Proof.
  unfold part_records, heading80, is_tag, kw. intro I.
  assert (forall w xs, length $w = 3 -> In h (map header_read (map (fun x => ($w ++ $" ") ++ x) xs)) -> keyword h = $w) as M.
  { intros w xs L J. rewrite map_map in J. apply in_map_iff in J as (x & <- & _). rewrite <- app_assoc. now apply read_keyword. }
  destruct (streqb (xtag k) $"comment") eqn:E; [apply streqb_eq in E; split; [rewrite E; apply (in_map lit); vm_compute; tauto|exact (M "COM"%string _ eq_refl I)]|].
  destruct (streqb (xtag k) $"observatory") eqn:E0; [apply streqb_eq in E0; split; [rewrite E0; apply (in_map lit); vm_compute; tauto|exact (M "COD"%string _ eq_refl I)]|].
  destruct (streqb (xtag k) $"telescope") eqn:E1; [apply streqb_eq in E1; split; [rewrite E1; apply (in_map lit); vm_compute; tauto|exact (M "TEL"%string _ eq_refl I)]|].
  destruct (streqb (xtag k) $"submitter") eqn:E2; [apply streqb_eq in E2; split; [rewrite E2; apply (in_map lit); vm_compute; tauto|exact (M "CON"%string [_] eq_refl I)]|].
  destruct (streqb (xtag k) $"observers") eqn:E3; [apply streqb_eq in E3; split; [rewrite E3; apply (in_map lit); vm_compute; tauto|exact (M "OBS"%string [_] eq_refl I)]|].
  destruct (streqb (xtag k) $"measurers") eqn:E4; [apply streqb_eq in E4; split; [rewrite E4; apply (in_map lit); vm_compute; tauto|exact (M "MEA"%string [_] eq_refl I)]|].
  destruct I.
Qed.
Lemma part_one k : length (heading80 k) <= 1 \/ xtag k = $"comment" -> forall h t, part_records k = h ++ t -> length (filter (fun h => negb (com h)) (part_records k)) <= 1.
Proof.
  intros [L|T] _ _ _.
  - unfold part_records. destruct (heading80 k) as [|x [|y r]]; cbn [map filter length] in *; [lia| |lia]. destruct (negb _); cbn [length]; lia.
  - assert (forall h, In h (part_records k) -> com h = true) as A. { intros h I. destruct (part_keyword k h I) as [_ E]. unfold com. rewrite E, T. reflexivity. }
    clear - A. induction (part_records k) as [|h hs IH]; [cbn; lia|]. cbn [filter]. rewrite (A h (or_introl eq_refl)). cbn [negb]. apply IH. intros x I. apply A. now right.
Qed.
Lemma distinct ks : NoDup (map xtag ks) -> (forall k, In k ks -> length (heading80 k) <= 1 \/ xtag k = $"comment") ->
  NoDup (map keyword (filter (fun h => negb (com h)) (flat_map part_records ks))).
Proof.
  induction ks as [|k ks IH]; intros N A; [constructor|]. inversion N as [|? ? NI N']; subst. cbn [flat_map]. rewrite filter_app, map_app.
  assert (forall k h, In h (filter (fun h => negb (com h)) (part_records k)) -> In (xtag k) (map lit with_line) /\ keyword h = kw (xtag k)) as K by (intros k' h I; apply filter_In in I as [I _]; exact (part_keyword k' h I)).
  pose proof (part_one k (A k (or_introl eq_refl)) [] (part_records k) eq_refl) as L. pose proof (K k) as K1.
  assert (NoDup (map keyword (filter (fun h => negb (com h)) (flat_map part_records ks)))) as R. { apply IH; [exact N'|]. intros x I. apply A. now right. }
  destruct (filter (fun h => negb (com h)) (part_records k)) as [|h [|h' r]]; [exact R| |cbn [length] in L; lia]. cbn [map app]. constructor; [|exact R].
  destruct (K1 h (or_introl eq_refl)) as [T1 E1]. intro I. apply in_map_iff in I as (g & E & I). apply filter_In in I as [I C]. apply in_flat_map in I as (k' & Ik & I).
  destruct (part_keyword k' g I) as [T2 E2]. apply NI. rewrite (kw_inj (xtag k) (xtag k') T1 T2) by congruence. now apply in_map.
Qed.

(** * Texts *)
Lemma split_spaced ns : ns <> [] -> (forall n, In n ns -> ~ In ","%char n) -> splitc "," (commas ns) = spaced ns.
Proof.
  assert (forall n rest, ~ In ","%char n -> splitc "," (n ++ ","%char :: rest) = n :: splitc "," rest) as K.
  { induction n as [|c n IH]; intros rest N; cbn [app splitc]; [reflexivity|].
    replace (ceqb c ",") with false by (symmetry; apply ceqb_neq; intros ->; apply N; now left). rewrite IH; [reflexivity|]. intros I. apply N. now right. }
  assert (forall n, ~ In ","%char n -> splitc "," n = [n]) as K1.
  { induction n as [|c n IH]; intro N; [reflexivity|]. cbn [splitc]. replace (ceqb c ",") with false by (symmetry; apply ceqb_neq; intros ->; apply N; now left). rewrite IH; [reflexivity|]. intros I. apply N. now right. }
  assert (forall ns p, ns <> [] -> (forall n, In n ns -> ~ In ","%char n) -> ~ In ","%char p -> splitc "," (p ++ commas ns) = match ns with n :: r => (p ++ n) :: map (fun y => $" " ++ y) r | [] => [] end) as G.
  { induction ns0 as [|n r IH]; intros p NE A P; [now elim NE|]. pose proof (A n (or_introl eq_refl)) as Nn. destruct r as [|n' r].
    - cbn [commas map]. apply K1. intro I. apply in_app_or in I as [I|I]; auto.
    - change (commas (n :: n' :: r)) with (n ++ $", " ++ commas (n' :: r)). change ($", " ++ commas (n' :: r)) with (","%char :: $" " ++ commas (n' :: r)). rewrite app_assoc, K.
      + rewrite (IH $" "); [reflexivity|discriminate|intros x I; apply A; now right|intros [Q|[]]; discriminate Q].
      + intro I. apply in_app_or in I as [I|I]; auto. }
  intros NE A. destruct ns as [|n r]; [now elim NE|]. exact (G (n :: r) [] NE A (fun Q => Q)).
Qed.
Lemma value_read w x : length w = 3 -> length (w ++ $" " ++ x) <= 80 -> value (header_read (w ++ $" " ++ x)) = x.
Proof.
  intros L3 L. unfold header_read. change (value (texts [($"headerKeyword", firstn 3 (w ++ $" " ++ x)); ($"headerValue", skipn 4 (firstn 80 (w ++ $" " ++ x))); ($"code", $"0")])) with (skipn 4 (firstn 80 (w ++ $" " ++ x))).
  rewrite firstn_all2 by exact L. destruct w as [|a [|b [|c [|? ?]]]]; try discriminate L3. reflexivity.
Qed.
Lemma read_is w x : length w = 3 -> length (w ++ $" " ++ x) <= 80 -> header_read (w ++ $" " ++ x) = Back80Proofs12.hrec (w, x).
Proof.
  intros L3 L. unfold header_read, Back80Proofs12.hrec. rewrite firstn_all2 with (n := 80) by exact L. destruct w as [|a [|b [|c [|? ?]]]]; try discriminate L3. reflexivity.
Qed.
Lemma said_one t ks : NoDup (map xtag ks) -> In t (map xtag ks) -> exists k, In k ks /\ filter (fun k => existsb (fun t => is_tag t k) [t]) ks = [k].
Proof.
  induction ks as [|k ks IH]; intros N I; [destruct I|]. cbn [map] in N, I. inversion N as [|? ? NI N']; subst. cbn [filter existsb]. rewrite orb_false_r. destruct (is_tag t k) eqn:E.
  - exists k. split; [now left|]. f_equal. apply streqb_eq in E. rewrite E in NI. clear - NI. induction ks as [|x ks IH]; [reflexivity|]. cbn [filter existsb map] in *. rewrite orb_false_r. unfold is_tag at 1.
    destruct (streqb (xtag x) t) eqn:Q; [apply streqb_eq in Q; elim NI; now left|]. apply IH. intro I. apply NI. now right.
  - destruct I as [I|I]; [unfold is_tag in E; rewrite I, streqb_refl in E; discriminate E|]. destruct (IH N' I) as (x & J & Q). exists x. split; [now right|exact Q].
Qed.
Lemma said_most t ks : NoDup (map xtag ks) -> length (filter (fun k => existsb (fun t => is_tag t k) [t]) ks) <= 1.
Proof.
  intro N. destruct (in_dec (list_eq_dec Ascii.ascii_dec) t (map xtag ks)) as [I|I].
  - destruct (said_one t ks N I) as (k & _ & ->). cbn. lia.
  - clear N. induction ks as [|x ks IH]; [cbn; lia|]. cbn [filter existsb map] in *. rewrite orb_false_r. unfold is_tag at 1. destruct (streqb (xtag x) t) eqn:Q; [apply streqb_eq in Q; elim I; now left|]. apply IH. intro J. apply I. now right.
Qed.

(** * One part of a header *)
Definition shaped (k : xml) : Prop :=
  (xtag k = $"observatory" -> NoDup (map xtag (xkids k)) /\ In $"mpcCode" (map xtag (xkids k))) /\
  (xtag k = $"submitter" -> NoDup (map xtag (xkids k)) /\ In $"name" (map xtag (xkids k)) /\ forall x, In x (xkids k) -> In (xtag x) [$"name"; $"institution"]) /\
  (xtag k = $"telescope" -> NoDup (map xtag (xkids k))) /\
  (In (xtag k) [$"observers"; $"measurers"] -> xkids k <> [] /\ forall x, In x (xkids k) -> xtag x = $"name").
Lemma part_shaped F k : valid F submit_xsd k -> shaped k.
Proof.
  intro V. destruct (C41_header_parts F submit_xsd k (or_intror (or_introl eq_refl))) as (H1 & H2 & H3 & _ & H5 & _). split; [|split; [|split]].
  - intro T. apply (H1 T) in V as (_ & N & _ & M). split; [exact N|]. apply (M "mpcCode"%string "StationType"%string). now left.
  - intro T. apply (H2 T) in V as (_ & N & A & M). split; [exact N|]. split; [apply (M "name"%string "StringTypeW100"%string); now left|].
    intros x I. destruct (A x I) as (n & t & b & J & -> & _). destruct J as [J|[J|[]]]; injection J as <- <- <-; [now left|right; now left].
  - intro T. apply (H3 T) in V as (_ & N & _). exact N.
  - intro T. destruct H5 as [H5 _]; [destruct T as [T|[T|[]]]; rewrite <- T; [now left|right; now left]|]. destruct (H5 V) as (_ & N & A). split; [exact N|]. intros x I. now destruct (A x I).
Qed.
Lemma one_each k : shaped k -> length (heading80 k) <= 1 \/ xtag k = $"comment".
Proof.
  intros (H1 & _ & H3 & _). unfold heading80, is_tag. destruct (streqb (xtag k) $"comment") eqn:E; [right; now apply streqb_eq|left].
  destruct (streqb (xtag k) $"observatory") eqn:E0. { apply streqb_eq in E0. destruct (H1 E0) as [N I]. unfold said. rewrite !map_length. exact (said_most _ _ N). }
  destruct (streqb (xtag k) $"telescope") eqn:E1. { apply streqb_eq in E1. unfold said. rewrite !map_length. exact (said_most _ _ (H3 E1)). }
  repeat (match goal with |- context [if ?b then _ else _] => destruct b end; [cbn; lia|]). cbn. lia.
Qed.
Lemma said_names k : (forall x, In x (xkids k) -> xtag x = $"name") -> said [$"name"] k = map (fun x => strip (xtext x)) (xkids k).
Proof.
  intro A. unfold said. f_equal. induction (xkids k) as [|x xs IH]; [reflexivity|]. cbn [filter existsb]. unfold is_tag at 1. rewrite (A x (or_introl eq_refl)). change (streqb $"name" $"name" || false)%bool with true. cbv iota. f_equal. apply IH. intros y I. apply A. now right.
Qed.
Lemma said_both k : (forall x, In x (xkids k) -> In (xtag x) [$"name"; $"institution"]) -> said [$"name"; $"institution"] k = map (fun x => strip (xtext x)) (xkids k).
Proof.
  intro A. unfold said. f_equal. induction (xkids k) as [|x xs IH]; [reflexivity|]. cbn [filter existsb]. unfold is_tag at 1 2.
  replace (streqb (xtag x) $"name" || (streqb (xtag x) $"institution" || false))%bool with true. { f_equal. apply IH. intros y I. apply A. now right. }
  destruct (A x (or_introl eq_refl)) as [<-|[<-|[]]]; reflexivity.
Qed.
Lemma until_all x : ~ In ","%char x -> until_comma x = x /\ after_comma x = None.
Proof.
  induction x as [|c x IH]; intro N; [split; reflexivity|]. cbn [until_comma after_comma]. replace (ceqb c ",") with false by (symmetry; apply ceqb_neq; intros ->; apply N; now left).
  destruct IH as [-> ->]; [intro I; apply N; now right|]. now split.
Qed.
Lemma until_first x y : ~ In ","%char x -> until_comma (x ++ ","%char :: y) = x /\ after_comma (x ++ ","%char :: y) = Some y.
Proof.
  induction x as [|c x IH]; intro N; [split; reflexivity|]. cbn [app until_comma after_comma]. replace (ceqb c ",") with false by (symmetry; apply ceqb_neq; intros ->; apply N; now left).
  destruct IH as [-> ->]; [intro I; apply N; now right|]. now split.
Qed.
Lemma two_at_most (xs : list xml) : NoDup (map xtag xs) -> (forall x, In x xs -> In (xtag x) [$"name"; $"institution"]) -> length xs <= 2.
Proof. intros N A. rewrite <- (map_length xtag). apply (NoDup_incl_length (l' := [$"name"; $"institution"]) N). intros t I. apply in_map_iff in I as (x & <- & I). exact (A x I). Qed.
Definition comma_free_part (k : xml) : Prop := In (xtag k) [$"submitter"; $"observers"; $"measurers"] -> forall x, In x (said [$"name"; $"institution"] k) -> ~ In ","%char x.
Lemma part_kept k : shaped k -> comma_free_part k -> (forall l, In l (heading80 k) -> length l <= 80) -> flat_map heading (part_records k) = kept_part k.
Proof.
  intros (H1 & H2 & H3 & H4) CF SH. unfold comma_free_part in CF. unfold part_records. unfold heading80 in *. unfold kept_part. unfold is_tag in *.
  destruct (streqb (xtag k) $"comment") eqn:E.
  { apply streqb_eq in E. rewrite E. change (flat_map heading (map header_read (map (fun x => $"COM " ++ x) (said [$"line"] k))) = []). clear SH.
    induction (said [$"line"] k) as [|x xs IH]; [reflexivity|]. cbn [map flat_map]. rewrite IH, app_nil_r. apply com_heading. unfold com. change ($"COM " ++ x) with ($"COM" ++ $" " ++ x). now rewrite read_keyword. }
  destruct (streqb (xtag k) $"observatory") eqn:E0.
  { apply streqb_eq in E0. destruct (H1 E0) as [N I]. destruct (said_one $"mpcCode" (xkids k) N I) as (x & _ & Q). unfold said in *. rewrite Q in *. cbn [map flat_map] in *.
    change ($"COD " ++ strip (xtext x)) with ($"COD" ++ $" " ++ strip (xtext x)) in *. rewrite read_is; [reflexivity|reflexivity|apply SH; now left]. }
  destruct (streqb (xtag k) $"telescope") eqn:E1.
  { apply streqb_eq in E1. rewrite E1. change (flat_map heading (map header_read (map (fun x => $"TEL " ++ x) (said [$"name"] k))) =
      map (fun n => Elem $"telescope" [] [] [leaf $"name" n; leaf $"design" $"Unknown"; leaf $"aperture" $"9999"; leaf $"detector" $"Unknown"]) (said [$"name"] k)).
    revert SH. induction (said [$"name"] k) as [|x xs IH]; intro SH; [reflexivity|]. cbn [map flat_map]. rewrite IH by (intros l I; apply SH; now right).
    change ($"TEL " ++ x) with ($"TEL" ++ $" " ++ x). rewrite read_is; [reflexivity|reflexivity|]. exact (SH ($"TEL " ++ x) (or_introl eq_refl)). }
  destruct (streqb (xtag k) $"submitter") eqn:E2.
  { apply streqb_eq in E2. destruct (H2 E2) as (N & I & A). specialize (CF (or_introl (eq_sym E2))). pose proof (two_at_most (xkids k) N A) as L. rewrite (said_both k A) in *.
    change ($"CON " ++ commas (map (fun x => strip (xtext x)) (xkids k))) with ($"CON" ++ $" " ++ commas (map (fun x => strip (xtext x)) (xkids k))) in *.
    cbn [map flat_map]. rewrite read_is; [|reflexivity|apply SH; now left]. destruct (xkids k) as [|x [|y [|z r]]]; [destruct I| | |cbn [length] in L; lia]; cbn [map commas].
    - destruct (until_all (strip (xtext x))) as [U1 U2]; [apply CF; now left|]. unfold heading. change (keyword (Back80Proofs12.hrec ($"CON", strip (xtext x)))) with $"CON". change (value (Back80Proofs12.hrec ($"CON", strip (xtext x)))) with (strip (xtext x)).
      cbv zeta. rewrite U1, U2. reflexivity.
    - destruct (until_first (strip (xtext x)) ($" " ++ strip (xtext y))) as [U1 U2]; [apply CF; now left|]. unfold heading. set (v := strip (xtext x) ++ $", " ++ strip (xtext y)).
      change (keyword (Back80Proofs12.hrec ($"CON", v))) with $"CON". change (value (Back80Proofs12.hrec ($"CON", v))) with v. unfold v. change ($", " ++ strip (xtext y)) with (","%char :: $" " ++ strip (xtext y)). cbv zeta. rewrite U1, U2. reflexivity. }
  destruct (streqb (xtag k) $"observers") eqn:E3.
  { apply streqb_eq in E3. destruct H4 as [NE A]; [rewrite E3; now left|]. rewrite E3. cbn [orb]. specialize (CF (or_intror (or_introl (eq_sym E3)))). rewrite (said_both k) in CF by (intros x I; left; symmetry; exact (A x I)). rewrite <- (said_names k A) in CF.
    change ($"OBS " ++ commas (said [$"name"] k)) with ($"OBS" ++ $" " ++ commas (said [$"name"] k)) in *. cbn [map flat_map]. rewrite read_is; [|reflexivity|apply SH; now left].
    unfold heading. set (v := commas (said [$"name"] k)). change (keyword (Back80Proofs12.hrec ($"OBS", v))) with $"OBS". change (value (Back80Proofs12.hrec ($"OBS", v))) with v.
    change ([Elem $"observers" [] [] (names v)] = [Elem $"observers" [] [] (map (leaf $"name") (spaced (said [$"name"] k)))]). unfold names, v. rewrite split_spaced; [reflexivity| |exact CF].
    rewrite (said_names k A). destruct (xkids k); [now elim NE|discriminate]. }
  destruct (streqb (xtag k) $"measurers") eqn:E4.
  { apply streqb_eq in E4. destruct H4 as [NE A]; [rewrite E4; right; now left|]. rewrite E4. cbn [orb]. specialize (CF (or_intror (or_intror (or_introl (eq_sym E4))))). rewrite (said_both k) in CF by (intros x I; left; symmetry; exact (A x I)). rewrite <- (said_names k A) in CF.
    change ($"MEA " ++ commas (said [$"name"] k)) with ($"MEA" ++ $" " ++ commas (said [$"name"] k)) in *. cbn [map flat_map]. rewrite read_is; [|reflexivity|apply SH; now left].
    unfold heading. set (v := commas (said [$"name"] k)). change (keyword (Back80Proofs12.hrec ($"MEA", v))) with $"MEA". change (value (Back80Proofs12.hrec ($"MEA", v))) with v.
    change ([Elem $"measurers" [] [] (names v)] = [Elem $"measurers" [] [] (map (leaf $"name") (spaced (said [$"name"] k)))]). unfold names, v. rewrite split_spaced; [reflexivity| |exact CF].
    rewrite (said_names k A). destruct (xkids k); [now elim NE|discriminate]. }
  reflexivity.
Qed.

(** * The comments *)
Lemma coms_part k : (forall l, In l (heading80 k) -> length l <= 80) ->
  map (fun h => leaf $"line" (value h)) (filter (fun h => streqb (keyword h) $"COM") (part_records k)) = map (leaf $"line") (if is_tag $"comment" k then said [$"line"] k else []).
Proof.
  intro SH. destruct (is_tag $"comment" k) eqn:T.
  - unfold part_records, heading80 in *. rewrite T in *. induction (said [$"line"] k) as [|x xs IH]; [reflexivity|]. cbn [map filter]. change ($"COM " ++ x) with ($"COM" ++ $" " ++ x). rewrite read_keyword by reflexivity.
    change (streqb $"COM" $"COM") with true. cbv iota. cbn [map]. rewrite IH by (intros l I; apply SH; now right). f_equal. rewrite value_read; [reflexivity|reflexivity|]. exact (SH ($"COM " ++ x) (or_introl eq_refl)).
  - assert (forall h, In h (part_records k) -> streqb (keyword h) $"COM" = false) as A.
    { intros h I. destruct (part_keyword k h I) as [J ->]. unfold is_tag in T. cbn [map with_line In] in J. repeat (destruct J as [Q|J]; [rewrite <- Q in *; first [reflexivity|discriminate T]|]). destruct J. }
    induction (part_records k) as [|h hs IH]; [reflexivity|]. cbn [filter]. rewrite (A h (or_introl eq_refl)). apply IH. intros x I. apply A. now right.
Qed.
Lemma comments_kept ks : (forall k l, In k ks -> In l (heading80 k) -> length l <= 80) -> comments (flat_map part_records ks) = kept_comments ks.
Proof.
  intro SH. unfold comments, kept_comments.
  assert (map (fun h => leaf $"line" (value h)) (filter (fun h => streqb (keyword h) $"COM") (flat_map part_records ks)) = map (leaf $"line") (flat_map (fun k => if is_tag $"comment" k then said [$"line"] k else []) ks)) as Q.
  { induction ks as [|k ks IH]; [reflexivity|]. cbn [flat_map]. rewrite filter_app, !map_app. f_equal; [apply coms_part; intros l I; exact (SH k l (or_introl eq_refl) I)|]. apply IH. intros k' l I. apply SH. now right. }
  destruct (filter _ _) as [|c cs]; destruct (flat_map (fun k => if is_tag $"comment" k then said [$"line"] k else []) ks) as [|x xs]; [reflexivity|discriminate Q|discriminate Q|]. now rewrite Q.
Qed.
Lemma header_kept F b c d : valid F submit_xsd c -> xtag c = $"obsContext" -> xkids b = [c; d] -> xtag d = $"obsData" -> short_header b -> comma_free c ->
  DocSpec.context (map header_read (block_header80 b)) = kept_header c.
Proof.
  intros V T K Td SH CF. unfold short_header in SH. assert (block_header80 b = flat_map heading80 (xkids c)) as E.
  { unfold block_header80. rewrite K. cbn [flat_map]. unfold is_tag. rewrite T, Td. change (streqb $"obsContext" $"obsContext") with true. change (streqb $"obsData" $"obsContext") with false. cbv iota. now rewrite !app_nil_r. }
  rewrite E in *. apply (RecordProofs6.context_valid F submit_xsd c) in V; [|right; now left|exact T]. destruct V as (_ & N & A & _).
  assert (forall k, In k (xkids c) -> shaped k) as Sh by (intros k I; destruct (A k I) as [_ Vk]; exact (part_shaped F k Vk)).
  assert (forall k l, In k (xkids c) -> In l (heading80 k) -> length l <= 80) as SH' by (intros k l I J; apply SH; apply in_flat_map; now exists k).
  assert (map header_read (flat_map heading80 (xkids c)) = flat_map part_records (xkids c)) as ->.
  { clear. induction (xkids c) as [|k ks IH]; [reflexivity|]. cbn [flat_map]. now rewrite map_app, IH. }
  unfold DocSpec.context, kept_header. f_equal. rewrite foe_all by (apply distinct; [exact N|]; intros k I; apply one_each; auto). rewrite (comments_kept (xkids c) SH'). f_equal.
  unfold comma_free in CF. clear - Sh SH' CF. induction (xkids c) as [|k ks IH]; [reflexivity|]. cbn [flat_map]. rewrite flat_map_app. f_equal.
  - apply part_kept; [apply Sh; now left| |intros l I; exact (SH' k l (or_introl eq_refl) I)]. intros J x I. exact (CF k x (or_introl eq_refl) J I).
  - apply IH; [intros k0 x I; apply CF; now right|intros k0 I; apply Sh; now right|intros k0 l I; apply SH'; now right].
Qed.
