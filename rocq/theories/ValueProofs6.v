(** Lemmas about ValueSpec, part 6: which unpacked designations are in the schema's grammar. *)
From Verif Require Import PyStrProofs PackUtil PackSpec PackProofs12 PackProofs14.
From Verif Require Import IdSpec ValueSpec SexProofs1.
Local Open Scope Z_scope.

Definition perm_ok (s : str) : Prop := (length s <= 25)%nat /\ exists i, perm_shaped i /\ perm_written i = s /\ perm_short i.
Definition prov_ok (s : str) : Prop := (length s <= 25)%nat /\ exists i, prov_shaped i /\ prov_written i = s.
Definition trk_ok (s : str) : Prop := (1 <= length s <= 8)%nat /\ forallb trk_schema_char s = true.
Definition parts_ok (t : triple) : Prop :=
  let '(perm, prov, trk) := t in
  (forall s, perm = Some s -> perm_ok s) /\ (forall s, prov = Some s -> prov_ok s) /\ (forall s, trk = Some s -> s <> [] -> trk_ok s).
(** a provisional designation outside the grammar *)
Definition prov_bad (t : triple) : Prop :=
  exists s, snd (fst t) = Some s /\ strip s <> [] /\ (forall i, prov_shaped i -> prov_written i <> strip s) /\ ~ old_designation (strip s).

Lemma dec_digits n : 0 <= n -> digits (dec n).
Proof. intro H. split; [now apply dec_alldig|now apply dec_ne]. Qed.
Lemma dec_short n k : 0 <= n < 10 ^ Z.of_nat k -> (1 <= k)%nat -> (length (dec n) <= k)%nat.
Proof. intros H K. now apply dec_le_length. Qed.
Lemma year_four y : 1000 <= y <= 9999 -> four (dec y).
Proof. intro H. destruct (year_is4 y H) as ((a & b & c & d & E & Ha & Hb & Hc & Hd) & _). rewrite E. split; [cbn [forallb]; now rewrite Ha, Hb, Hc, Hd|reflexivity]. Qed.
Lemma nstr_digs n : 0 <= n -> forallb isdig (nstr n) = true.
Proof. intro H. unfold nstr. destruct (n =? 0); [reflexivity|now apply dec_alldig]. Qed.
Lemma nstr_short n : 0 <= n < 1000 -> (length (nstr n) <= 3)%nat.
Proof. intro H. unfold nstr. destruct (n =? 0); [cbn; lia|]. apply dec_short; [exact H|lia]. Qed.
Lemma nstr_ne n : n <> 0 -> nstr n = dec n. Proof. intro H. unfold nstr. now rewrite (proj2 (Z.eqb_neq n 0) H). Qed.
Lemma four_length y : four y -> length y = 4%nat. Proof. now intros []. Qed.

(** ** Forms in the grammar *)
Lemma number_ok n : 1 <= n <= 15396335 -> perm_ok (dec n).
Proof.
  intro H. split; [pose proof (dec_short n 8 ltac:(change (10 ^ Z.of_nat 8) with 100000000; lia) ltac:(lia)); lia|].
  exists (Number (dec n)). split; [apply dec_digits; lia|]. split; [reflexivity|exact I].
Qed.
Lemma ptext_ok o : (match o with Some n => 1 <= n <= 15396335 | None => True end) -> forall s, ptext o = Some s -> perm_ok s.
Proof. destruct o as [n|]; intros H s E; [|discriminate E]. injection E as <-. now apply number_ok. Qed.
Lemma designation_ok y h o w : 1000 <= y <= 9999 -> half_month h = true -> order_letter o = true -> forallb isdig w = true -> (length w <= 6)%nat ->
  prov_ok (dec y ++ $" " ++ [h; o] ++ w).
Proof.
  intros Y H O W L. pose proof (year_four y Y) as F4. split; [rewrite !app_length, (four_length _ F4); cbn [length lit list_ascii_of_string]; lia|].
  exists (Designation (dec y) h o w). split; [split; [exact F4|split; [exact H|split; [exact O|exact W]]]|reflexivity].
Qed.
Lemma survey_ok e1 e2 e3 e4 s1 s2 : is_survey s1 s2 = true -> isdig e1 = true -> isdig e2 = true -> isdig e3 = true -> isdig e4 = true ->
  prov_ok (survey_text e1 e2 e3 e4 s1 s2).
Proof.
  intros S E1 E2 E3 E4. split; [cbn; lia|]. exists (SurveyDes [e1; e2; e3; e4] s1 s2). split; [|reflexivity].
  split; [split; [cbn [forallb]; now rewrite E1, E2, E3, E4|reflexivity]|exact S].
Qed.
Lemma ct_in t : incls k_ct t = true -> In t ["A"; "D"; "C"; "P"; "X"]%char.
Proof.
  intro H. assert (forall c, implb (incls k_ct c) (existsb (ceqb c) ["A"; "D"; "C"; "P"; "X"]%char) = true) as S by (apply forall_ascii; vm_compute; reflexivity).
  specialize (S t). rewrite H in S. cbn [implb] in S. apply existsb_exists in S as (x & Hx & E). apply ceqb_eq in E. now subst x.
Qed.
Lemma hm_up h : half_month h = true -> isupper h = true.
Proof. intro H. unfold half_month in H. apply andb_prop in H as [H _]. apply andb_prop in H as [H _]. exact H. Qed.
Lemma comet_ok t y h o w f : incls k_ct t = true -> 1000 <= y <= 9999 -> half_month h = true -> capital o -> forallb isdig w = true -> (length w <= 6)%nat -> capital f ->
  prov_ok ([t] ++ $"/" ++ dec y ++ $" " ++ [h] ++ letter_of o ++ w ++ match f with Some c => $"-" ++ [c] | None => [] end).
Proof.
  intros T Y H O W L Fc. pose proof (year_four y Y) as F4. split.
  - rewrite !app_length, (four_length _ F4). destruct o, f; cbn [length lit list_ascii_of_string letter_of app]; lia.
  - exists (CometDes t (dec y) h o w f). split; [|reflexivity]. split; [now apply ct_in|]. split; [exact F4|]. split; [now apply hm_up|]. auto.
Qed.
Lemma pd_in t : incls k_pd t = true -> In t ["I"; "P"; "D"]%char.
Proof.
  intro H. assert (forall c, implb (incls k_pd c) (existsb (ceqb c) ["I"; "P"; "D"]%char) = true) as S by (apply forall_ascii; vm_compute; reflexivity).
  specialize (S t). rewrite H in S. cbn [implb] in S. apply existsb_exists in S as (x & Hx & E). apply ceqb_eq in E. now subst x.
Qed.
Lemma cometnum_ok n t f : 1 <= n <= 9999 -> incls k_pd t = true -> forallb isupper f = true -> (length f <= 2)%nat ->
  perm_ok (dec n ++ [t] ++ match f with [] => [] | _ => $"-" ++ f end).
Proof.
  intros Hn T Fu Fl. split.
  - pose proof (dec_short n 4 ltac:(change (10 ^ Z.of_nat 4) with 10000; lia) ltac:(lia)). rewrite !app_length. destruct f; cbn [length lit list_ascii_of_string app] in *; lia.
  - exists (NumberedComet (dec n) t f). split; [|split; [reflexivity|exact I]]. split; [apply dec_digits; lia|]. split; [now apply pd_in|]. auto.
Qed.
Lemma cnum_ok num t suf f : (match num with Some n => 1 <= n <= 9999 /\ incls k_pd t = true | None => True end) -> forallb isupper f = true -> (length f <= 2)%nat ->
  suf = match f with [] => [] | _ => $"-" ++ f end -> forall s, cnum num t suf = Some s -> perm_ok s.
Proof. destruct num as [n|]; intros H Fu Fl -> s E; [|discriminate E]. injection E as <-. destruct H. now apply cometnum_ok. Qed.
Lemma planet_name q name : planet q = Some name -> In name [$"Mars"; $"Jupiter"; $"Saturn"; $"Uranus"; $"Neptune"].
Proof.
  unfold planet. destruct (ceqb q "J"); [intros [= <-]; right; now left|]. destruct (ceqb q "S"); [intros [= <-]; right; right; now left|].
  destruct (ceqb q "U"); [intros [= <-]; right; right; right; now left|]. destruct (ceqb q "N"); [intros [= <-]; right; right; right; right; now left|]. intros [=].
Qed.
Lemma moon_ok q name n : planet q = Some name -> 1 <= n <= 999 -> perm_ok (name ++ $" " ++ dec n).
Proof.
  intros Q Hn. apply planet_name in Q. pose proof (dec_short n 3 ltac:(change (10 ^ Z.of_nat 3) with 1000; lia) ltac:(lia)) as L. split.
  - rewrite !app_length. assert (length name <= 7)%nat by (destruct Q as [<-|[<-|[<-|[<-|[<-|[]]]]]]; cbn; lia). cbn [length lit list_ascii_of_string]. lia.
  - exists (Moon name (dec n)). split; [split; [exact Q|apply dec_digits; lia]|]. split; [reflexivity|exact L].
Qed.
Lemma pl_in p : incls k_pl p = true -> In p ["M"; "J"; "S"; "U"; "N"]%char.
Proof.
  intro H. assert (forall c, implb (incls k_pl c) (existsb (ceqb c) ["M"; "J"; "S"; "U"; "N"]%char) = true) as S by (apply forall_ascii; vm_compute; reflexivity).
  specialize (S p). rewrite H in S. cbn [implb] in S. apply existsb_exists in S as (x & Hx & E). apply ceqb_eq in E. now subst x.
Qed.
Lemma moonprov_ok y p n : 1000 <= y <= 9999 -> incls k_pl p = true -> 1 <= n <= 999 -> prov_ok ($"S/" ++ dec y ++ $" " ++ [p] ++ $" " ++ nstr n).
Proof.
  intros Y P Hn. rewrite (nstr_ne n) by lia. pose proof (year_four y Y) as F4. pose proof (dec_short n 3 ltac:(change (10 ^ Z.of_nat 3) with 1000; lia) ltac:(lia)) as L. split.
  - rewrite !app_length, (four_length _ F4). cbn [length lit list_ascii_of_string]. lia.
  - exists (MoonDes (dec y) p (dec n)). split; [|reflexivity]. split; [exact F4|]. split; [now apply pl_in|apply dec_digits; lia].
Qed.
Lemma trk_ok_of s : (1 <= length s <= 8)%nat -> forallb trk_char s = true -> trk_ok s.
Proof.
  intros L H. split; [exact L|]. rewrite forallb_forall in *. intros c Hc. unfold trk_schema_char. now rewrite (H c Hc).
Qed.

(** ** Forms outside the grammar *)
Lemma app_inv {A} (a b c d : list A) : length a = length c -> a ++ b = c ++ d -> a = c /\ b = d.
Proof.
  revert c. induction a as [|x a IH]; intros [|y c] L E; try discriminate L; [auto|]. injection L as L. injection E as -> E. destruct (IH c L E) as [-> ->]. auto.
Qed.
Lemma four_head y r : four y -> exists c t, y ++ r = c :: t /\ isdig c = true.
Proof. intros [D L]. destruct y as [|c y]; [discriminate L|]. exists c, (y ++ r). split; [reflexivity|]. cbn [forallb] in D. now apply andb_prop in D as [D _]. Qed.
Lemma short_no_four y r y' r' : 0 <= y < 1000 -> four y' -> dec y ++ $" " ++ r = y' ++ r' -> False.
Proof.
  intros Y [D L] E. pose proof (dec_short y 3 Y ltac:(lia)) as S.
  assert (In " "%char y') as I.
  { assert (firstn 4 (dec y ++ $" " ++ r) = y') as E2.
    { rewrite E, firstn_app, L, Nat.sub_diag. change (firstn 0 r') with (@nil ascii). rewrite app_nil_r. rewrite <- L. apply firstn_all. }
    rewrite <- E2. change ($" " ++ r) with (" "%char :: r). clear - S. set (a := dec y) in *. clearbody a.
    rewrite firstn_app. apply in_or_app. right. destruct (4 - length a)%nat as [|k] eqn:K; [lia|]. now left. }
  rewrite forallb_forall in D. discriminate (D _ I).
Qed.
Lemma lstrip_keep c v : pyspace c = false -> forall u, lstrip (u ++ c :: v) = lstrip u ++ c :: v.
Proof. intros H u. induction u as [|x u IH]; cbn [app lstrip]; [now rewrite H|]. destruct (pyspace x); [exact IH|reflexivity]. Qed.
Lemma strip_keep a0 a c r : pyspace a0 = false -> pyspace c = false -> strip ((a0 :: a) ++ c :: r) = (a0 :: a) ++ c :: rstrip r.
Proof.
  intros H0 H. unfold strip. cbn [app]. rewrite (lstrip_nospace a0 _ H0). unfold rstrip. change (a0 :: a ++ c :: r) with ((a0 :: a) ++ c :: r).
  rewrite rev_app_distr. change (rev (c :: r)) with (rev r ++ [c]). rewrite <- app_assoc. cbn [app]. rewrite (lstrip_keep c _ H). rewrite rev_app_distr.
  change (rev (c :: rev (a0 :: a))) with (rev (rev (a0 :: a)) ++ [c]). rewrite rev_involutive, <- app_assoc. reflexivity.
Qed.
Lemma up_space c : isupper c = true -> pyspace c = false. Proof. revert c. apply implf_ascii. vm_compute. reflexivity. Qed.
Lemma interstellar_bad r p q : prov_bad (p, Some ([("I"%char)] ++ $"/" ++ r), q).
Proof.
  eexists. split; [reflexivity|]. change ([("I"%char)] ++ $"/" ++ r) with ((["I"%char]) ++ "/"%char :: r). rewrite (strip_keep "I" [] "/" r eq_refl eq_refl).
  generalize (rstrip r). clear r. intro r. split; [discriminate|]. split.
  - intros i Hi. destruct i as [y h o w|y s1 s2|t y h o w f|y pl w|y b w]; cbn [prov_shaped prov_written] in *.
    + destruct Hi as (Hy & _). destruct (four_head y ($" " ++ [h; o] ++ w) Hy) as (c & t & E & D). rewrite E. intro X. injection X as -> _. discriminate D.
    + destruct Hi as (Hy & _). destruct (four_head y ($" " ++ [s1] ++ $"-" ++ [s2]) Hy) as (c & t & E & D). rewrite E. intro X. injection X as -> _. discriminate D.
    + destruct Hi as (Ht & _). intro X. apply (f_equal (hd " "%char)) in X. cbn [app hd lit list_ascii_of_string] in X. subst t. destruct Ht as [K|[K|[K|[K|[K|[]]]]]]; discriminate K.
    + intro X. discriminate X.
    + intro X. discriminate X.
  - intros (c & d & e & h & o & E & _). discriminate E.
Qed.
Lemma short_year_bad t y h r p q : isupper t = true -> 0 <= y < 1000 -> pyspace h = false -> prov_bad (p, Some ([t] ++ $"/" ++ dec y ++ $" " ++ h :: r), q).
Proof.
  intros T Y Hh. eexists. split; [reflexivity|]. replace ([t] ++ $"/" ++ dec y ++ $" " ++ h :: r) with ((t :: $"/" ++ dec y ++ $" ") ++ h :: r) by (cbn [app]; now rewrite <- !app_assoc).
  rewrite (strip_keep t _ h r (up_space _ T) Hh). generalize (rstrip r). clear r. intro r.
  replace ((t :: $"/" ++ dec y ++ $" ") ++ h :: r) with ([t] ++ $"/" ++ dec y ++ $" " ++ h :: r) by (cbn [app]; now rewrite <- !app_assoc).
  split; [discriminate|]. split.
  - intros i Hi. destruct i as [y' h' o w|y' s1 s2|t' y' h' o w f|y' pl w|y' b w]; cbn [prov_shaped prov_written] in *.
    + destruct Hi as (Hy & _). destruct (four_head y' ($" " ++ [h'; o] ++ w) Hy) as (c & x & E & D). rewrite E. intro X. injection X as -> _. rewrite (up_nodig _ T) in D. discriminate D.
    + destruct Hi as (Hy & _). destruct (four_head y' ($" " ++ [s1] ++ $"-" ++ [s2]) Hy) as (c & x & E & D). rewrite E. intro X. injection X as -> _. rewrite (up_nodig _ T) in D. discriminate D.
    + destruct Hi as (_ & Hy & _). intro X. cbn [app lit list_ascii_of_string] in X. injection X as _ X. symmetry in X. exact (short_no_four y _ y' _ Y Hy X).
    + destruct Hi as (Hy & _). intro X. cbn [app lit list_ascii_of_string] in X. injection X as _ X. symmetry in X. exact (short_no_four y _ y' _ Y Hy X).
    + destruct Hi as (Hy & _). intro X. cbn [app lit list_ascii_of_string] in X. injection X as _ X. symmetry in X. exact (short_no_four y _ y' _ Y Hy X).
  - intros (c & d & e & h' & o & E & Hc & _). cbn [app lit list_ascii_of_string] in E. injection E as _ E _. subst c. destruct Hc as [H|[H|[]]]; discriminate H.
Qed.
Lemma no_count_bad y pl p q : 1000 <= y <= 9999 -> incls k_pl pl = true -> prov_bad (p, Some ($"S/" ++ dec y ++ $" " ++ [pl] ++ $" " ++ []), q).
Proof.
  intros Y P. eexists. split; [reflexivity|]. pose proof (year_four y Y) as F4.
  assert (pyspace pl = false) as Sp by (clear -P; revert pl P; apply implf_ascii; vm_compute; reflexivity).
  replace ($"S/" ++ dec y ++ $" " ++ [pl] ++ $" " ++ []) with (("S"%char :: $"/" ++ dec y ++ $" ") ++ pl :: $" ") by (cbn [app lit list_ascii_of_string]; now rewrite <- !app_assoc).
  rewrite (strip_keep "S" _ pl _ eq_refl Sp). change (rstrip $" ") with (@nil ascii).
  replace (("S"%char :: $"/" ++ dec y ++ $" ") ++ [pl]) with ($"S/" ++ dec y ++ $" " ++ [pl]) by (cbn [app lit list_ascii_of_string]; now rewrite <- !app_assoc).
  split; [discriminate|]. split.
  - intros i Hi. destruct i as [y' h o w|y' s1 s2|t' y' h o w f|y' pl' w|y' b w]; cbn [prov_shaped prov_written] in *.
    + destruct Hi as (Hy & _). destruct (four_head y' ($" " ++ [h; o] ++ w) Hy) as (c & x & E & D). rewrite E. intro X. injection X as -> _. discriminate D.
    + destruct Hi as (Hy & _). destruct (four_head y' ($" " ++ [s1] ++ $"-" ++ [s2]) Hy) as (c & x & E & D). rewrite E. intro X. injection X as -> _. discriminate D.
    + destruct Hi as (Ht & _). intro X. apply (f_equal (hd " "%char)) in X. cbn [app hd lit list_ascii_of_string] in X. subst t'. destruct Ht as [K|[K|[K|[K|[K|[]]]]]]; discriminate K.
    + destruct Hi as (Hy & _ & _ & N). intro X. cbn [app lit list_ascii_of_string] in X. injection X as X. apply app_inv in X as [_ X]; [|now rewrite (four_length _ Hy), (four_length _ F4)].
      discriminate X.
    + destruct Hi as (Hy & _). intro X. cbn [app lit list_ascii_of_string] in X. injection X as X. apply app_inv in X as [_ X]; [|now rewrite (four_length _ Hy), (four_length _ F4)].
      apply (f_equal (fun s => hd " "%char (tl s))) in X. cbn [app hd tl] in X. subst pl. discriminate P.
  - intros (c & d & e & h & o & E & _). discriminate E.
Qed.
