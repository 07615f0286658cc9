(** Lemmas of C53, part 1: strings and numbers. *)
From Verif Require Import PyStrProofs JsonProofs1.
From Verif Require Import Json JsonText JsonTextSpec.
Local Open Scope nat_scope.

(** * Characters *)
Lemma char_number c : char_of (number_of c) = c. Proof. apply Ascii.ascii_N_embedding. Qed.
Lemma quote_char : quote = char_of 34. Proof. reflexivity. Qed.
Lemma bslash_char : bslash = char_of 92. Proof. reflexivity. Qed.
Lemma not_quote c : number_of c <> 34%N -> ceqb c quote = false.
Proof. intro H. destruct (ceqb c quote) eqn:E; [|reflexivity]. apply Ascii.eqb_eq in E. subst c. now elim H. Qed.
Lemma not_bslash c : number_of c <> 92%N -> ceqb c bslash = false.
Proof. intro H. destruct (ceqb c bslash) eqn:E; [|reflexivity]. apply Ascii.eqb_eq in E. subst c. now elim H. Qed.
Lemma hex_val a i : hex_digit a i -> hexval a = Some (N.of_nat i) /\ i < 16.
Proof.
  intros [H|H]; (do 16 (destruct i as [|i]; [injection H as <-; split; [reflexivity|apply Nat.leb_le; reflexivity]|]); destruct i; discriminate H).
Qed.
Definition hex_ok (a : ascii) : bool :=
  match hexval a with
  | None => true
  | Some n => let f l := match nth_error l (N.to_nat n) with Some c => ceqb c a | None => false end in f $digits16 || f $digits16_upper
  end.
Lemma val_hex a n : hexval a = Some n -> hex_digit a (N.to_nat n).
Proof.
  intro H. assert (hex_ok a = true) as O by (revert a H; intros a _; revert a; apply forall_ascii; vm_compute; reflexivity).
  unfold hex_ok in O. rewrite H in O. apply orb_prop in O as [O|O]; [left|right];
  (destruct (nth_error _ (N.to_nat n)) as [c|]; [|discriminate O]; apply Ascii.eqb_eq in O; now subst).
Qed.
Lemma hex4_low a b i j : hex_digit a i -> hex_digit b j -> hex4 "0" "0" a b = Some (N.of_nat (16 * i + j)) /\ (N.of_nat (16 * i + j) <? 256)%N = true.
Proof.
  intros H1 H2. apply hex_val in H1 as [H1 L1]. apply hex_val in H2 as [H2 L2]. unfold hex4. rewrite H1, H2. change (hexval "0") with (Some 0%N). cbv iota. split.
  - f_equal. lia.
  - apply N.ltb_lt. lia.
Qed.
Lemma hex4_zero h1 h2 h3 h4 n : hex4 h1 h2 h3 h4 = Some n -> (n < 256)%N -> exists i j, h1 = "0"%char /\ h2 = "0"%char /\ hex_digit h3 i /\ hex_digit h4 j /\ n = N.of_nat (16 * i + j).
Proof.
  unfold hex4. destruct (hexval h1) as [a|] eqn:E1; [|discriminate]. destruct (hexval h2) as [b|] eqn:E2; [|discriminate]. destruct (hexval h3) as [c|] eqn:E3; [|discriminate]. destruct (hexval h4) as [d|] eqn:E4; [|discriminate].
  intros H L. assert (4096 * a + 256 * b + 16 * c + d = n)%N as <- by congruence. clear H. assert (a = 0%N) as -> by lia. assert (b = 0%N) as -> by lia.
  assert (forall h, hexval h = Some 0%N -> h = "0"%char) as Z.
  { intros h Hh. apply val_hex in Hh. destruct Hh as [Hh|Hh]; injection Hh as <-; reflexivity. }
  exists (N.to_nat c), (N.to_nat d). split; [now apply Z|]. split; [now apply Z|]. split; [now apply val_hex|]. split; [now apply val_hex|]. lia.
Qed.
(** * Strings *)
Lemma short_cases e x : short_escape e = Some x -> written x [bslash; e].
Proof.
  unfold short_escape. intro H.
  destruct (ceqb e quote) eqn:Q1; [apply Ascii.eqb_eq in Q1; injection H as <-; subst; exact w_quote|].
  destruct (ceqb e bslash) eqn:Q2; [apply Ascii.eqb_eq in Q2; injection H as <-; subst; exact w_backslash|].
  destruct (ceqb e "/") eqn:Q3; [apply Ascii.eqb_eq in Q3; injection H as <-; subst; apply (w_short "/" 47); do 5 right; now left|].
  destruct (ceqb e "b") eqn:Q4; [apply Ascii.eqb_eq in Q4; injection H as <-; subst; apply (w_short "b" 8); now left|].
  destruct (ceqb e "f") eqn:Q5; [apply Ascii.eqb_eq in Q5; injection H as <-; subst; apply (w_short "f" 12); do 3 right; now left|].
  destruct (ceqb e "n") eqn:Q6; [apply Ascii.eqb_eq in Q6; injection H as <-; subst; apply (w_short "n" 10); do 2 right; now left|].
  destruct (ceqb e "r") eqn:Q7; [apply Ascii.eqb_eq in Q7; injection H as <-; subst; apply (w_short "r" 13); do 4 right; now left|].
  destruct (ceqb e "t") eqn:Q8; [apply Ascii.eqb_eq in Q8; injection H as <-; subst; apply (w_short "t" 9); do 1 right; now left|discriminate H].
Qed.
Lemma scan_written c w r : written c w -> scanstring (w ++ r) = (do (t, r') <- scanstring r; Ok (c :: t, r')).
Proof.
  intro H. destruct H as [c L Q B| | |e n I|a b i j Ha Hb].
  - cbn [app scanstring]. rewrite (not_quote c Q), (not_bslash c B). assert ((code c <? 32)%N = false) as -> by (apply N.ltb_ge; exact L). reflexivity.
  - reflexivity.
  - reflexivity.
  - destruct I as [I|[I|[I|[I|[I|[I|[]]]]]]]; injection I as <- <-; reflexivity.
  - destruct (hex4_low a b i j Ha Hb) as [E1 E2]. change ((backslash ++ $"u00" ++ [a; b]) ++ r) with (bslash :: "u"%char :: "0"%char :: "0"%char :: a :: b :: r). cbn [scanstring].
    change (ceqb bslash quote) with false. change (ceqb bslash bslash) with true. change (ceqb "u" "u") with true. cbv iota. rewrite E1, E2. reflexivity.
Qed.
Lemma scan_body s b : string_body s b -> forall r, scanstring (b ++ dquote ++ r) = Ok (s, r).
Proof.
  induction 1 as [|c w s b H _ IH]; intro r; [reflexivity|]. rewrite <- app_assoc, (scan_written c w _ H), IH. reflexivity.
Qed.
Lemma scan_string_complete s t : string_text s t -> exists t', t = quote :: t' /\ forall r, scanstring (t' ++ r) = Ok (s, r).
Proof. intros (b & B & ->). exists (b ++ dquote). split; [reflexivity|]. intro r. rewrite <- app_assoc. now apply scan_body. Qed.
Lemma scan_body_sound n : forall t s r, length t <= n -> scanstring t = Ok (s, r) -> exists b, string_body s b /\ t = b ++ dquote ++ r.
Proof.
  induction n as [|n IH]; intros t s r L H; [destruct t; [discriminate H|inversion L]|]. destruct t as [|c t]; [discriminate H|]. cbn [length] in L. apply le_S_n in L.
  cbn [scanstring] in H. destruct (ceqb c quote) eqn:Q.
  - apply Ascii.eqb_eq in Q. injection H as <- <-. subst c. exists []. split; [constructor|reflexivity].
  - destruct (ceqb c bslash) eqn:B.
    + apply Ascii.eqb_eq in B. subst c. destruct t as [|e t]; [discriminate H|]. cbn [length] in L. destruct (ceqb e "u") eqn:U.
      * apply Ascii.eqb_eq in U. subst e. destruct t as [|h1 [|h2 [|h3 [|h4 t]]]]; try discriminate H.
        destruct (hex4 h1 h2 h3 h4) as [m|] eqn:X; [|discriminate H]. destruct (m <? 256)%N eqn:M; [|discriminate H]. apply N.ltb_lt in M.
        destruct (scanstring t) as [[t' r']|] eqn:Sc; [|discriminate H]. cbn [rbind] in H. injection H as <- <-.
        apply IH in Sc as (b & Sb & ->); [|cbn [length] in L; lia]. destruct (hex4_zero _ _ _ _ _ X M) as (i & j & -> & -> & H3 & H4 & ->).
        exists ((backslash ++ $"u00" ++ [h3; h4]) ++ b). split; [constructor; [now apply w_hex|exact Sb]|reflexivity].
      * destruct (short_escape e) as [x|] eqn:X; [|discriminate H]. destruct (scanstring t) as [[t' r']|] eqn:Sc; [|discriminate H]. cbn [rbind] in H. injection H as <- <-.
        apply IH in Sc as (b & Sb & ->); [|lia]. exists ([bslash; e] ++ b). split; [constructor; [now apply short_cases|exact Sb]|reflexivity].
    + destruct (code c <? 32)%N eqn:Lo; [discriminate H|]. destruct (scanstring t) as [[t' r']|] eqn:Sc; [|discriminate H]. cbn [rbind] in H. injection H as <- <-.
      apply IH in Sc as (b & Sb & ->); [|exact L]. exists ([c] ++ b). split; [|reflexivity]. constructor; [|exact Sb]. apply w_plain.
      * now apply N.ltb_ge in Lo.
      * intro E. rewrite <- (char_number c), E in Q. discriminate Q.
      * intro E. rewrite <- (char_number c), E in B. discriminate B.
Qed.
Lemma scan_string_sound t s r : scanstring t = Ok (s, r) -> exists u, string_text s (quote :: u) /\ t = u ++ r.
Proof. intro H. apply (scan_body_sound (length t)) in H as (b & B & ->); [|apply le_n]. exists (b ++ dquote). split; [now exists b|now rewrite <- app_assoc]. Qed.
Lemma scan_shorter t s r : scanstring t = Ok (s, r) -> length r < length t.
Proof. intro H. apply (scan_body_sound (length t)) in H as (b & _ & ->); [|apply le_n]. rewrite !app_length. cbn [length dquote]. lia. Qed.
(** what json.dump writes *)
Definition escape_ok (c : ascii) : bool :=
  match escape c with
  | [d] => ceqb d c && negb (ceqb c quote) && negb (ceqb c bslash) && (32 <=? code c)%N
  | [b; e] => ceqb b bslash && match short_escape e with Some x => ceqb x c | None => false end
  | [b; u; z1; z2; h3; h4] => ceqb b bslash && ceqb u "u" && ceqb z1 "0" && ceqb z2 "0" &&
      match hex4 z1 z2 h3 h4 with Some n => (n =? code c)%N | None => false end
  | _ => false
  end.
Lemma escape_written c : written c (escape c).
Proof.
  assert (escape_ok c = true) as H by (revert c; apply forall_ascii; vm_compute; reflexivity). unfold escape_ok in H.
  destruct (escape c) as [|d [|e [|z1 [|z2 [|h3 [|h4 [|x l]]]]]]]; try discriminate H.
  - apply andb_prop in H as [H L]. apply andb_prop in H as [H B]. apply andb_prop in H as [E Q]. apply Ascii.eqb_eq in E. subst d. apply w_plain.
    + now apply N.leb_le.
    + intro E. rewrite <- (char_number c), E in Q. discriminate Q.
    + intro E. rewrite <- (char_number c), E in B. discriminate B.
  - apply andb_prop in H as [B H]. apply Ascii.eqb_eq in B. subst d. destruct (short_escape e) as [x|] eqn:X; [|discriminate H]. apply Ascii.eqb_eq in H. subst x. now apply short_cases.
  - apply andb_prop in H as [H X]. apply andb_prop in H as [H Z2]. apply andb_prop in H as [H Z1]. apply andb_prop in H as [B U]. apply Ascii.eqb_eq in B, U, Z1, Z2. subst d e z1 z2.
    destruct (hex4 "0" "0" h3 h4) as [n|] eqn:E; [|discriminate X]. apply N.eqb_eq in X. subst n.
    assert (code c < 256)%N as L by apply Ascii.N_ascii_bounded. destruct (hex4_zero _ _ _ _ _ E L) as (i & j & _ & _ & H3 & H4 & V).
    rewrite <- (char_number c). change (number_of c) with (code c). rewrite V. exact (w_hex h3 h4 i j H3 H4).
Qed.
Lemma dump_str_text s : string_text s (dump_str s).
Proof.
  exists (flat_map escape s). split; [|reflexivity]. induction s as [|c s IH]; [constructor|]. cbn [flat_map]. constructor; [apply escape_written|exact IH].
Qed.
(** * Numbers *)
(** what may follow a number *)
Definition stops (r : str) : bool :=
  match r with [] => true | c :: _ => negb (isdig c || ceqb c "." || ceqb c "e" || ceqb c "E") end.
Definition no_digit (r : str) : Prop := match r with [] => True | c :: _ => isdig c = false end.
Lemma span_app ds r : forallb isdig ds = true -> no_digit r -> span_digits (ds ++ r) = (ds, r).
Proof.
  induction ds as [|d ds IH]; intros H N.
  - destruct r as [|c r]; [reflexivity|]. cbn [app span_digits]. cbn [no_digit] in N. now rewrite N.
  - cbn [forallb] in H. apply andb_prop in H as [H1 H2]. cbn [app span_digits]. rewrite H1, (IH H2 N). reflexivity.
Qed.
Lemma span_spec s : forall a b, span_digits s = (a, b) -> s = a ++ b /\ forallb isdig a = true /\ no_digit b.
Proof.
  induction s as [|c s IH]; intros a b H; cbn [span_digits] in H; [assert (a = [] /\ b = []) as [-> ->] by (split; congruence); repeat split|].
  destruct (isdig c) eqn:D.
  - destruct (span_digits s) as [a' b'] eqn:E. destruct (IH a' b' eq_refl) as (-> & H1 & H2). assert (a = c :: a' /\ b = b') as [-> ->] by (split; congruence).
    split; [reflexivity|]. split; [cbn [forallb]; now rewrite D|exact H2].
  - assert (a = [] /\ b = c :: s) as [-> ->] by (split; congruence). split; [reflexivity|]. split; [reflexivity|exact D].
Qed.
Lemma stops_digit r : stops r = true -> no_digit r.
Proof. destruct r as [|c r]; [exact (fun _ => I)|]. cbn [stops no_digit]. destruct (isdig c); [intro H; discriminate H|reflexivity]. Qed.
Lemma fraction_app f r : fraction_part f -> no_digit r -> (forall r', r <> "."%char :: r') -> match_fraction (f ++ r) = (f, r).
Proof.
  intros [->|(ds & [Nd D] & ->)] N Np.
  - cbn [app]. destruct r as [|c r]; [reflexivity|]. cbn [match_fraction]. destruct (ceqb c ".") eqn:P; [|reflexivity]. apply Ascii.eqb_eq in P. subst c. now elim (Np r).
  - change (($"." ++ ds) ++ r) with ("."%char :: ds ++ r). cbn [match_fraction]. change (ceqb "." ".") with true. cbv iota. rewrite (span_app ds r D N). destruct ds; [now elim Nd|reflexivity].
Qed.
Lemma exponent_app e r : exponent_part e -> stops r = true -> match_exponent (e ++ r) = (e, r).
Proof.
  intros [->|(e0 & sg & ds & I & J & [Nd D] & ->)] Sr.
  - cbn [app]. destruct r as [|c r]; [reflexivity|]. cbn [match_exponent]. cbn [stops] in Sr. apply negb_true_iff in Sr. apply orb_false_iff in Sr as [Sr E2]. apply orb_false_iff in Sr as [_ E1]. rewrite E1, E2. reflexivity.
  - apply stops_digit in Sr. assert (exists c, e0 = [c] /\ (ceqb c "e" || ceqb c "E") = true) as (c & -> & C).
    { destruct I as [<-|[<-|[]]]; eexists; split; reflexivity. }
    replace (([c] ++ sg ++ ds) ++ r) with (c :: sg ++ ds ++ r) by (cbn [app]; now rewrite <- app_assoc). cbn [match_exponent]. rewrite C.
    assert (exists d ds', ds = d :: ds') as (d & ds' & Eds) by (destruct ds as [|d ds']; [now elim Nd|now exists d, ds']).
    assert ((ceqb d "-" || ceqb d "+") = false) as Ng.
    { rewrite Eds in D. cbn [forallb] in D. apply andb_prop in D as [D _]. clear -D. revert d D. apply (implf_ascii isdig (fun d => ceqb d "-" || ceqb d "+")). vm_compute. reflexivity. }
    pose proof (span_app ds r D Sr) as Sp. subst ds. cbn [app] in Sp. destruct J as [<-|[<-|[<-|[]]]].
    + cbn [app]. rewrite Ng, Sp. reflexivity.
    + change ($"+" ++ (d :: ds') ++ r) with ("+"%char :: d :: ds' ++ r). cbv beta iota. match goal with |- context [if ?b then _ else _] => replace b with true by reflexivity end. cbv beta iota zeta. rewrite Sp. reflexivity.
    + change ($"-" ++ (d :: ds') ++ r) with ("-"%char :: d :: ds' ++ r). cbv beta iota. match goal with |- context [if ?b then _ else _] => replace b with true by reflexivity end. cbv beta iota zeta. rewrite Sp. reflexivity.
Qed.
Lemma integer_app i r : integer_part i -> no_digit r -> match_integer (i ++ r) = Some (i, r).
Proof.
  intros [->|[[N D] Z]] Nr; [reflexivity|]. destruct i as [|c i]; [now elim N|]. cbn [app match_integer].
  destruct (ceqb c "0") eqn:Q; [apply Ascii.eqb_eq in Q; subst c; now elim Z|]. pose proof D as D'. cbn [forallb] in D'. apply andb_prop in D' as [D1 _]. rewrite D1.
  change (c :: i ++ r) with ((c :: i) ++ r). now rewrite (span_app _ r D Nr).
Qed.
(** the first character of a fraction or an exponent is no digit *)
Lemma fe_no_digit f e r : fraction_part f -> exponent_part e -> stops r = true -> no_digit (f ++ e ++ r).
Proof.
  intros [->|(ds & _ & ->)] E Sr; [|reflexivity]. destruct E as [->|(e0 & sg & ds & I & _ & _ & ->)]; [now apply stops_digit|].
  destruct I as [<-|[<-|[]]]; reflexivity.
Qed.
Lemma number_app l r : literal l -> stops r = true -> match_number (l ++ r) = Some (l, r).
Proof.
  intros (sg & i & f & e & Isg & Hi & Hf & He & ->) Sr. unfold match_number.
  assert (match_integer (i ++ f ++ e ++ r) = Some (i, f ++ e ++ r)) as Mi by (apply integer_app; [exact Hi|now apply fe_no_digit]).
  assert (match_fraction (f ++ e ++ r) = (f, e ++ r)) as Mf.
  { apply fraction_app; [exact Hf| |].
    - exact (fe_no_digit [] e r (or_introl eq_refl) He Sr).
    - intros r' Q. destruct He as [->|(e0 & s0 & ds & I & _ & _ & ->)].
      + cbn [app] in Q. rewrite Q in Sr. discriminate Sr.
      + destruct I as [<-|[<-|[]]]; discriminate Q. }
  pose proof (exponent_app e r He Sr) as Me.
  replace ((sg ++ i ++ f ++ e) ++ r) with (sg ++ i ++ f ++ e ++ r) by (now rewrite <- !app_assoc).
  assert (exists c i', i = c :: i' /\ ceqb c "-" = false) as (c & i' & Ei & Cm).
  { destruct Hi as [->|[[N D] _]]; [now exists "0"%char, []|]. destruct i as [|c i']; [now elim N|]. exists c, i'. split; [reflexivity|].
    cbn [forallb] in D. apply andb_prop in D as [D _]. clear -D. revert c D. apply (implf_ascii isdig (fun c => ceqb c "-")). vm_compute. reflexivity. }
  destruct Isg as [<-|[<-|[]]].
  - subst i. cbn [app] in *. rewrite Cm, Mi, Mf, Me. reflexivity.
  - change ($"-" ++ i ++ f ++ e ++ r) with ("-"%char :: i ++ f ++ e ++ r). cbv beta iota. change (ceqb "-" "-") with true. cbv beta iota. rewrite Mi, Mf, Me. reflexivity.
Qed.
Lemma integer_sound s i r : match_integer s = Some (i, r) -> s = i ++ r /\ integer_part i.
Proof.
  destruct s as [|c s]; [intro H; discriminate H|]. cbn [match_integer]. destruct (ceqb c "0") eqn:Q.
  - apply Ascii.eqb_eq in Q. subst c. intro H. assert (i = ["0"%char] /\ r = s) as [-> ->] by (split; congruence). split; [reflexivity|now left].
  - destruct (isdig c) eqn:D; [|intro H; discriminate H]. intro H. assert (span_digits (c :: s) = (i, r)) as E by congruence. clear H. pose proof E as E'. apply span_spec in E as (Es & Di & Nr).
    split; [exact Es|]. right. cbn [span_digits] in E'. rewrite D in E'. destruct (span_digits s) as [a b]. assert (i = c :: a) as -> by congruence.
    split; [split; [intro X; discriminate X|exact Di]|]. intro X. cbn [hd_error] in X. assert (c = "0"%char) as -> by congruence. discriminate Q.
Qed.
Lemma fraction_sound s f r : match_fraction s = (f, r) -> s = f ++ r /\ fraction_part f.
Proof.
  assert (forall f r, ([], s) = (f, r) -> s = f ++ r /\ fraction_part f) as Z.
  { intros f0 r0 H. assert (f0 = [] /\ r0 = s) as [-> ->] by (split; congruence). split; [reflexivity|now left]. }
  destruct s as [|c s]; [apply Z|]. cbn [match_fraction]. destruct (ceqb c ".") eqn:Q; [|apply Z]. apply Ascii.eqb_eq in Q. subst c.
  destruct (span_digits s) as [[|d ds] b] eqn:E; [apply Z|]. intro H. assert (f = "."%char :: d :: ds /\ r = b) as [-> ->] by (split; congruence).
  apply span_spec in E as (-> & D & _). split; [reflexivity|]. right. exists (d :: ds). split; [split; [intro X; discriminate X|exact D]|reflexivity].
Qed.
Lemma exponent_sound s e r : match_exponent s = (e, r) -> s = e ++ r /\ exponent_part e.
Proof.
  assert (forall e r, ([], s) = (e, r) -> s = e ++ r /\ exponent_part e) as Z.
  { intros f0 r0 H. assert (f0 = [] /\ r0 = s) as [-> ->] by (split; congruence). split; [reflexivity|now left]. }
  destruct s as [|c s]; [apply Z|]. cbn [match_exponent]. destruct (ceqb c "e" || ceqb c "E") eqn:Q; [|apply Z].
  assert (In [c] [$"e"; $"E"]) as Ic. { apply orb_prop in Q as [Q|Q]; apply Ascii.eqb_eq in Q; subst c; [now left|right; now left]. }
  set (sp := match s with g :: r0 => if ceqb g "-" || ceqb g "+" then ([g], r0) else ([], s) | [] => ([], s) end).
  assert (s = fst sp ++ snd sp /\ In (fst sp) [[]; $"+"; $"-"]) as [Es Is].
  { unfold sp. destruct s as [|g s0]; [split; [reflexivity|now left]|]. destruct (ceqb g "-" || ceqb g "+") eqn:G; [|split; [reflexivity|now left]]. split; [reflexivity|]. cbn [fst].
    apply orb_prop in G as [G|G]; apply Ascii.eqb_eq in G; subst g; [right; right; now left|right; now left]. }
  destruct sp as [sg s']. cbn [fst snd] in *. destruct (span_digits s') as [[|d ds] b] eqn:E; [apply Z|]. intro H.
  assert (e = c :: sg ++ d :: ds /\ r = b) as [-> ->] by (split; congruence). apply span_spec in E as (-> & D & _). split.
  - rewrite Es. cbn [app]. now rewrite <- app_assoc.
  - right. exists [c], sg, (d :: ds). split; [exact Ic|]. split; [exact Is|]. split; [split; [intro X; discriminate X|exact D]|reflexivity].
Qed.
Lemma number_sound s l r : match_number s = Some (l, r) -> s = l ++ r /\ literal l.
Proof.
  unfold match_number. set (sp := match s with c :: s' => if ceqb c "-" then ([c], s') else ([], s) | [] => ([], s) end).
  assert (s = fst sp ++ snd sp /\ In (fst sp) [[]; $"-"]) as [Es Is].
  { unfold sp. destruct s as [|c s']; [split; [reflexivity|now left]|]. destruct (ceqb c "-") eqn:Q; [|split; [reflexivity|now left]]. apply Ascii.eqb_eq in Q. subst c. split; [reflexivity|right; now left]. }
  destruct sp as [sg s1]. cbn [fst snd] in *. destruct (match_integer s1) as [[i s2]|] eqn:Mi; [|intro H; discriminate H].
  apply integer_sound in Mi as [-> Hi]. destruct (match_fraction s2) as [f s3] eqn:Mf. apply fraction_sound in Mf as [-> Hf]. destruct (match_exponent s3) as [e s4] eqn:Me. apply exponent_sound in Me as [-> He].
  intro H. assert (l = sg ++ i ++ f ++ e /\ r = s4) as [-> ->] by (split; congruence). split; [rewrite Es, <- !app_assoc; reflexivity|]. now exists sg, i, f, e.
Qed.
