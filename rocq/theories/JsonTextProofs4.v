(** Lemmas of C53, part 4: what json.dump writes, and line breaks. *)
From Verif Require Import PyStrProofs IdProofs5 JsonProofs1 JsonProofs2 JsonProofs3.
From Verif Require Import Json JsonSpec JsonText JsonTextSpec JsonTextProofs1 JsonTextProofs2 JsonTextProofs3.
Local Open Scope nat_scope.

Lemma json_ind' (P : json -> Prop) :
  P JNull -> (forall b, P (JBool b)) -> (forall s, P (JNum s)) -> (forall s, P (JStr s)) ->
  (forall l, Forall P l -> P (JList l)) -> (forall o, Forall (fun kv => P (snd kv)) o -> P (JObj o)) -> forall v, P v.
Proof.
  intros Hn Hb Hu Hs Hl Ho. fix F 1. intros [|b|s|s|l|o].
  - exact Hn.
  - apply Hb.
  - apply Hu.
  - apply Hs.
  - apply Hl. induction l as [|v l IH]; [constructor|constructor; [apply F|exact IH]].
  - apply Ho. induction o as [|[k v] o IH]; [constructor|constructor; [apply F|exact IH]].
Qed.

(** * Objects whose keys are different *)
Lemma keys_first ms : NoDup (map fst ms) -> first_keys ms = map fst ms.
Proof.
  induction ms as [|[k v] ms IH]; intro N; [reflexivity|]. cbn [map fst first_keys] in *. inversion_clear N as [|? ? N1 N2]. rewrite (IH N2). f_equal.
  clear -N1. induction (map fst ms) as [|x l IH]; [reflexivity|]. cbn [filter]. destruct (streqb x k) eqn:E.
  - apply streqb_eq in E. subst x. elim N1. now left.
  - cbn [negb]. f_equal. apply IH. intro I. apply N1. now right.
Qed.
Lemma last_none k ms : ~ In k (map fst ms) -> last_value k ms = None.
Proof.
  induction ms as [|[k' v] ms IH]; intro N; [reflexivity|]. cbn [last_value map fst] in *. rewrite IH; [|intro I; apply N; now right].
  destruct (streqb k' k) eqn:E; [|reflexivity]. apply streqb_eq in E. elim N. now left.
Qed.
Lemma last_in k v ms : NoDup (map fst ms) -> In (k, v) ms -> last_value k ms = Some v.
Proof.
  induction ms as [|[k' v'] ms IH]; intros N I; [destruct I|]. cbn [map fst last_value] in *. inversion_clear N as [|? ? N1 N2]. destruct I as [I|I].
  - assert (k' = k /\ v' = v) as [-> ->] by (split; congruence). rewrite (last_none k ms N1). now rewrite seq_refl.
  - now rewrite (IH N2 I).
Qed.
Lemma object_itself ms : NoDup (map fst ms) -> object_of ms ms.
Proof. intro N. split; [symmetry; now apply keys_first|]. intros k v I. now apply last_in. Qed.

(** * json.dump *)
Section Items.
Variable level : nat.
Fixpoint items (l : list json) : str :=
  match l with
  | [] => []
  | [w] => dump (S level) w
  | w :: l' => dump (S level) w ++ ","%char :: newline_indent (S level) ++ items l'
  end.
Fixpoint pairs (o : list (str * json)) : str :=
  match o with
  | [] => []
  | [(k, w)] => dump_str k ++ $": " ++ dump (S level) w
  | (k, w) :: o' => dump_str k ++ $": " ++ dump (S level) w ++ ","%char :: newline_indent (S level) ++ pairs o'
  end.
End Items.
Lemma dump_list level v l : dump level (JList (v :: l)) = "["%char :: newline_indent (S level) ++ items level (v :: l) ++ newline_indent level ++ $"]".
Proof. reflexivity. Qed.
Lemma dump_obj level kv o : dump level (JObj (kv :: o)) = "{"%char :: newline_indent (S level) ++ pairs level (kv :: o) ++ newline_indent level ++ $"}".
Proof. destruct kv. reflexivity. Qed.
Lemma spaces_in n c : In c (spaces n) -> c = " "%char.
Proof. induction n as [|n IH]; [intros []|]. intros [<-|I]; [reflexivity|now apply IH]. Qed.
Lemma white_indent n : white (newline_indent n).
Proof. intros c [<-|I]; [do 2 right; now left|]. apply spaces_in in I. subst c. now left. Qed.
Lemma white_blank : white $" ". Proof. intros c [<-|[]]. now left. Qed.

Section Reader.
Variable number : str -> str.
Notation value_text := (value_text number).
Notation elements_text := (elements_text number).
Notation members_text := (members_text number).

Lemma dump_text v : plain_value v -> forall level, value_text v (dump level v).
Proof.
  induction v as [|b|s|s|l IH|o IH] using json_ind'; intros P level.
  - apply (vt_name number "null"). now left.
  - destruct b; [apply (vt_name number "true"); right; now left|apply (vt_name number "false"); do 2 right; now left].
  - inversion P.
  - apply vt_string, dump_str_text.
  - destruct l as [|v l]; [apply (vt_empty_list number []), white_nil|]. rewrite dump_list. inversion_clear P as [| | |? F|]. 
    change (value_text (JList (v :: l)) ($"[" ++ newline_indent (S level) ++ items level (v :: l) ++ newline_indent level ++ $"]")).
    replace ($"[" ++ newline_indent (S level) ++ items level (v :: l) ++ newline_indent level ++ $"]") with ($"[" ++ (newline_indent (S level) ++ items level (v :: l) ++ newline_indent level) ++ $"]") by put_together.
    apply vt_list. generalize (white_indent (S level)). generalize (newline_indent (S level)) at 1 2. revert v IH F. induction l as [|w l IHl]; intros v IH F a A; apply Forall_inv in IH as Iv; apply Forall_inv in F as Fv.
    + cbn [items]. apply et_one; [exact A|now apply Iv|apply white_indent].
    + apply Forall_inv_tail in IH, F. change (items level (v :: w :: l)) with (dump (S level) v ++ ","%char :: newline_indent (S level) ++ items level (w :: l)).
      replace (a ++ (dump (S level) v ++ ","%char :: newline_indent (S level) ++ items level (w :: l)) ++ newline_indent level)
        with (a ++ dump (S level) v ++ [] ++ $"," ++ (newline_indent (S level) ++ items level (w :: l) ++ newline_indent level)) by put_together.
      apply et_more; [exact A|now apply Iv|exact white_nil|]. apply IHl; [exact IH|exact F|apply white_indent].
  - destruct o as [|[k v] o]; [apply (vt_empty_object number []), white_nil|]. rewrite dump_obj. inversion_clear P as [| | | |? N F].
    change (value_text (JObj ((k, v) :: o)) ($"{" ++ newline_indent (S level) ++ pairs level ((k, v) :: o) ++ newline_indent level ++ $"}")).
    replace ($"{" ++ newline_indent (S level) ++ pairs level ((k, v) :: o) ++ newline_indent level ++ $"}") with ($"{" ++ (newline_indent (S level) ++ pairs level ((k, v) :: o) ++ newline_indent level) ++ $"}") by put_together.
    apply (vt_object number ((k, v) :: o)); [|now apply object_itself]. clear N.
    generalize (white_indent (S level)). generalize (newline_indent (S level)) at 1 2. revert k v IH F. induction o as [|[k' w] l IHl]; intros k v IH F a A; apply Forall_inv in IH as Iv; apply Forall_inv in F as Fv; cbn [snd] in Iv, Fv.
    + cbn [pairs]. replace (a ++ (dump_str k ++ $": " ++ dump (S level) v) ++ newline_indent level) with (a ++ dump_str k ++ [] ++ $":" ++ $" " ++ dump (S level) v ++ newline_indent level) by put_together.
      apply mt_one; [exact A|apply dump_str_text|exact white_nil|exact white_blank|now apply Iv|apply white_indent].
    + apply Forall_inv_tail in IH, F. change (pairs level ((k, v) :: (k', w) :: l)) with (dump_str k ++ $": " ++ dump (S level) v ++ ","%char :: newline_indent (S level) ++ pairs level ((k', w) :: l)).
      replace (a ++ (dump_str k ++ $": " ++ dump (S level) v ++ ","%char :: newline_indent (S level) ++ pairs level ((k', w) :: l)) ++ newline_indent level)
        with (a ++ dump_str k ++ [] ++ $":" ++ $" " ++ dump (S level) v ++ [] ++ $"," ++ (newline_indent (S level) ++ pairs level ((k', w) :: l) ++ newline_indent level)) by put_together.
      apply mt_more; [exact A|apply dump_str_text|exact white_nil|exact white_blank|now apply Iv|exact white_nil|]. apply IHl; [exact IH|exact F|apply white_indent].
Qed.

(** * Line breaks *)
Lemma line_ends_clean x : ~ In (Ascii.ascii_of_N 13) x -> forall r, line_ends (x ++ r) = x ++ line_ends r.
Proof.
  induction x as [|c x IH]; intros N r; [reflexivity|]. cbn [app line_ends]. destruct (code c =? 13)%N eqn:E.
  - apply N.eqb_eq in E. elim N. left. rewrite <- E. symmetry. apply Ascii.ascii_N_embedding.
  - f_equal. apply IH. intro I. apply N. now right.
Qed.
Lemma white_ends n : forall w, length w <= n -> white w -> exists w', white w' /\ forall c r, ceqb c nl = false -> line_ends (w ++ c :: r) = w' ++ line_ends (c :: r).
Proof.
  induction n as [|n IH]; intros w L W; [destruct w; [|inversion L]; exists []; now split|]. destruct w as [|d w]; [exists []; now split|]. cbn [length] in L. apply le_S_n in L.
  assert (white w) as W' by (intros c I; apply W; now right).
  destruct (code d =? 13)%N eqn:E.
  - destruct w as [|e w].
    + exists [nl]. split; [intros c [<-|[]]; do 2 right; now left|]. intros c r C. cbn [app line_ends]. rewrite E. now rewrite C.
    + destruct (ceqb e nl) eqn:N.
      * destruct (IH w) as (w' & Ww & H); [cbn [length] in L; lia|intros c I; apply W'; now right|]. exists (nl :: w'). split; [intros c [<-|I]; [do 2 right; now left|now apply Ww]|].
        intros c r C. cbn [app]. cbn [line_ends]. rewrite E, N. cbn [app]. f_equal. now apply H.
      * destruct (IH (e :: w)) as (w' & Ww & H); [exact L|exact W'|]. exists (nl :: w'). split; [intros c [<-|I]; [do 2 right; now left|now apply Ww]|].
        intros c r C. specialize (H c r C). cbn [app] in *. change (line_ends (d :: e :: w ++ c :: r)) with (if (code d =? 13)%N then nl :: (if ceqb e nl then line_ends (w ++ c :: r) else line_ends (e :: w ++ c :: r)) else d :: line_ends (e :: w ++ c :: r)). rewrite E, N. f_equal. exact H.
  - destruct (IH w L W') as (w' & Ww & H). exists (d :: w'). split; [intros c [<-|I]; [apply W; now left|now apply Ww]|].
    intros c r C. cbn [app line_ends]. rewrite E. cbn [app]. f_equal. now apply H.
Qed.
Lemma white_broken w : white w -> exists w', white w' /\ forall c r, ceqb c nl = false -> line_ends (w ++ c :: r) = w' ++ line_ends (c :: r).
Proof. apply (white_ends (length w)). apply le_n. Qed.
Lemma hex_clean a i : hex_digit a i -> a <> Ascii.ascii_of_N 13.
Proof. intros H E. subst a. apply hex_val in H as [H _]. discriminate H. Qed.
Lemma written_clean c w : written c w -> ~ In (Ascii.ascii_of_N 13) w.
Proof.
  intros H I. destruct H as [c L _ _| | |e n J|a b i j A B].
  - destruct I as [->|[]]. apply N.leb_le in L. discriminate L.
  - destruct I as [I|[I|[]]]; discriminate I.
  - destruct I as [I|[I|[]]]; discriminate I.
  - destruct J as [J|[J|[J|[J|[J|[J|[]]]]]]]; injection J as <- _; destruct I as [I|[I|[]]]; discriminate I.
  - destruct I as [I|[I|[I|[I|[I|[I|[]]]]]]]; [discriminate I|discriminate I|discriminate I|discriminate I|now apply hex_clean in A|now apply hex_clean in B].
Qed.
Lemma string_clean s t : string_text s t -> ~ In (Ascii.ascii_of_N 13) t.
Proof.
  intros (b & B & ->) I. apply in_app_or in I as [[I|[]]|I]; [discriminate I|]. apply in_app_or in I as [I|[I|[]]]; [|discriminate I].
  induction B as [|c w s b W _ IH]; [destruct I|]. apply in_app_or in I as [I|I]; [now apply written_clean in W|now apply IH].
Qed.
Lemma digits_clean s : forallb isdig s = true -> ~ In (Ascii.ascii_of_N 13) s.
Proof. intros H I. rewrite forallb_forall in H. apply H in I. discriminate I. Qed.
Lemma literal_clean l : literal l -> ~ In (Ascii.ascii_of_N 13) l.
Proof.
  intros (sg & i & f & e & Is & Hi & Hf & He & ->) I. apply in_app_or in I as [I|I]; [destruct Is as [<-|[<-|[]]]; [destruct I|destruct I as [I|[]]; discriminate I]|].
  apply in_app_or in I as [I|I]; [destruct Hi as [->|[[_ D] _]]; [destruct I as [I|[]]; discriminate I|now apply digits_clean in D]|].
  apply in_app_or in I as [I|I].
  - destruct Hf as [->|(ds & [_ D] & ->)]; [destruct I|]. destruct I as [I|I]; [discriminate I|now apply digits_clean in D].
  - destruct He as [->|(e0 & s0 & ds & J & K & [_ D] & ->)]; [destruct I|]. apply in_app_or in I as [I|I]; [destruct J as [<-|[<-|[]]]; destruct I as [I|[]]; discriminate I|].
    apply in_app_or in I as [I|I]; [destruct K as [<-|[<-|[<-|[]]]]; [destruct I|destruct I as [I|[]]; discriminate I|destruct I as [I|[]]; discriminate I]|now apply digits_clean in D].
Qed.
Lemma starts_dark v t : value_text v t -> exists c t', t = c :: t' /\ ceqb c nl = false.
Proof.
  intro H. apply value_starts in H as (c & t' & -> & H). exists c, t'. split; [reflexivity|]. apply starter_dark in H. destruct (ceqb c nl) eqn:E; [|reflexivity]. apply is_char in E. subst c. discriminate H.
Qed.
Lemma broken_white a t r : white a -> (exists c t', t = c :: t' /\ ceqb c nl = false) -> exists a', white a' /\ line_ends (a ++ t ++ r) = a' ++ line_ends (t ++ r).
Proof. intros A (c & t' & -> & C). destruct (white_broken a A) as (a' & A' & H). exists a'. split; [exact A'|]. now apply (H c (t' ++ r)). Qed.
Lemma broken_all :
  (forall v t, value_text v t -> exists t', value_text v t' /\ forall r, line_ends (t ++ r) = t' ++ line_ends r) /\
  (forall l t, elements_text l t -> exists t', elements_text l t' /\ forall c r, ceqb c nl = false -> line_ends (t ++ c :: r) = t' ++ line_ends (c :: r)) /\
  (forall ms t, members_text ms t -> exists t', members_text ms t' /\ forall c r, ceqb c nl = false -> line_ends (t ++ c :: r) = t' ++ line_ends (c :: r)).
Proof.
  apply grammar_ind.
  - intros n v I. exists $n. split; [now constructor|]. destruct I as [I|[I|[I|[I|[I|[I|[]]]]]]]; injection I as <- _; reflexivity.
  - intros l L. exists l. split; [now constructor|]. now apply line_ends_clean, literal_clean.
  - intros s t T. exists t. split; [now constructor|]. now apply line_ends_clean, (string_clean s).
  - intros w W. destruct (white_broken w W) as (w' & W' & H). exists ($"[" ++ w' ++ $"]"). split; [now constructor|]. intro r.
    replace (($"[" ++ w ++ $"]") ++ r) with ("["%char :: w ++ "]"%char :: r) by put_together. cbn [line_ends]. change (code "[" =? 13)%N with false. cbv iota. rewrite H by reflexivity. put_together.
  - intros l t _ (t' & T & H). exists ($"[" ++ t' ++ $"]"). split; [now constructor|]. intro r.
    replace (($"[" ++ t ++ $"]") ++ r) with ("["%char :: t ++ "]"%char :: r) by put_together. cbn [line_ends]. change (code "[" =? 13)%N with false. cbv iota. rewrite H by reflexivity. put_together.
  - intros w W. destruct (white_broken w W) as (w' & W' & H). exists ($"{" ++ w' ++ $"}"). split; [now constructor|]. intro r.
    replace (($"{" ++ w ++ $"}") ++ r) with ("{"%char :: w ++ "}"%char :: r) by put_together. cbn [line_ends]. change (code "{" =? 13)%N with false. cbv iota. rewrite H by reflexivity. put_together.
  - intros ms o t _ (t' & T & H) O. exists ($"{" ++ t' ++ $"}"). split; [now apply (vt_object number ms)|]. intro r.
    replace (($"{" ++ t ++ $"}") ++ r) with ("{"%char :: t ++ "}"%char :: r) by put_together. cbn [line_ends]. change (code "{" =? 13)%N with false. cbv iota. rewrite H by reflexivity. put_together.
  - intros v a t b A V (t' & V' & Ht) B. destruct (white_broken a A) as (a' & A' & Ha). destruct (white_broken b B) as (b' & B' & Hb). exists (a' ++ t' ++ b'). split; [now constructor|]. intros c r C.
    destruct (starts_dark v t V) as (d & u & -> & D). replace ((a ++ (d :: u) ++ b) ++ c :: r) with (a ++ d :: (u ++ b ++ c :: r)) by put_together. rewrite (Ha d _ D).
    change (d :: u ++ b ++ c :: r) with ((d :: u) ++ b ++ c :: r). rewrite Ht, (Hb c _ C). put_together.
  - intros v l a t b r0 A V (t' & V' & Ht) B _ (r' & R & Hr). destruct (white_broken a A) as (a' & A' & Ha). destruct (white_broken b B) as (b' & B' & Hb). exists (a' ++ t' ++ b' ++ $"," ++ r'). split; [now constructor|]. intros c r C.
    destruct (starts_dark v t V) as (d & u & -> & D). replace ((a ++ (d :: u) ++ b ++ $"," ++ r0) ++ c :: r) with (a ++ d :: (u ++ b ++ ","%char :: r0 ++ c :: r)) by put_together. rewrite (Ha d _ D).
    change (d :: u ++ b ++ ","%char :: r0 ++ c :: r) with ((d :: u) ++ b ++ ","%char :: r0 ++ c :: r). rewrite Ht, (Hb "," _ eq_refl)%char. change (line_ends (","%char :: r0 ++ c :: r)) with (","%char :: line_ends (r0 ++ c :: r)). rewrite (Hr c _ C). put_together.
  - intros k v a kt b e t f A K B E V (t' & V' & Ht) F. destruct (white_broken a A) as (a' & A' & Ha). destruct (white_broken b B) as (b' & B' & Hb). destruct (white_broken e E) as (e' & E' & He). destruct (white_broken f F) as (f' & F' & Hf).
    exists (a' ++ kt ++ b' ++ $":" ++ e' ++ t' ++ f'). split; [now constructor|]. intros c r C. pose proof (string_clean k kt K) as Kc. destruct K as (kb & _ & Ek).
    destruct (starts_dark v t V) as (d & u & -> & D). replace ((a ++ kt ++ b ++ $":" ++ e ++ (d :: u) ++ f) ++ c :: r) with (a ++ kt ++ b ++ ":"%char :: e ++ d :: (u ++ f ++ c :: r)) by put_together.
    assert (forall z, line_ends (a ++ kt ++ z) = a' ++ line_ends (kt ++ z)) as -> by (intro z; rewrite Ek; apply (Ha quote); reflexivity).
    rewrite (line_ends_clean kt Kc), (Hb ":" _ eq_refl)%char. match goal with |- context [line_ends (":"%char :: ?x)] => change (line_ends (":"%char :: x)) with (":"%char :: line_ends x) end. rewrite (He d _ D).
    change (d :: u ++ f ++ c :: r) with ((d :: u) ++ f ++ c :: r). rewrite Ht, (Hf c _ C). put_together.
  - intros k v ms a kt b e t f r0 A K B E V (t' & V' & Ht) F _ (r' & R & Hr). destruct (white_broken a A) as (a' & A' & Ha). destruct (white_broken b B) as (b' & B' & Hb). destruct (white_broken e E) as (e' & E' & He). destruct (white_broken f F) as (f' & F' & Hf).
    exists (a' ++ kt ++ b' ++ $":" ++ e' ++ t' ++ f' ++ $"," ++ r'). split; [now constructor|]. intros c r C. pose proof (string_clean k kt K) as Kc. destruct K as (kb & _ & Ek).
    destruct (starts_dark v t V) as (d & u & -> & D). replace ((a ++ kt ++ b ++ $":" ++ e ++ (d :: u) ++ f ++ $"," ++ r0) ++ c :: r) with (a ++ kt ++ b ++ ":"%char :: e ++ d :: (u ++ f ++ ","%char :: r0 ++ c :: r)) by put_together.
    assert (forall z, line_ends (a ++ kt ++ z) = a' ++ line_ends (kt ++ z)) as -> by (intro z; rewrite Ek; apply (Ha quote); reflexivity).
    rewrite (line_ends_clean kt Kc), (Hb ":" _ eq_refl)%char. match goal with |- context [line_ends (":"%char :: ?x)] => change (line_ends (":"%char :: x)) with (":"%char :: line_ends x) end. rewrite (He d _ D).
    match goal with |- context [line_ends (d :: u ++ ?x)] => change (d :: u ++ x) with ((d :: u) ++ x) end. rewrite Ht, (Hf "," _ eq_refl)%char. match goal with |- context [line_ends (","%char :: ?x)] => change (line_ends (","%char :: x)) with (","%char :: line_ends x) end. rewrite (Hr c _ C). put_together.
Qed.
(** the white space at the end of a file *)
Lemma white_line_ends w : white w -> white (line_ends w).
Proof.
  intro W. destruct (white_broken w W) as (w' & W' & H). specialize (H "x"%char [] eq_refl). change (line_ends ["x"%char]) with ["x"%char] in H.
  assert (forall n s, length s <= n -> line_ends (s ++ ["x"%char]) = line_ends s ++ ["x"%char]) as Q.
  { clear. induction n as [|n IH]; intros s L; [destruct s; [reflexivity|inversion L]|]. destruct s as [|c s]; [reflexivity|]. cbn [length] in L. apply le_S_n in L. cbn [app line_ends]. destruct (code c =? 13)%N.
    - destruct s as [|d s]; [reflexivity|]. change ((d :: s) ++ ["x"%char]) with (d :: s ++ ["x"%char]). cbv iota. destruct (ceqb d nl); cbn [app]; f_equal; [apply IH; cbn [length] in L; lia|]. change (d :: s ++ ["x"%char]) with ((d :: s) ++ ["x"%char]). now apply IH.
    - cbn [app]. f_equal. now apply IH. }
  rewrite (Q (length w) w (le_n _)) in H. apply app_inj_tail in H as [-> _]. exact W'.
Qed.
Lemma broken_text v s : json_text number v s -> json_text number v (read_text s).
Proof.
  intros (a & t & b & A & V & B & ->). unfold read_text. destruct (white_broken a A) as (a' & A' & Ha). destruct (proj1 broken_all v t V) as (t' & V' & Ht). destruct (starts_dark v t V) as (d & u & E & D).
  exists a', t', (line_ends b). split; [exact A'|]. split; [exact V'|]. split; [now apply white_line_ends|]. rewrite <- (Ht b), E. cbn [app]. now apply Ha.
Qed.
End Reader.
