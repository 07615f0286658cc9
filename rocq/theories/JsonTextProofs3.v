(** Lemmas of C53, part 3: the reader accepts exactly the grammar. *)
From Verif Require Import PyStrProofs JsonProofs1.
From Verif Require Import Json JsonSpec JsonText JsonTextSpec JsonTextProofs1 JsonTextProofs2.
Local Open Scope nat_scope.

Scheme value_ind3 := Minimality for value_text Sort Prop
  with elements_ind3 := Minimality for elements_text Sort Prop
  with members_ind3 := Minimality for members_text Sort Prop.
Combined Scheme grammar_ind from value_ind3, elements_ind3, members_ind3.

Ltac put_together := repeat first [rewrite <- app_assoc | progress (cbn [lit list_ascii_of_string app])]; reflexivity.
Section Reader.
Variable number : str -> str.
Notation value_text := (value_text number).
Notation elements_text := (elements_text number).
Notation members_text := (members_text number).
Notation scan := (scan number).
Notation members := (members number).
Notation elements := (elements number).

(** the recursion equations *)
Lemma scan_S n' s : scan (S n') s =

      match s with
      | [] => Err ValueError
      | c :: s' =>
          if ceqb c quote then do (t, r) <- scanstring s'; Ok (JStr t, r)
          else if ceqb c "{" then
            match skip s' with
            | [] => Err ValueError
            | d :: r => if ceqb d "}" then Ok (JObj [], r) else do (ms, r') <- members n' (d :: r); Ok (JObj (ordered ms), r')
            end
          else if ceqb c "[" then
            match skip s' with
            | [] => Err ValueError
            | d :: r => if ceqb d "]" then Ok (JList [], r) else do (l, r') <- elements n' (d :: r); Ok (JList l, r')
            end
          else
            match match_constant constants s with
            | Some (v, r) => Ok (v, r)
            | None => match match_number s with Some (lit, r) => Ok (JNum (number lit), r) | None => Err ValueError end
            end
      end.
Proof. reflexivity. Qed.
Lemma members_S n' s : members (S n') s =

      match s with
      | [] => Err ValueError
      | c :: s' =>
          if ceqb c quote then
            do (k, r) <- scanstring s';
            match skip r with
            | [] => Err ValueError
            | d :: r1 =>
                if ceqb d ":" then
                  do (v, r2) <- scan n' (skip r1);
                  match skip r2 with
                  | [] => Err ValueError
                  | e :: r3 =>
                      if ceqb e "}" then Ok ([(k, v)], r3)
                      else if ceqb e "," then do (ms, r4) <- members n' (skip r3); Ok ((k, v) :: ms, r4)
                      else Err ValueError
                  end
                else Err ValueError
            end
          else Err ValueError
      end.
Proof. reflexivity. Qed.
Lemma elements_S n' s : elements (S n') s =

      do (v, r2) <- scan n' s;
      match skip r2 with
      | [] => Err ValueError
      | e :: r3 =>
          if ceqb e "]" then Ok ([v], r3)
          else if ceqb e "," then do (l, r4) <- elements n' (skip r3); Ok (v :: l, r4)
          else Err ValueError
      end.
Proof. reflexivity. Qed.
(** * One value *)
Definition starter (c : ascii) : bool := isdig c || existsb (ceqb c) (quote :: $"-[{ntfNI").
Lemma literal_starts l : literal l -> exists c l', l = c :: l' /\ (isdig c || ceqb c "-") = true /\ (c = "-"%char -> exists d l'', l' = d :: l'' /\ isdig d = true).
Proof.
  intros (sg & i & f & e & Is & Hi & _ & _ & ->).
  assert (exists d i', i = d :: i' /\ isdig d = true) as (d & i' & -> & D).
  { destruct Hi as [->|[[N D] _]]; [now exists "0"%char, []|]. destruct i as [|d i']; [now elim N|]. exists d, i'. split; [reflexivity|]. cbn [forallb] in D. now apply andb_prop in D. }
  destruct Is as [<-|[<-|[]]].
  - exists d, (i' ++ f ++ e). split; [reflexivity|]. rewrite D. split; [reflexivity|]. intros ->. discriminate D.
  - exists "-"%char, ((d :: i') ++ f ++ e). split; [reflexivity|]. split; [reflexivity|]. intros _. exists d, (i' ++ f ++ e). split; [reflexivity|exact D].
Qed.
Lemma value_starts v t : value_text v t -> exists c t', t = c :: t' /\ starter c = true.
Proof.
  intros H. destruct H as [n v I|l H|s t (b & _ & ->)|w _|l t _|w _|ms o t _ _].
  - destruct I as [I|[I|[I|[I|[I|[I|[]]]]]]]; injection I as <- <-; eexists; eexists; (split; [reflexivity|vm_compute; reflexivity]).
  - destruct (literal_starts l H) as (c & l' & -> & D & _). exists c, l'. split; [reflexivity|]. unfold starter. apply orb_prop in D as [D|D]; [now rewrite D|]. apply Ascii.eqb_eq in D. subst c. vm_compute. reflexivity.
  - exists quote, (b ++ dquote). split; [reflexivity|vm_compute; reflexivity].
  - eexists; eexists; (split; [reflexivity|vm_compute; reflexivity]).
  - eexists; eexists; (split; [reflexivity|vm_compute; reflexivity]).
  - eexists; eexists; (split; [reflexivity|vm_compute; reflexivity]).
  - eexists; eexists; (split; [reflexivity|vm_compute; reflexivity]).
Qed.
Lemma starter_dark c : starter c = true -> json_space c = false.
Proof. revert c. apply (implf_ascii starter json_space). vm_compute. reflexivity. Qed.
Lemma starter_bracket c : starter c = true -> ceqb c "]" = false.
Proof. revert c. apply (implf_ascii starter (fun c => ceqb c "]")). vm_compute. reflexivity. Qed.
Lemma skip_value v t r : value_text v t -> skip (t ++ r) = t ++ r.
Proof. intro H. apply value_starts in H as (c & t' & -> & H). cbn [app]. now apply skip_dark, starter_dark. Qed.
Lemma scan_literal l r : literal l -> stops r = true -> match_constant constants (l ++ r) = None.
Proof.
  intros H _. destruct (literal_starts l H) as (c & l' & -> & D & M). cbn [app]. apply orb_prop in D as [D|D].
  - assert (forall x, isdig x = false -> ceqb x c = false) as Q. { intros x X. destruct (ceqb x c) eqn:E; [|reflexivity]. apply Ascii.eqb_eq in E. subst. rewrite D in X. discriminate X. }
    unfold constants. cbn [match_constant after lit list_ascii_of_string]. rewrite !Q by reflexivity. reflexivity.
  - apply Ascii.eqb_eq in D. subst c. destruct (M eq_refl) as (d & l'' & -> & Dd). cbn [app].
    assert (ceqb "I" d = false) as Q. { destruct (ceqb "I" d) eqn:E; [|reflexivity]. apply Ascii.eqb_eq in E. subst d. discriminate Dd. }
    unfold constants. cbn [match_constant after lit list_ascii_of_string]. change (ceqb "-" "-") with true. change (ceqb "n" "-") with false. change (ceqb "t" "-") with false. change (ceqb "f" "-") with false. change (ceqb "N" "-") with false. change (ceqb "I" "-") with false. cbv iota.
    now rewrite Q.
Qed.
Lemma space_head c r : json_space c = true -> stops (c :: r) = true. Proof. apply space_stops. Qed.
Lemma white_stops b r : white b -> stops r = true -> stops (b ++ r) = true.
Proof. intros W S. destruct b as [|c b]; [exact S|]. cbn [app]. apply space_stops. apply space_number. apply W. now left. Qed.
Lemma literal_head c : (isdig c || ceqb c "-") = true -> ceqb c quote = false /\ ceqb c "{" = false /\ ceqb c "[" = false.
Proof.
  intro D. split; [|split]; revert c D.
  - apply (implf_ascii (fun c => isdig c || ceqb c "-") (fun c => ceqb c quote)). vm_compute. reflexivity.
  - apply (implf_ascii (fun c => isdig c || ceqb c "-") (fun c => ceqb c "{")). vm_compute. reflexivity.
  - apply (implf_ascii (fun c => isdig c || ceqb c "-") (fun c => ceqb c "[")). vm_compute. reflexivity.
Qed.
Lemma scan_num l n r : literal l -> stops r = true -> scan (S n) (l ++ r) = Ok (JNum (number l), r).
Proof.
  intros H S. pose proof (scan_literal l r H S) as C. pose proof (number_app l r H S) as M.
  destruct (literal_starts l H) as (c & l' & -> & D & _). cbn [app] in *. rewrite scan_S.
  destruct (literal_head c D) as (-> & -> & ->). rewrite C, M. reflexivity.
Qed.
Lemma len_app {X} (a b : list X) : length (a ++ b) = length a + length b. Proof. apply app_length. Qed.
Lemma complete_all :
  (forall v t, value_text v t -> forall n r, stops r = true -> 2 * length (t ++ r) + 1 <= n -> scan n (t ++ r) = Ok (v, r)) /\
  (forall l t, elements_text l t -> forall n r, 2 * length (t ++ $"]" ++ r) + 2 <= n -> elements n (skip (t ++ $"]" ++ r)) = Ok (l, r)) /\
  (forall ms t, members_text ms t -> forall n r, 2 * length (t ++ $"}" ++ r) + 2 <= n -> members n (skip (t ++ $"}" ++ r)) = Ok (ms, r)).
Proof.
  apply grammar_ind.
  - intros n v I k r S L. destruct k as [|k]; [lia|]. destruct I as [I|[I|[I|[I|[I|[I|[]]]]]]]; injection I as <- <-; reflexivity.
  - intros l H n r S L. destruct n as [|n]; [lia|]. now apply scan_num.
  - intros s t H n r S L. destruct n as [|n]; [lia|]. destruct (scan_string_complete s t H) as (t' & -> & E). cbn [app]. rewrite scan_S. change (ceqb quote quote) with true. cbv iota. rewrite E. reflexivity.
  - intros w W n r S L. destruct n as [|n]; [lia|]. replace (($"[" ++ w ++ $"]") ++ r) with ("["%char :: w ++ "]"%char :: r) by (cbn [app lit list_ascii_of_string]; now rewrite <- app_assoc).
    rewrite scan_S. change (ceqb "[" quote) with false. change (ceqb "[" "{") with false. change (ceqb "[" "[") with true. cbv iota. rewrite (white_skip w _ W), skip_dark by reflexivity. reflexivity.
  - intros l t He IH n r S L. destruct n as [|n]; [lia|]. replace (($"[" ++ t ++ $"]") ++ r) with ("["%char :: t ++ $"]" ++ r) in * by (cbn [app lit list_ascii_of_string]; now rewrite <- app_assoc).
    rewrite scan_S. change (ceqb "[" quote) with false. change (ceqb "[" "{") with false. change (ceqb "[" "[") with true. cbv iota.
    cbn [length] in L. assert (elements n (skip (t ++ $"]" ++ r)) = Ok (l, r)) as E by (apply IH; lia).
    assert (exists d u, skip (t ++ $"]" ++ r) = d :: u /\ starter d = true) as (d & u & Ed & Sd).
    { destruct He as [v a t0 b Wa V Wb|v l0 a t0 b r0 Wa V Wb _]; rewrite <- !app_assoc, (white_skip a _ Wa), (skip_value v t0 _ V); destruct (value_starts v t0 V) as (d & t' & -> & Sd); (exists d; eexists; split; [reflexivity|exact Sd]). }
    rewrite Ed in *. rewrite (starter_bracket d Sd), E. reflexivity.
  - intros w W n r S L. destruct n as [|n]; [lia|]. replace (($"{" ++ w ++ $"}") ++ r) with ("{"%char :: w ++ "}"%char :: r) by (cbn [app lit list_ascii_of_string]; now rewrite <- app_assoc).
    rewrite scan_S. change (ceqb "{" quote) with false. change (ceqb "{" "{") with true. cbv iota. rewrite (white_skip w _ W), skip_dark by reflexivity. reflexivity.
  - intros ms o t He IH Ob n r S L. destruct n as [|n]; [lia|]. replace (($"{" ++ t ++ $"}") ++ r) with ("{"%char :: t ++ $"}" ++ r) in * by (cbn [app lit list_ascii_of_string]; now rewrite <- app_assoc).
    rewrite scan_S. change (ceqb "{" quote) with false. change (ceqb "{" "{") with true. cbv iota.
    cbn [length] in L. assert (members n (skip (t ++ $"}" ++ r)) = Ok (ms, r)) as E by (apply IH; lia).
    assert (exists u, skip (t ++ $"}" ++ r) = quote :: u) as (u & Ed).
    { destruct He as [k v a kt b c t0 d Wa (y & _ & ->) _ _ _ _|k v ms a kt b c t0 d r0 Wa (y & _ & ->) _ _ _ _ _]; rewrite <- !app_assoc, (white_skip a _ Wa); eexists; reflexivity. }
    rewrite Ed in *. change (ceqb quote "}") with false. cbv iota. rewrite E. cbn [rbind]. now rewrite (object_ordered ms o Ob).
  - intros v a t b Wa V IH Wb n r L. destruct n as [|n]; [lia|]. rewrite <- !app_assoc in *. rewrite (white_skip a _ Wa), (skip_value v t _ V). rewrite elements_S.
    rewrite IH; [|apply white_stops; [exact Wb|reflexivity]|rewrite (len_app a) in L; lia]. cbn [rbind]. rewrite (white_skip b _ Wb). change ($"]" ++ r) with ("]"%char :: r). rewrite skip_dark by reflexivity. reflexivity.
  - intros v l a t b r0 Wa V IHv Wb El IHl n r L. destruct n as [|n]; [lia|]. rewrite <- !app_assoc in *. rewrite (white_skip a _ Wa), (skip_value v t _ V). rewrite elements_S.
    rewrite IHv; [|apply white_stops; [exact Wb|reflexivity]|rewrite (len_app a) in L; lia]. cbn [rbind]. rewrite (white_skip b _ Wb). change ($"," ++ r0 ++ $"]" ++ r) with (","%char :: r0 ++ $"]" ++ r) in *. rewrite skip_dark by reflexivity.
    change (ceqb "," "]") with false. change (ceqb "," ",") with true. cbv iota. rewrite IHl; [reflexivity|]. rewrite (len_app a), (len_app t), (len_app b) in L. cbn [length] in L. lia.
  - intros k v a kt b c t d Wa K Wb Wc V IH Wd n r L. destruct n as [|n]; [lia|]. rewrite <- !app_assoc in *. rewrite (white_skip a _ Wa). destruct (scan_string_complete k kt K) as (k' & -> & E). cbn [app]. rewrite skip_dark by reflexivity.
    rewrite members_S. change (ceqb quote quote) with true. cbv iota. rewrite E. cbn [rbind]. rewrite (white_skip b _ Wb). change ($":" ++ c ++ t ++ d ++ $"}" ++ r) with (":"%char :: c ++ t ++ d ++ $"}" ++ r) in *. rewrite skip_dark by reflexivity.
    change (ceqb ":" ":") with true. cbv iota. rewrite (white_skip c _ Wc), (skip_value v t _ V). rewrite IH; [|apply white_stops; [exact Wd|reflexivity]|rewrite (len_app a) in L; cbn [app length] in L; rewrite (len_app k'), (len_app b) in L; cbn [length] in L; rewrite (len_app c) in L; lia].
    cbn [rbind]. rewrite (white_skip d _ Wd). change ($"}" ++ r) with ("}"%char :: r). rewrite skip_dark by reflexivity. reflexivity.
  - intros k v ms a kt b c t d r0 Wa K Wb Wc V IHv Wd Ms IHm n r L. destruct n as [|n]; [lia|]. rewrite <- !app_assoc in *. rewrite (white_skip a _ Wa). destruct (scan_string_complete k kt K) as (k' & -> & E). cbn [app]. rewrite skip_dark by reflexivity.
    rewrite members_S. change (ceqb quote quote) with true. cbv iota. rewrite E. cbn [rbind]. rewrite (white_skip b _ Wb). change ($":" ++ c ++ t ++ d ++ $"," ++ r0 ++ $"}" ++ r) with (":"%char :: c ++ t ++ d ++ ","%char :: r0 ++ $"}" ++ r) in *. rewrite skip_dark by reflexivity.
    rewrite (len_app a) in L. cbn [app length] in L. rewrite (len_app k'), (len_app b) in L. cbn [length] in L. rewrite (len_app c) in L.
    change (ceqb ":" ":") with true. cbv iota. rewrite (white_skip c _ Wc), (skip_value v t _ V). rewrite IHv; [|apply white_stops; [exact Wd|reflexivity]|lia].
    cbn [rbind]. rewrite (white_skip d _ Wd). rewrite skip_dark by reflexivity. change (ceqb "," "}") with false. change (ceqb "," ",") with true. cbv iota.
    rewrite IHm; [reflexivity|]. rewrite (len_app t), (len_app d) in L. cbn [length] in L. lia.
Qed.

(** * What is read is written so *)
Lemma after_app p : forall s r, after p s = Some r -> s = p ++ r.
Proof.
  induction p as [|a p IH]; intros s r H; cbn [after] in H; [now injection H as <-|]. destruct s as [|b s]; [discriminate H|]. destruct (ceqb a b) eqn:E; [|discriminate H].
  apply Ascii.eqb_eq in E. subst b. cbn [app]. f_equal. now apply IH.
Qed.
Lemma constant_sound l : forall s v r, match_constant l s = Some (v, r) -> exists p, In (p, v) l /\ s = p ++ r.
Proof.
  induction l as [|[p w] l IH]; intros s v r H; cbn [match_constant] in H; [discriminate H|]. destruct (after p s) as [r'|] eqn:E.
  - assert (w = v /\ r' = r) as [-> ->] by (split; congruence). exists p. split; [now left|now apply after_app].
  - apply IH in H as (q & I & ->). exists q. split; [now right|reflexivity].
Qed.
Lemma names_constants p v : In (p, v) constants -> exists n, In (n, v) names /\ p = $n.
Proof.
  intros [H|[H|[H|[H|[H|[H|[]]]]]]].
  - exists "null"%string. assert (p = $"null" /\ v = JNull) as [-> ->] by (split; congruence). split; [now left|reflexivity].
  - exists "true"%string. assert (p = $"true" /\ v = JBool true) as [-> ->] by (split; congruence). split; [right; now left|reflexivity].
  - exists "false"%string. assert (p = $"false" /\ v = JBool false) as [-> ->] by (split; congruence). split; [do 2 right; now left|reflexivity].
  - exists "NaN"%string. assert (p = $"NaN" /\ v = JNum $"nan") as [-> ->] by (split; congruence). split; [do 3 right; now left|reflexivity].
  - exists "Infinity"%string. assert (p = $"Infinity" /\ v = JNum $"inf") as [-> ->] by (split; congruence). split; [do 4 right; now left|reflexivity].
  - exists "-Infinity"%string. assert (p = $"-Infinity" /\ v = JNum $"-inf") as [-> ->] by (split; congruence). split; [do 5 right; now left|reflexivity].
Qed.
Lemma is_char (c d : ascii) : ceqb c d = true -> c = d. Proof. apply Ascii.eqb_eq. Qed.
Lemma sound_all n :
  (forall s v r, scan n s = Ok (v, r) -> exists t, s = t ++ r /\ value_text v t) /\
  (forall s ms r w, members n s = Ok (ms, r) -> white w -> exists t, w ++ s = t ++ $"}" ++ r /\ members_text ms t) /\
  (forall s l r w, elements n s = Ok (l, r) -> white w -> exists t, w ++ s = t ++ $"]" ++ r /\ elements_text l t).
Proof.
  induction n as [|n (IHs & IHm & IHe)]; [split; [|split]; intros; discriminate|]. split; [|split].
  - intros s v r H. rewrite scan_S in H. destruct s as [|c s]; [discriminate H|]. destruct (ceqb c quote) eqn:Q; [|clear Q; destruct (ceqb c "{") eqn:Q; [|clear Q; destruct (ceqb c "[") eqn:Q]].
    + apply is_char in Q. subst c. destruct (scanstring s) as [[t r']|e] eqn:E; [|discriminate H]. cbn [rbind] in H. assert (v = JStr t /\ r' = r) as [-> ->] by (split; congruence).
      apply scan_string_sound in E as (u & U & ->). exists (quote :: u). split; [reflexivity|now constructor].
    + apply is_char in Q. subst c. destruct (skip_white s) as (w & W & Es). destruct (skip s) as [|d u] eqn:Ek; [discriminate H|]. destruct (ceqb d "}") eqn:Q.
      * apply is_char in Q. subst d. assert (v = JObj [] /\ u = r) as [-> ->] by (split; congruence). exists ($"{" ++ w ++ $"}"). split; [rewrite Es; cbn [lit list_ascii_of_string app]; now rewrite <- app_assoc|now constructor].
      * destruct (members n (d :: u)) as [[ms r']|e] eqn:E; [|discriminate H]. cbn [rbind] in H. assert (v = JObj (ordered ms) /\ r' = r) as [-> ->] by (split; congruence).
        destruct (IHm _ _ _ w E W) as (t & Et & M). exists ($"{" ++ t ++ $"}"). split; [rewrite Es, Et; cbn [lit list_ascii_of_string app]; now rewrite <- app_assoc|]. econstructor; [exact M|apply ordered_object].
    + apply is_char in Q. subst c. destruct (skip_white s) as (w & W & Es). destruct (skip s) as [|d u] eqn:Ek; [discriminate H|]. destruct (ceqb d "]") eqn:Q.
      * apply is_char in Q. subst d. assert (v = JList [] /\ u = r) as [-> ->] by (split; congruence). exists ($"[" ++ w ++ $"]"). split; [rewrite Es; cbn [lit list_ascii_of_string app]; now rewrite <- app_assoc|now constructor].
      * destruct (elements n (d :: u)) as [[l r']|e] eqn:E; [|discriminate H]. cbn [rbind] in H. assert (v = JList l /\ r' = r) as [-> ->] by (split; congruence).
        destruct (IHe _ _ _ w E W) as (t & Et & M). exists ($"[" ++ t ++ $"]"). split; [rewrite Es, Et; cbn [lit list_ascii_of_string app]; now rewrite <- app_assoc|]. now constructor.
    + destruct (match_constant constants (c :: s)) as [[w u]|] eqn:E.
      * assert (w = v /\ u = r) as [-> ->] by (split; congruence). apply constant_sound in E as (p & I & ->). apply names_constants in I as (m & I & ->). exists $m. split; [reflexivity|now constructor].
      * destruct (match_number (c :: s)) as [[l u]|] eqn:M; [|discriminate H]. assert (JNum (number l) = v /\ u = r) as [<- ->] by (split; congruence).
        apply number_sound in M as [-> L]. exists l. split; [reflexivity|now constructor].
  - intros s ms r w H W. rewrite members_S in H. destruct s as [|c s]; [discriminate H|]. destruct (ceqb c quote) eqn:Q; [|discriminate H]. apply is_char in Q. subst c.
    destruct (scanstring s) as [[k r0]|e] eqn:E; [|discriminate H]. cbn [rbind] in H. apply scan_string_sound in E as (ku & K & ->).
    destruct (skip_white r0) as (b & B & Eb). destruct (skip r0) as [|d r1] eqn:Ek; [discriminate H|]. destruct (ceqb d ":") eqn:Q; [|discriminate H]. apply is_char in Q. subst d.
    destruct (skip_white r1) as (a & A & Ea). destruct (scan n (skip r1)) as [[v r2]|e] eqn:E; [|discriminate H]. cbn [rbind] in H. apply IHs in E as (t & Et & V).
    destruct (skip_white r2) as (d & D & Ed). destruct (skip r2) as [|e r3] eqn:Ek2; [discriminate H|]. destruct (ceqb e "}") eqn:Q; [|clear Q; destruct (ceqb e ",") eqn:Q; [|discriminate H]]; apply is_char in Q; subst e.
    + assert (ms = [(k, v)] /\ r3 = r) as [-> ->] by (split; congruence). exists (w ++ (quote :: ku) ++ b ++ $":" ++ a ++ t ++ d). split; [|now constructor].
      rewrite Eb, Ea, Et, Ed. put_together.
    + destruct (skip_white r3) as (f & Fw & Ef). destruct (members n (skip r3)) as [[ms' r4]|e] eqn:E; [|discriminate H]. cbn [rbind] in H. assert (ms = (k, v) :: ms' /\ r4 = r) as [-> ->] by (split; congruence).
      destruct (IHm _ _ _ f E Fw) as (u & Eu & M). exists (w ++ (quote :: ku) ++ b ++ $":" ++ a ++ t ++ d ++ $"," ++ u). split; [|now constructor].
      rewrite Eb, Ea, Et, Ed, Ef, Eu. put_together.
  - intros s l r w H W. rewrite elements_S in H. destruct (scan n s) as [[v r2]|e] eqn:E; [|discriminate H]. cbn [rbind] in H. apply IHs in E as (t & -> & V).
    destruct (skip_white r2) as (d & D & Ed). destruct (skip r2) as [|e r3] eqn:Ek2; [discriminate H|]. destruct (ceqb e "]") eqn:Q; [|clear Q; destruct (ceqb e ",") eqn:Q; [|discriminate H]]; apply is_char in Q; subst e.
    + assert (l = [v] /\ r3 = r) as [-> ->] by (split; congruence). exists (w ++ t ++ d). split; [|now constructor].
      rewrite Ed. put_together.
    + destruct (skip_white r3) as (f & Fw & Ef). destruct (elements n (skip r3)) as [[l' r4]|e] eqn:E; [|discriminate H]. cbn [rbind] in H. assert (l = v :: l' /\ r4 = r) as [-> ->] by (split; congruence).
      destruct (IHe _ _ _ f E Fw) as (u & Eu & M). exists (w ++ t ++ d ++ $"," ++ u). split; [|now constructor].
      rewrite Ed, Ef, Eu. put_together.
Qed.
Lemma white_end w : white w -> stops w = true.
Proof. intro W. rewrite <- (app_nil_r w). now apply white_stops. Qed.
Lemma loads_exact t v : loads number t = Ok v <-> json_text number v t.
Proof.
  unfold loads. split.
  - intro H. destruct (skip_white t) as (a & A & Ea). destruct (scan (2 * length t + 1) (skip t)) as [[w r]|e] eqn:E; [|discriminate H]. cbn [rbind] in H.
    apply (proj1 (sound_all _)) in E as (u & Eu & V). destruct (skip_white r) as (b & B & Eb). destruct (skip r) eqn:Ek; [|discriminate H]. assert (w = v) as -> by congruence.
    exists a, u, b. split; [exact A|]. split; [exact V|]. split; [exact B|]. rewrite app_nil_r in Eb. subst b. now rewrite <- Eu.
  - intros (a & u & b & A & V & B & ->). rewrite (white_skip a _ A), (skip_value v u b V).
    rewrite (proj1 complete_all v u V _ b); [|now apply white_end|rewrite (len_app a); lia]. cbn [rbind]. rewrite <- (app_nil_r b), (white_skip b _ B). reflexivity.
Qed.
End Reader.
