(** C52: the declaration is found, and the file is recognised. *)
From Coq Require Import Nnat.
From Verif Require Import GetEncoding EncSpec EncProofs1 EncProofs2.
Local Open Scope nat_scope.

(** * Splitting *)
Lemma starts_iff pat : forall s r, starts pat s = Some r <-> s = pat ++ r.
Proof.
  induction pat as [|p pat IH]; intros s r; cbn [starts app].
  - split; [congruence|now intros ->].
  - destruct s as [|c s]; [split; discriminate|]. destruct (p =? c)%N eqn:E.
    + apply N.eqb_eq in E. subst. rewrite IH. split; [now intros ->|congruence].
    + apply N.eqb_neq in E. split; [discriminate|congruence].
Qed.
Lemma cut_none pat s : ~ occurs pat s -> cut pat s = None.
Proof.
  induction s as [|c s IH]; intros H.
  - cbn [cut]. destruct (starts pat []) as [r|] eqn:E; [|reflexivity]. apply starts_iff in E. destruct H. exists [], r. exact E.
  - cbn [cut]. destruct (starts pat (c :: s)) as [r|] eqn:E; [apply starts_iff in E; destruct H; exists [], r; exact E|].
    rewrite IH; [reflexivity|]. intros (a & b & ->). apply H. now exists (c :: a), b.
Qed.
Lemma cut_some pat : forall s a b, cut pat s = Some (a, b) -> s = a ++ pat ++ b.
Proof.
  induction s as [|c s IH]; intros a b; cbn [cut].
  - destruct (starts pat []) as [r|] eqn:E; [|discriminate]. apply starts_iff in E. intros H. assert (a = [] /\ b = r) as [-> ->] by (split; congruence). exact E.
  - destruct (starts pat (c :: s)) as [r|] eqn:E.
    + apply starts_iff in E. intros H. assert (a = [] /\ b = r) as [-> ->] by (split; congruence). exact E.
    + destruct (cut pat s) as [[a' b']|] eqn:E'; [|discriminate]. intros H. assert (a = c :: a' /\ b = b') as [-> ->] by (split; congruence).
      cbn [app]. f_equal. now apply IH.
Qed.
Lemma cut_first pat z b a : ~ occurs (pat ++ [z]) (a ++ pat) -> cut (pat ++ [z]) (a ++ (pat ++ [z]) ++ b) = Some (a, b).
Proof.
  induction a as [|c a IH]; intros H.
  - cbn [app]. assert (S0 : starts (pat ++ [z]) ((pat ++ [z]) ++ b) = Some b) by (now apply starts_iff).
    revert S0. generalize ((pat ++ [z]) ++ b). intros w S0. destruct w; cbn [cut]; now rewrite S0.
  - cbn [app cut]. destruct (starts (pat ++ [z]) (c :: a ++ (pat ++ [z]) ++ b)) as [r|] eqn:E.
    + exfalso. apply H. apply starts_iff in E. change (c :: a ++ (pat ++ [z]) ++ b) with ((c :: a) ++ (pat ++ [z]) ++ b) in E.
      assert (K : firstn (length (pat ++ [z])) (((c :: a) ++ pat) ++ z :: b) = firstn (length (pat ++ [z])) ((pat ++ [z]) ++ r)).
      { f_equal. rewrite <- E. now rewrite <- !app_assoc. }
      rewrite (firstn_app _ ((c :: a) ++ pat)) in K. replace (length (pat ++ [z]) - length ((c :: a) ++ pat)) with 0 in K by (rewrite !app_length; cbn [length]; lia).
      rewrite firstn_O, app_nil_r in K. rewrite (firstn_app _ (pat ++ [z]) r), firstn_all, Nat.sub_diag, firstn_O, app_nil_r in K.
      exists [], (skipn (length (pat ++ [z])) ((c :: a) ++ pat)). cbn [app] in *. rewrite <- K at 1. symmetry. apply firstn_skipn.
    + rewrite IH; [reflexivity|]. intros (u & v & E'). apply H. exists (c :: u), v. cbn [app]. now rewrite <- E'.
Qed.
Lemma upto_name q s r : ~ In q s -> upto q (s ++ q :: r) = s.
Proof.
  induction s as [|c s IH]; intros H; cbn [app upto].
  - now rewrite N.eqb_refl.
  - rewrite (proj2 (N.eqb_neq c q)) by (intros ->; apply H; now left). f_equal. apply IH. intros I. apply H. now right.
Qed.

(** the text behind the first place begins with a quoted name: the next place is behind it *)
Lemma cut_behind pat x q rest u v : (exists c, In c pat /\ ~ In c x) -> ~ In q pat -> pat <> [] ->
  cut pat (x ++ q :: rest) = Some (u, v) -> exists l, u = x ++ q :: l.
Proof.
  intros (c & C1 & C2) Q NE H. apply cut_some in H. apply app_eq_app in H as (l & [[E1 E2]|[E1 E2]]).
  - exfalso. apply app_eq_app in E2 as (l' & [[E3 E4]|[E3 E4]]).
    + destruct l' as [|d l'].
      * rewrite app_nil_r in E3. subst l. apply C2. rewrite E1. apply in_or_app. now right.
      * cbn [app] in E4. assert (d = q) by congruence. subst d. apply Q. rewrite E3. apply in_or_app. right. now left.
    + apply C2. rewrite E1, E3. apply in_or_app. right. apply in_or_app. now left.
  - destruct l as [|d l].
    + exfalso. cbn [app] in E2. destruct pat as [|p pat]; [congruence|]. cbn [app] in E2. apply Q. left. congruence.
    + cbn [app] in E2. assert (d = q) by congruence. subst d. exists l. exact E1.
Qed.

Definition pat8 : chars := text_of $"encoding".
Lemma pat_is : text_of $"encoding=" = pat8 ++ [61%N]. Proof. reflexivity. Qed.
Lemma name_not_in c : name_char c -> ~ In c [61; 34; 39]%N /\ ~ separator c.
Proof.
  unfold name_char, letters, separator. cbn [In map]. intros H. assert (c = 46 \/ c = 95 \/ c = 45 \/ (48 <= c <= 57) \/ (65 <= c <= 90) \/ (97 <= c <= 122))%N as K.
  { destruct H as [H|[H|[H|H]]]; [tauto|tauto|tauto|]. change (code ".") with 46%N in H. change (code "_") with 95%N in H. change (code "-") with 45%N in H.
    destruct H as [<-|[<-|[<-|[]]]]; tauto. }
  clear H. split; intros H; repeat (destruct H as [H|H]; [lia|]); exact H.
Qed.
Lemma occurs_app k s e : (forall c, In c e -> ~ In c k) -> k <> [] -> occurs k (s ++ e) -> occurs k s.
Proof.
  intros He NE (a & b & H). apply app_eq_app in H as (l & [[E1 E2]|[E1 E2]]).
  - apply app_eq_app in E2 as (m & [[E3 E4]|[E3 E4]]).
    + destruct m as [|c m].
      * rewrite app_nil_r in E3. subst. exists a, []. now rewrite app_nil_r.
      * exfalso. apply (He c); [rewrite E4; now left|]. rewrite E3. apply in_or_app. right. now left.
    + subst. now exists a, m.
  - exfalso. destruct k as [|c k]; [congruence|]. apply (He c); [|now left]. rewrite E2. apply in_or_app. right. now left.
Qed.
Lemma seps_not_pat e : Forall separator e -> forall c, In c e -> ~ In c (text_of $"encoding=").
Proof.
  intros F c I. rewrite Forall_forall in F. specialize (F c I). unfold separator in F. cbn [In] in F.
  intros J. unfold text_of in J. vm_compute in J. repeat (destruct F as [<-|F]; [repeat (destruct J as [J|J]; [discriminate J|]); exact J|]). exact F.
Qed.
Lemma coding_told line coding e : tells line coding -> Forall separator e -> coding_of (line ++ e) = Ok coding.
Proof.
  intros [D|[(r & E & O & N) ->]] F.
  - destruct D as [before after q O1 O2 N1 Nm Q]. unfold coding_of.
    assert (Lq : In q [34; 39]%N) by (assert (EQ : letters $"'""" = [39; 34]%N) by reflexivity; rewrite EQ in Q; cbn [In] in *; tauto).
    replace ((letters $"<?xml" ++ before ++ letters $"encoding=" ++ [q] ++ coding ++ [q] ++ after) ++ e)
      with ((letters $"<?xml" ++ before) ++ (pat8 ++ [61%N]) ++ ((q :: coding) ++ q :: (after ++ e))).
    2:{ rewrite <- pat_is. unfold letters, text_of. repeat (cbn [app]; rewrite <- ?app_assoc). reflexivity. }
    rewrite pat_is. rewrite cut_first by (intros K; apply N1; rewrite <- app_assoc in K; exact K).
    assert (NQ : ~ In q coding).
    { intros I. rewrite Forall_forall in Nm. destruct (name_not_in q (Nm q I)) as [A _]. apply A. cbn [In] in *. tauto. }
    destruct (cut (pat8 ++ [61%N]) ((q :: coding) ++ q :: after ++ e)) as [[u v]|] eqn:C.
    + apply cut_behind in C as (l & ->).
      * cbn [app]. now rewrite upto_name.
      * exists 61%N. split; [apply in_or_app; right; now left|]. intros [I|I]; [subst q; cbn [In] in Lq; destruct Lq as [A|[A|[]]]; discriminate A|].
        rewrite Forall_forall in Nm. destruct (name_not_in _ (Nm _ I)) as [A _]. apply A. now left.
      * intros I. rewrite <- pat_is in I. vm_compute in I. cbn [In] in Lq. destruct Lq as [<-|[<-|[]]]; repeat (destruct I as [I|I]; [discriminate I|]); exact I.
      * discriminate.
    + cbn [app]. now rewrite upto_name.
  - unfold coding_of. rewrite cut_none; [reflexivity|]. intros K. apply N. apply (occurs_app _ _ e); [now apply seps_not_pat|discriminate|exact K].
Qed.
Lemma letters_one_line s : forallb (fun c => negb (line_sep (code c))) s = true -> on_one_line (letters s).
Proof.
  intros H c I S. unfold letters in I. apply in_map_iff in I as (x & <- & I). rewrite forallb_forall in H. specialize (H x I).
  apply line_sep_iff in S. rewrite S in H. discriminate H.
Qed.
Lemma one_line_app a b : on_one_line a -> on_one_line b -> on_one_line (a ++ b).
Proof. intros A B c I. apply in_app_or in I as [I|I]; [now apply A|now apply B]. Qed.
Lemma told_one_line line coding : tells line coding -> on_one_line line.
Proof.
  intros [D|[(r & -> & O & _) _]].
  - destruct D as [before after q O1 O2 N1 Nm Q].
    assert (OQ : on_one_line [q]).
    { intros c [<-|[]] S. assert (EQ : letters $"'""" = [39; 34]%N) by reflexivity. rewrite EQ in Q. cbn [In] in Q.
      unfold separator in S. cbn [In] in S. destruct Q as [<-|[<-|[]]]; repeat (destruct S as [S|S]; [discriminate S|]); exact S. }
    repeat apply one_line_app; auto; try (apply letters_one_line; reflexivity).
    intros c I. rewrite Forall_forall in Nm. now apply name_not_in, Nm.
  - apply one_line_app; [apply letters_one_line; reflexivity|exact O].
Qed.
Lemma told_start line coding : tells line coding -> exists r, line = [60; 63; 120; 109; 108]%N ++ r.
Proof. intros [D|[(r & -> & _) _]]; [destruct D|]; eexists; reflexivity. Qed.
Lemma begins_start line t : begins_with line t -> (exists r, line = [60; 63; 120; 109; 108]%N ++ r) -> exists r, t = [60; 63; 120; 109; 108]%N ++ r.
Proof. intros B (r & ->). destruct B; [exists (r ++ c :: rest); now rewrite app_assoc|now exists r]. Qed.

(** * The files *)
Lemma get_ok utf7 file ty ex d line coding e : file_type utf7 file = Some (ty, ex, d) -> tells line coding ->
  first_line d file = Ok (line ++ e) -> Forall separator e -> getXMLFileEncoding utf7 file = Ok (coding, ty, ex).
Proof. intros F T L S. unfold getXMLFileEncoding. rewrite F, L. cbn [rbind]. rewrite (coding_told _ _ _ T S). reflexivity. Qed.
Ltac by_start E := unfold file_type; rewrite E; reflexivity.
Lemma scalar_ok c : (c < 55296)%N -> scalar c. Proof. now left. Qed.

Lemma stored_reported utf7 line coding t file ty ex : tells line coding -> begins_with line t -> Forall scalar t -> stored t file ty ex ->
  getXMLFileEncoding utf7 file = Ok (coding, ty, ex).
Proof.
  intros T B F St. pose proof (told_one_line _ _ T) as One. destruct (begins_start _ _ B (told_start _ _ T)) as (r & Er).
  destruct St as [|be|be|be|be].
  - assert (E : firstn 4 (flat_map utf8_of (mark :: t)) = [239; 187; 191; 60]%N) by (rewrite Er; reflexivity).
    assert (FT : file_type utf7 (flat_map utf8_of (mark :: t)) = Some ($"utf-8", $"with_BOM", decoded next_utf8)) by by_start E.
    assert (SM : Forall scalar (mark :: t)) by (constructor; [right; split; [vm_compute; discriminate|reflexivity]|exact F]).
    (* the mark is the first character of the line *)
    assert (BM : begins_with (mark :: line) (mark :: t)).
    { destruct B; [|constructor]. change (mark :: line ++ c :: rest) with ((mark :: line) ++ c :: rest). now constructor. }
    assert (OM : on_one_line (mark :: line)).
    { intros c [<-|I]; [|now apply One]. unfold separator. cbn [In]. intros H. repeat (destruct H as [H|H]; [discriminate H|]). exact H. }
    destruct (line_of_coded next_utf8 utf8_of scalar encodes_utf8 eq_refl (decoded next_utf8) [] (mark :: t) (mark :: line) SM OM BM) as (e & Le & Se);
      [reflexivity|cbn; intros n H; lia|].
    cbn [app] in Le. unfold getXMLFileEncoding. rewrite FT, Le. cbn [rbind].
    assert (K : coding_of (mark :: line ++ e) = Ok coding); [|now rewrite K].
    pose proof (coding_told _ _ _ T Se) as K. unfold coding_of in *. cbn [cut].
    assert (S0 : starts (text_of $"encoding=") (mark :: line ++ e) = None) by reflexivity.
    rewrite S0. destruct (cut (text_of $"encoding=") (line ++ e)) as [[a b]|]; exact K.
  - destruct (line_of_coded (next_utf16 be) (utf16_of be) scalar (encodes_utf16 be) eq_refl (decoded (next_utf16 be)) [] t line F One B) as (e & Le & Se);
      [reflexivity|cbn; intros n H; lia|]. cbn [app] in Le.
    apply (get_ok utf7 _ _ _ (decoded (next_utf16 be)) line coding e); auto.
    assert (E : firstn 4 (flat_map (utf16_of be) t) = if be then [0; 60; 0; 63]%N else [60; 0; 63; 0]%N) by (rewrite Er; destruct be; reflexivity).
    destruct be; by_start E.
  - set (head := if be then [254; 255]%N else [255; 254]%N).
    assert (Ef : flat_map (utf16_of be) (mark :: t) = head ++ flat_map (utf16_of be) t) by (destruct be; reflexivity). rewrite Ef.
    destruct (line_of_coded (next_utf16 be) (utf16_of be) scalar (encodes_utf16 be) eq_refl utf16_bom head t line F One B) as (e & Le & Se);
      [intros b; unfold head; destruct be; reflexivity|unfold head; intros n H; destruct be; cbn in H; destruct n as [|[|n]]; try lia; reflexivity|].
    apply (get_ok utf7 _ _ _ utf16_bom line coding e); auto.
    assert (E : firstn 4 (head ++ flat_map (utf16_of be) t) = if be then [254; 255; 0; 60]%N else [255; 254; 60; 0]%N) by (rewrite Er; destruct be; reflexivity).
    destruct be; by_start E.
  - destruct (line_of_coded (next_utf32 be) (utf32_of be) scalar (encodes_utf32 be) eq_refl (decoded (next_utf32 be)) [] t line F One B) as (e & Le & Se);
      [reflexivity|cbn; intros n H; lia|]. cbn [app] in Le.
    apply (get_ok utf7 _ _ _ (decoded (next_utf32 be)) line coding e); auto.
    assert (E : firstn 4 (flat_map (utf32_of be) t) = if be then [0; 0; 0; 60]%N else [60; 0; 0; 0]%N) by (rewrite Er; destruct be; reflexivity).
    destruct be; by_start E.
  - set (head := if be then [0; 0; 254; 255]%N else [255; 254; 0; 0]%N).
    assert (Ef : flat_map (utf32_of be) (mark :: t) = head ++ flat_map (utf32_of be) t) by (destruct be; reflexivity). rewrite Ef.
    destruct (line_of_coded (next_utf32 be) (utf32_of be) scalar (encodes_utf32 be) eq_refl utf32_bom head t line F One B) as (e & Le & Se);
      [intros b; unfold head; destruct be; reflexivity|unfold head; intros n H; destruct be; cbn in H; destruct n as [|[|[|[|n]]]]; try lia; reflexivity|].
    apply (get_ok utf7 _ _ _ utf32_bom line coding e); auto.
    assert (E : firstn 4 (head ++ flat_map (utf32_of be) t) = head) by (destruct be; reflexivity).
    unfold head in *. destruct be; by_start E.
Qed.

Lemma ascii_prefix a rest n : Forall (fun c => (c < 128)%N) a -> n <= length a -> decoded next_ascii (firstn n (a ++ rest)) = (firstn n a, false).
Proof.
  intros F H. rewrite firstn_app. replace (n - length a) with 0 by lia. rewrite firstn_O, app_nil_r. clear H rest. unfold decoded.
  revert n. induction F as [|c a C F IH]; intros n; destruct n as [|n]; try reflexivity.
  cbn [firstn length decode_with next_ascii]. rewrite (proj2 (N.ltb_lt _ _) C). now rewrite IH.
Qed.
Lemma ascii_reported utf7 line coding a rest : tells line coding -> begins_with line a -> Forall (fun c => (c < 128)%N) a ->
  rest = [] \/ 2 * length line + 73 <= length a ->
  getXMLFileEncoding utf7 (a ++ rest) = Ok (coding, $"ascii", $"no_BOM").
Proof.
  intros T B F R. pose proof (told_one_line _ _ T) as One. destruct (begins_start _ _ B (told_start _ _ T)) as (r & Er).
  assert (FT : file_type utf7 (a ++ rest) = Some ($"ascii", $"no_BOM", decoded next_ascii)).
  { assert (E : firstn 4 (a ++ rest) = [60; 63; 120; 109]%N) by (rewrite Er; reflexivity). by_start E. }
  assert (L : exists e, first_line (decoded next_ascii) (a ++ rest) = Ok (line ++ e) /\ Forall separator e).
  { destruct R as [->|R].
    - rewrite app_nil_r. apply (first_line_whole _ a a line One B).
      + intros n. destruct (Nat.le_gt_cases n (length a)) as [H|H].
        * exists n. rewrite <- (app_nil_r a) at 1. now apply ascii_prefix.
        * exists (length a). rewrite !firstn_all2 by lia. rewrite <- (firstn_all a) at 1. rewrite <- (app_nil_r a) at 2. rewrite ascii_prefix by (auto; lia). now rewrite firstn_all.
      + assert (K : forall n, length (fst (decoded next_ascii (firstn n a))) = Nat.min n (length a)).
        { intros n. destruct (Nat.le_gt_cases n (length a)) as [H|H].
          - rewrite <- (app_nil_r a) at 1. rewrite ascii_prefix by auto. cbn [fst]. now rewrite firstn_length.
          - rewrite firstn_all2 by lia. rewrite <- (firstn_all a) at 1. rewrite <- (app_nil_r a) at 2. rewrite ascii_prefix by (auto; lia).
            cbn [fst]. rewrite firstn_length. lia. }
        intros n m H. rewrite !K. lia.
      + rewrite <- (firstn_all a) at 1. rewrite <- (app_nil_r a) at 2. rewrite ascii_prefix by (auto; lia). now rewrite firstn_all.
      + lia.
    - apply (first_line_start _ (a ++ rest) a line One B); [|exact R|rewrite app_length; lia].
      intros n H. now apply ascii_prefix. }
  destruct L as (e & Le & Se). now apply (get_ok utf7 _ _ _ (decoded next_ascii) line coding e).
Qed.

Lemma cp500_decoded b : decoded next_cp500 b = (map cp500 b, false).
Proof. unfold decoded. induction b as [|c b IH]; [reflexivity|]. cbn [length decode_with next_cp500 map]. now rewrite IH. Qed.
Definition cp500_starts : bool :=
  forallb (fun n => let x := N.of_nat n in
    implb (cp500 x =? 60)%N (x =? 76)%N && implb (cp500 x =? 63)%N (x =? 111)%N && implb (cp500 x =? 120)%N (x =? 167)%N && implb (cp500 x =? 109)%N (x =? 148)%N)
    (seq 0 256).
Lemma cp500_start x c y : (x < 256)%N -> cp500 x = c -> In (c, y) [(60, 76); (63, 111); (120, 167); (109, 148)]%N -> x = y.
Proof.
  intros H E I. assert (C : cp500_starts = true) by (vm_compute; reflexivity). unfold cp500_starts in C. rewrite forallb_forall in C.
  specialize (C (N.to_nat x)). rewrite Nnat.N2Nat.id in C. rewrite E in C.
  assert (J : In (N.to_nat x) (seq 0 256)) by (apply in_seq; lia). specialize (C J). clear J. cbv zeta in C.
  apply andb_true_iff in C as [C C4]. apply andb_true_iff in C as [C C3]. apply andb_true_iff in C as [C1 C2].
  destruct I as [I|[I|[I|[I|[]]]]]; apply (f_equal fst) in I as I1; apply (f_equal snd) in I as I2; cbn [fst snd] in I1, I2; subst c y; apply N.eqb_eq; rewrite <- I1 in *;
    [exact C1|exact C2|exact C3|exact C4].
Qed.
Lemma ebcdic_reported utf7 line coding file : tells line coding -> Forall (fun x => (x < 256)%N) file -> begins_with line (map cp500 file) ->
  getXMLFileEncoding utf7 file = Ok (coding, $"CP500", $"EBCDIC").
Proof.
  intros T F B. pose proof (told_one_line _ _ T) as One. destruct (begins_start _ _ B (told_start _ _ T)) as (r & Er).
  assert (FT : file_type utf7 file = Some ($"CP500", $"EBCDIC", decoded next_cp500)).
  { destruct file as [|x1 [|x2 [|x3 [|x4 file]]]]; try discriminate Er. cbn [map app] in Er.
    inversion F as [|? ? F1 F']; subst. inversion F' as [|? ? F2 F'']; subst. inversion F'' as [|? ? F3 F3']; subst. inversion F3' as [|? ? F4 F4']; subst.
    assert (x1 = 76%N) by (apply (cp500_start x1 60); [exact F1|congruence|cbn [In]; tauto]).
    assert (x2 = 111%N) by (apply (cp500_start x2 63); [exact F2|congruence|cbn [In]; tauto]).
    assert (x3 = 167%N) by (apply (cp500_start x3 120); [exact F3|congruence|cbn [In]; tauto]).
    assert (x4 = 148%N) by (apply (cp500_start x4 109); [exact F4|congruence|cbn [In]; tauto]).
    subst. reflexivity. }
  destruct (first_line_whole (decoded next_cp500) file (map cp500 file) line One B) as (e & Le & Se).
  - intros n. exists n. rewrite cp500_decoded. now rewrite firstn_map.
  - intros n m H. rewrite !cp500_decoded. cbn [fst]. rewrite !map_length, !firstn_length. lia.
  - apply cp500_decoded.
  - now rewrite map_length.
  - now apply (get_ok utf7 _ _ _ (decoded next_cp500) line coding e).
Qed.

(** * What is refused *)
Lemma fill_err D len fl size want fuel : forall n e, fill D len fuel fl size want n = Err e -> e = ValueError.
Proof.
  induction fuel as [|fuel IH]; intros n e; cbn [fill]; destruct (_ <=? _); try discriminate; destruct (len <=? n); try (destruct (snd (D n)); congruence); try congruence.
  destruct (_ && _); [congruence|apply IH].
Qed.
Lemma readline_err D len fuel : forall z n r e, readline D len fuel z n r = Err e -> e = ValueError.
Proof.
  induction fuel as [|fuel IH]; intros z n r e; cbn [readline]; [congruence|].
  destruct (fill D len len true (N.to_nat z) (r + N.to_nat z) n) as [n1|x] eqn:E1; cbn [rbind]; [|intros H; assert (x = e) by congruence; subst; now apply fill_err in E1].
  set (data := skipn _ _). set (r1 := Nat.min _ _).
  destruct (ends_with (N.eqb 13) data).
  - destruct (fill D len len false 1 (r1 + 1) n1) as [n2|x] eqn:E2; cbn [rbind]; [|intros H; assert (x = e) by congruence; subst; now apply fill_err in E2].
    destruct (splitlines _) as [|l [|l2 ls]]; [destruct data; [discriminate|apply IH]|destruct (ends_with line_sep l); [discriminate|]; destruct data; [discriminate|apply IH]|discriminate].
  - cbn [rbind]. destruct (splitlines _) as [|l [|l2 ls]]; [destruct data; [discriminate|apply IH]|destruct (ends_with line_sep l); [discriminate|]; destruct data; [discriminate|apply IH]|discriminate].
Qed.
Lemma refused_iff_untyped utf7 file : getXMLFileEncoding utf7 file = Err RuntimeError <-> file_type utf7 file = None.
Proof.
  unfold getXMLFileEncoding. destruct (file_type utf7 file) as [[[ty ex] d]|]; [|tauto]. split; [|discriminate].
  destruct (first_line d file) as [l|x] eqn:E; cbn [rbind].
  - unfold coding_of. destruct (cut (text_of $"encoding=") l) as [[u v]|]; cbn [rbind]; [|discriminate].
    destruct (match cut (text_of $"encoding=") v with Some (w, _) => w | None => v end); discriminate.
  - intros H. assert (x = RuntimeError) by congruence. subst. apply readline_err in E. discriminate E.
Qed.
Lemma beq_iff a : forall b, beq a b = true <-> a = b.
Proof.
  induction a as [|x a IH]; intros [|y b]; cbn [beq]; try (split; [discriminate|discriminate]); [tauto|].
  rewrite andb_true_iff, N.eqb_eq, IH. split; [intros [-> ->]; reflexivity|intros H; split; congruence].
Qed.
Lemma in_starts m : existsb (beq m) known_starts = true -> In m known_starts.
Proof. intros H. apply existsb_exists in H as (x & I & E). apply beq_iff in E. now subst. Qed.
Lemma untyped_iff utf7 file : file_type utf7 file = None <-> ~ recognised file.
Proof.
  assert (Pre : forall (m : list N) k, length m = k -> beq (firstn k file) m = true <-> exists r, file = m ++ r).
  { intros m k K. rewrite beq_iff. split.
    - intros H. exists (skipn k file). rewrite <- H. symmetry. apply firstn_skipn.
    - intros (r & ->). subst k. rewrite firstn_app, firstn_all, Nat.sub_diag, firstn_O. apply app_nil_r. }
  assert (F2 : firstn 2 (firstn 4 file) = firstn 2 file) by (rewrite firstn_firstn; reflexivity).
  assert (F3 : firstn 3 (firstn 4 file) = firstn 3 file) by (rewrite firstn_firstn; reflexivity).
  unfold file_type. rewrite F2, F3. cbv zeta. split.
  - intros H (m & r & I & E). 
    assert (K : forall k, length m = k -> beq (firstn k file) m = true) by (intros k Hk; apply (Pre m k Hk); now exists r).
    unfold known_starts in I. cbn [In] in I.
    repeat (destruct I as [<-|I]; [specialize (K _ eq_refl); cbn [length] in K; rewrite K in H;
      repeat match type of H with (if ?b then Some _ else _) = None => destruct b; [discriminate H|] end; discriminate H|]). exact I.
  - intros H.
    assert (K : forall m, In m known_starts -> beq (firstn (length m) file) m = false).
    { intros m I. destruct (beq (firstn (length m) file) m) eqn:E; [|reflexivity]. apply (Pre m (length m) eq_refl) in E as (r & E). destruct H. now exists m, r. }
    assert (K4 : forall m a b, In [a; b] known_starts -> m = a :: b :: skipn 2 m -> length m = 4 -> beq (firstn 4 file) m = false).
    { intros m a b I Em Lm. destruct (beq (firstn 4 file) m) eqn:E; [|reflexivity]. apply (Pre m 4 Lm) in E as (r & E). destruct H.
      exists [a; b], (skipn 2 m ++ r). split; [exact I|]. rewrite E, Em at 1. reflexivity. }
    assert (K' : forall m, existsb (beq m) known_starts = true -> beq (firstn (length m) file) m = false) by (intros m I; apply K, in_starts, I).
    rewrite (K' [0; 0; 254; 255]%N eq_refl : beq (firstn 4 file) _ = false), (K' [0; 0; 255; 254]%N eq_refl : beq (firstn 4 file) _ = false),
      (K' [0; 0; 0; 60]%N eq_refl : beq (firstn 4 file) _ = false), (K' [0; 0; 60; 0]%N eq_refl : beq (firstn 4 file) _ = false),
      (K' [0; 60; 0; 0]%N eq_refl : beq (firstn 4 file) _ = false), (K' [0; 60; 0; 63]%N eq_refl : beq (firstn 4 file) _ = false),
      (K' [255; 254]%N eq_refl : beq (firstn 2 file) _ = false), (K' [254; 255]%N eq_refl : beq (firstn 2 file) _ = false),
      (K' [239; 187; 191]%N eq_refl : beq (firstn 3 file) _ = false), (K' [60; 63; 120; 109]%N eq_refl : beq (firstn 4 file) _ = false),
      (K' [60; 0; 0; 0]%N eq_refl : beq (firstn 4 file) _ = false), (K' [60; 0; 63; 0]%N eq_refl : beq (firstn 4 file) _ = false),
      (K' [76; 111; 167; 148]%N eq_refl : beq (firstn 4 file) _ = false), (K' [43; 65; 68; 119]%N eq_refl : beq (firstn 4 file) _ = false).
    rewrite (K4 [255; 254; 0; 0]%N 255%N 254%N (in_starts [255; 254]%N eq_refl) eq_refl eq_refl), (K4 [254; 255; 0; 0]%N 254%N 255%N (in_starts [254; 255]%N eq_refl) eq_refl eq_refl). reflexivity.
Qed.

(** the byte orders 2143 and 3412 *)
Lemma unknown_line file : file <> [] -> first_line unknown_order file = Err ValueError.
Proof.
  intros H. destruct file as [|x file]; [congruence|]. unfold first_line. cbn [readline length].
  assert (K : fill (fun n => unknown_order (firstn n (x :: file))) (S (length file)) (S (length file)) true (N.to_nat 72) (0 + N.to_nat 72) 0 = Err ValueError).
  { cbn [fill]. unfold unknown_order. cbn [fst snd length]. rewrite (proj2 (Nat.leb_gt _ _)) by lia.
    replace (S (length file) <=? 0) with false by reflexivity. rewrite skipn_nil. reflexivity. }
  rewrite K. reflexivity.
Qed.
Lemma unusual_refused utf7 m r : In m [[0; 0; 255; 254]; [254; 255; 0; 0]; [0; 0; 60; 0]; [0; 60; 0; 0]]%N ->
  getXMLFileEncoding utf7 (m ++ r) = Err ValueError.
Proof.
  intros I. unfold getXMLFileEncoding.
  assert (F : exists ty ex, file_type utf7 (m ++ r) = Some (ty, ex, unknown_order)).
  { unfold file_type. assert (E : firstn 4 (m ++ r) = m) by (destruct I as [<-|[<-|[<-|[<-|[]]]]]; reflexivity). rewrite E.
    destruct I as [<-|[<-|[<-|[<-|[]]]]]; eexists _, _; reflexivity. }
  destruct F as (ty & ex & ->). rewrite unknown_line; [reflexivity|]. destruct I as [<-|[<-|[<-|[<-|[]]]]]; discriminate.
Qed.
Lemma cut_complete pat s : cut pat s = None -> ~ occurs pat s.
Proof.
  intros H (a & b & E). revert s H E. induction a as [|c a IH]; intros s H E; subst s.
  - cbn [app] in H. assert (S0 : starts pat (pat ++ b) = Some b) by (now apply starts_iff).
    revert S0 H. generalize (pat ++ b). intros w S0. destruct w; cbn [cut]; rewrite S0; discriminate.
  - cbn [app cut] in H. destruct (starts pat (c :: a ++ pat ++ b)); [discriminate|].
    destruct (cut pat (a ++ pat ++ b)) as [[u v]|] eqn:E; [discriminate|]. exact (IH _ E eq_refl).
Qed.
Lemma one_line_b s : forallb (fun c => negb (line_sep c)) s = true -> on_one_line s.
Proof.
  intros H c I S. rewrite forallb_forall in H. specialize (H c I). apply line_sep_iff in S. rewrite S in H. discriminate H.
Qed.
