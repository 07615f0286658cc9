From Verif Require Import PyStrProofs.
From Verif Require Import Mpc80.
From Verif Require Export DocProofs2.
Local Open Scope nat_scope.

(** * Data records *)
Definition filled (s : cstate) (base : frame) (rest : list frame) (fo : bool) (xs : list xml) : Prop :=
  exists co cx se,
    xs = [] /\ is_at s (base :: rest) true fo false co cx se \/
    exists ys f, xs = ys ++ [fclose f] /\ is_at s (f :: push_kids ys base :: rest) false fo false co cx se.

Lemma push_app a b f : push_kids b (push_kids a f) = push_kids (a ++ b) f.
Proof. destruct f as [[[t x] c] k]. cbn. now rewrite app_assoc. Qed.
Lemma push_nil f : push_kids [] f = f.
Proof. destruct f as [[[t x] c] k]. cbn. now rewrite app_nil_r. Qed.

(** opening the element of a record *)
Lemma open_ok ty s base rest fo xs : valid_name ty = true -> filled s base rest fo xs ->
  exists s' co cx se, open_record ty s = (s', None) /\ is_at s' ((ty, [], [], []) :: push_kids xs base :: rest) false fo false co cx se.
Proof.
  intros V (co & cx & se & [(-> & A)|(ys & f & -> & A)]); unfold open_record; rewrite (at_fe _ _ _ _ _ _ _ _ A).
  - destruct (stk_ok (OAddPush ty [] []) _ _ ((ty, [], [], []) :: base :: rest) _ _ _ _ _ _ A eq_refl) as (s' & E & A'); [cbn; now rewrite V|].
    unfold andthen. rewrite E. exists (set_firstElement false s'), co, cx, se. rewrite push_nil. split; [reflexivity|].
    destruct A'. constructor; auto.
  - destruct (stk_ok (OAddPopPush ty [] []) _ _ ((ty, [], [], []) :: push_kids (ys ++ [fclose f]) base :: rest) _ _ _ _ _ _ A) as (s' & E & A').
    + cbn. now rewrite push_app.
    + cbn. now rewrite V.
    + exists s', co, cx, se. auto.
Qed.
Lemma record_elements al d text : (forall x, field_text d x = strip (text x)) ->
  map (fun kv : str * str => Elem (fst kv) [] (snd kv) []) (record_fields al d) =
  flat_map (fun x => match strip (text x) with [] => [] | v => [leaf x v] end) al.
Proof.
  intros H. unfold record_fields. induction al as [|x al IH]; [reflexivity|]. cbn [flat_map]. rewrite map_app. f_equal; [|exact IH]. rewrite H.
  destruct (strip (text x)); reflexivity.
Qed.
Lemma fields_valid l : op_valid (OAddList l) = forallb xml_valid (map (fun kv : str * str => Elem (fst kv) [] (snd kv) []) l).
Proof.
  cbn [op_valid]. rewrite forallb_map. apply forallb_ext2. intros kv. symmetry. apply leaf_valid.
Qed.
Lemma element_valid tag al text : valid_name tag = true ->
  xml_valid (element tag al text) = forallb xml_valid (flat_map (fun x => match strip (text x) with [] => [] | v => [leaf x v] end) al).
Proof. intros V. unfold element. cbn [xml_valid]. rewrite V. cbn. reflexivity. Qed.
(** filling it *)
Lemma fill_ok ty al d text s base rest fo xs co cx se : valid_name ty = true -> (forall x, field_text d x = strip (text x)) ->
  is_at s ((ty, [], [], []) :: push_kids xs base :: rest) false fo false co cx se ->
  if xml_valid (element ty al text) then exists s', stk (OAddList (record_fields al d)) s = (s', None) /\ filled s' base rest fo (xs ++ [element ty al text])
  else fails (stk (OAddList (record_fields al d)) s).
Proof.
  intros V H A. rewrite element_valid, <- (record_elements al d text H), <- fields_valid by auto.
  destruct (op_valid (OAddList (record_fields al d))) eqn:OV.
  - destruct (stk_ok (OAddList (record_fields al d)) _ _ _ _ _ _ _ _ _ A eq_refl OV) as (s' & E & A'). exists s'. split; auto.
    exists co, cx, se. right. exists xs. eexists. split; [|exact A'].
    cbn. unfold element. now rewrite (record_elements al d text H).
  - exact (stk_bad (OAddList (record_fields al d)) _ _ _ _ _ _ _ _ _ A eq_refl OV).
Qed.

Lemma py_int_err s e : py_int s = Err e -> e = ValueError.
Proof.
  unfold py_int. repeat match goal with |- context [match ?x with _ => _ end] => destruct x end; intros [= <-]; reflexivity.
Qed.
Lemma unRadix_err s : unRadix62_4 s <> Err RuntimeError.
Proof.
  unfold unRadix62_4, chat, unpackLetter.
  destruct (nth_error s 1) as [c|]; [|discriminate]. cbn [rbind]. destruct (cfind c packLetters); [|discriminate]. cbn [rbind].
  destruct (nth_error s 2) as [c2|]; [|discriminate]. cbn [rbind]. destruct (cfind c2 packLetters); [|discriminate]. cbn [rbind].
  destruct (nth_error s 3) as [c3|]; [|discriminate]. cbn [rbind]. destruct (cfind c3 packLetters); [|discriminate]. cbn [rbind].
  destruct (nth_error s 4) as [c4|]; [|discriminate]. cbn [rbind]. destruct (cfind c4 packLetters); discriminate.
Qed.
Lemma unpackRef_err p : unpackRef p <> Err RuntimeError.
Proof.
  assert (forall s (f : Z -> str), (do n <- py_int s; Ok (f n)) <> Err RuntimeError) as PI.
  { intros s f. destruct (py_int s) as [n|e] eqn:E; cbn [rbind]; [discriminate|]. apply py_int_err in E. subst. discriminate. }
  assert (forall s (f : Z -> str), (do n <- unRadix62_4 s; Ok (f n)) <> Err RuntimeError) as UR.
  { intros s f. pose proof (unRadix_err s) as U. destruct (unRadix62_4 s) as [n|e] eqn:E; cbn [rbind]; congruence. }
  unfold unpackRef. destruct p as [|c r]; [discriminate|].
  destruct (cmem c $"0123456789"); [apply PI|]. destruct (ceqb c "@"); [apply PI|]. destruct (ceqb c "#"); [apply UR|].
  destruct (cfind c smalls); [apply PI|]. destruct (ceqb c "~"); [apply UR|discriminate].
Qed.

Section Data.
  Variable T : tables.
  Variables opt rad : list str.
  Hypothesis HO : dget $"optical" (allowed T) = Some opt.
  Hypothesis HR : dget $"radar" (allowed T) = Some rad.

  Lemma header_of d : record_of_file d -> header d = true ->
    exists k v, d = texts [($"headerKeyword", k); ($"headerValue", v); ($"code", $"0")].
  Proof.
    unfold header, is_kind. intros [H|[H|[(c & C & I) _]]] K; [exact H| |].
    - unfold is_kind in H. apply streqb_eq in H, K. rewrite H in K. discriminate.
    - rewrite (text_some _ _ _ C) in K. apply streqb_eq in K. injection K as ->.
      exfalso. repeat (destruct I as [I|I]; [discriminate I|]). exact I.
  Qed.
  Definition going (r : cstate * option exn) (s' : cstate) : Prop := r = (s', None) \/ r = (s', Some RuntimeError).
  Lemma optical_step d s base rest fo xs : record_of_file d -> header d = false -> is_kind "R" d = false -> left_out d = false ->
    filled s base rest fo xs ->
    match row opt rad d with
    | Some ys => exists s', going (convert_optical T d s) s' /\ filled s' base rest fo (xs ++ ys)
    | None => fails (convert_optical T d s)
    end.
  Proof.
    intros RF NH NR NL F. unfold row. rewrite NL, NR.
    destruct RF as [(k & v & ->)|[H|((c & C & I) & P1 & P2 & P3 & P4 & P5 & P6 & (pg & PG) & P7 & N1 & N2 & N3 & N4 & N5)]]; [discriminate NH|congruence|].
    assert (exists c, dget $"code" d = Some (@Some str [c]) /\ In c $"A PeCBTMcEOHNnSVX") as C'.
    { exists c. split; auto. change $"A PeCBTMcEOHNnSVXx" with ($"A PeCBTMcEOHNnSVX" ++ $"x") in I. apply in_app_or in I as [I|[<-|[]]]; auto.
      unfold left_out, is_kind in NL. rewrite (text_some _ _ _ C) in NL. discriminate NL. }
    pose proof (optical_item_spec d C' P1 P2 P3 P4 P5 P6 N1 N2 N3 N4 N5) as S.
    destruct (open_ok $"optical" _ _ _ _ _ eq_refl F) as (s1 & co & cx & se & E1 & A1).
    unfold convert_optical, andthen. rewrite E1.
    destruct (optical_item d) as [d'|e].
    - destruct S as (p & r & -> & -> & FT). rewrite HO.
      pose proof (fill_ok $"optical" opt d' _ _ _ _ _ _ _ _ _ eq_refl FT A1) as X. unfold checked.
      destruct (xml_valid (element $"optical" opt (optical_text p r d))).
      + destruct X as (s' & E & F'). exists s'. split; [left; exact E|exact F'].
      + exact X.
    - destruct S as [S|[_ S]]; [congruence|]. rewrite PG, S. exists s1, e. split; [reflexivity|].
      intros ->. unfold reference in S. now apply unpackRef_err in S.
  Qed.
  Lemma radar_step d s base rest fo xs : is_kind "R" d = true -> left_out d = false -> filled s base rest fo xs ->
    match row opt rad d with
    | Some ys => exists s', going (convert_radar T d s) s' /\ filled s' base rest fo (xs ++ ys)
    | None => fails (convert_radar T d s)
    end.
  Proof.
    intros R NL F. unfold row. rewrite NL, R.
    destruct (open_ok $"radar" _ _ _ _ _ eq_refl F) as (s1 & co & cx & se & E1 & A1).
    unfold convert_radar, andthen. rewrite E1, HR.
    assert (forall x, field_text d x = strip (text_of d x)) as FT.
    { intros x. rewrite field_text_eq. unfold text_of, text. destruct (dget x d) as [[v|]|]; reflexivity. }
    pose proof (fill_ok $"radar" rad d _ _ _ _ _ _ _ _ _ eq_refl FT A1) as X. unfold checked.
    destruct (xml_valid (element $"radar" rad (text_of d))).
    - destruct X as (s' & E & F'). exists s'. split; [left; exact E|exact F'].
    - exact X.
  Qed.
  Lemma not_in_block s base rest fo xs : filled s base rest fo xs -> c_inObsBlock s = false.
  Proof. intros (co & cx & se & [(_ & A)|(? & ? & _ & A)]); now destruct A. Qed.
  Lemma data_step d s base rest fo xs : record_of_file d -> header d = false -> filled s base rest fo xs ->
    match row opt rad d with
    | Some ys => exists s', going (convertit T d s) s' /\ filled s' base rest fo (xs ++ ys)
    | None => fails (convertit T d s)
    end.
  Proof.
    intros RF NH F. pose proof (not_in_block _ _ _ _ _ F) as NB.
    assert (forall (r : cm), (andthen flush_context r) s = r s) as FL.
    { intros r. unfold andthen, flush_context. now rewrite NB. }
    destruct (is_kind "R" d) eqn:R.
    - assert (iget $"code" d = Ok $"R") as C.
      { unfold is_kind, text_of in R. unfold iget. apply streqb_eq in R. destruct (dget $"code" d) as [[v|]|]; try discriminate R. now rewrite R. }
      unfold convertit. rewrite C. change (code_table $"R") with (Some Radar). cbv iota zeta. rewrite FL.
      apply radar_step; auto. unfold left_out, is_kind in *. apply streqb_eq in R. rewrite R. reflexivity.
    - pose proof RF as RF'. destruct RF as [(k & v & ->)|[H|((c & C & I) & P1 & P2 & P3 & P4 & P5 & P6 & _ & P7 & _)]]; [discriminate NH|congruence|].
      unfold convertit. rewrite (iget_some _ _ _ C). cbv zeta.
      assert (code_table [c] = Some Rover \/ code_table [c] = Some Optical \/ code_table [c] = Some Satellite \/ code_table [c] = Some Offset \/
              code_table [c] = Some Occultation \/ code_table [c] = None) as CT.
      { destruct I as [<-|[<-|[<-|[<-|[<-|[<-|[<-|[<-|[<-|[<-|[<-|[<-|[<-|[<-|[<-|[<-|[<-|[<-|[]]]]]]]]]]]]]]]]]]]; vm_compute; tauto. }
      assert (code_table [c] = Some Rover <-> is_kind "V" d = true) as CV.
      { unfold is_kind. rewrite (text_some _ _ _ C).
        destruct I as [<-|[<-|[<-|[<-|[<-|[<-|[<-|[<-|[<-|[<-|[<-|[<-|[<-|[<-|[<-|[<-|[<-|[<-|[]]]]]]]]]]]]]]]]]]]; vm_compute; split; congruence. }
      assert (code_table [c] = None <-> is_kind "x" d = true) as CX.
      { unfold is_kind. rewrite (text_some _ _ _ C).
        destruct I as [<-|[<-|[<-|[<-|[<-|[<-|[<-|[<-|[<-|[<-|[<-|[<-|[<-|[<-|[<-|[<-|[<-|[<-|[]]]]]]]]]]]]]]]]]]]; vm_compute; split; congruence. }
      assert (code_table [c] <> Some Header) as NHd by (destruct CT as [->|[->|[->|[->|[->| ->]]]]]; discriminate).
      destruct (left_out d) eqn:LO.
      + unfold row. rewrite LO, app_nil_r. exists s. split; [|exact F]. left. unfold left_out in LO.
        destruct (is_kind "x" d) eqn:X.
        * rewrite (proj2 CX eq_refl). rewrite FL. reflexivity.
        * cbn [orb] in LO. apply andb_prop in LO as [V B]. rewrite (proj2 CV V). rewrite FL.
          destruct (P7 V) as (p & Pp). rewrite (iget_some _ _ _ Pp). rewrite (text_some _ _ _ Pp) in B. now rewrite B.
      + assert (code_table [c] <> None) as NN by (intros Q; unfold left_out in LO; rewrite (proj1 CX Q) in LO; discriminate).
        pose proof (optical_step d s base rest fo xs RF' NH R LO F) as X.
        destruct CT as [E|CT].
        * rewrite E, FL. destruct (P7 (proj1 CV E)) as (p & Pp). rewrite (iget_some _ _ _ Pp).
          unfold left_out in LO. rewrite (proj1 CV E), (text_some _ _ _ Pp) in LO. apply orb_false_iff in LO as [_ LO]. cbn [andb] in LO. rewrite LO. exact X.
        * destruct CT as [->|[->|[->|[->|Q]]]]; [now rewrite FL..|congruence].
  Qed.
  Lemma data_steps ds : forall s base rest fo xs rs, Forall record_of_file ds -> Forall (fun d => header d = false) ds -> filled s base rest fo xs ->
    match rows opt rad ds with
    | Some ys => exists s', feed (convertit T) (ds ++ rs) s = feed (convertit T) rs s' /\ filled s' base rest fo (xs ++ ys)
    | None => exists s' e, feed (convertit T) (ds ++ rs) s = (s', Some e)
    end.
  Proof.
    induction ds as [|d ds IH]; intros s base rest fo xs rs FR FH F.
    - cbn. exists s. rewrite app_nil_r. auto.
    - pose proof (data_step d s base rest fo xs (Forall_inv FR) (Forall_inv FH) F) as X.
      change (rows opt rad (d :: ds)) with (match row opt rad d, rows opt rad ds with Some x, Some y => Some (x ++ y) | _, _ => None end).
      cbn [app]. destruct (row opt rad d) as [ys|].
      + destruct X as (s1 & G & F1). pose proof (IH s1 base rest fo (xs ++ ys) rs (Forall_inv_tail FR) (Forall_inv_tail FH) F1) as Y.
        assert (feed (convertit T) (d :: ds ++ rs) s = feed (convertit T) (ds ++ rs) s1) as E.
        { cbn [feed]. destruct G as [-> | ->]; reflexivity. }
        rewrite E. destruct (rows opt rad ds) as [zs|]; [|exact Y]. destruct Y as (s2 & E2 & F2). exists s2. rewrite app_assoc. auto.
      + apply feed_fails. exact X.
  Qed.
End Data.
