From Verif Require Import FmtRe PyStrProofs PackProofs13 PackProofs14 PyReProofs.
From Verif Require Import Mpc80.
From Verif Require Export Mpc80Proofs7.
Local Open Scope nat_scope.

Lemma read_line_cases l : ~ In nl l ->
  read_line l = [] \/ (exists d, read_line l = [Got d] /\ decoded d) \/ (exists e, read_line l = [Stop e] /\ e <> RuntimeError).
Proof.
  intros NL. unfold read_line. destruct (streqb l (spaces (length l))) eqn:B; auto.
  destruct (decode80 l) as [d|e] eqn:D.
  - right. left. exists d. split; auto. exists l. split; [now apply decode_iff|]. intros ->. discriminate B.
  - destruct e; auto; right; right; eexists; split; try reflexivity; discriminate.
Qed.
Section Run.
  Context {C : Type} (cb : item -> C -> C * option exn).
  Definition run (evs : list event) (c : C) : C * option exn :=
    then_end (feed cb (fst (records evs)) c) (snd (records evs)).

  Lemma parse_line_eq x l ps c : l = removelast x -> ~ In nl l ->
    parse_line cb x ps c =
    match read_line l with
    | [] => (ps, c, None)
    | Stop e :: _ => (ps, c, Some e)
    | Got d :: _ =>
        match pair_step ps d with
        | Err RuntimeError => (ps, c, None)
        | Err e => (ps, c, Some e)
        | Ok (ps', None) => (ps', c, None)
        | Ok (ps', Some thing) =>
            match cb thing c with
            | (c', Some RuntimeError) => (ps', c', None)
            | (c', e) => (ps', c', e)
            end
        end
    end.
  Proof.
    intros X NL. unfold parse_line. rewrite <- X. unfold read_line.
    destruct (streqb l (spaces (length l))) eqn:B.
    - apply streqb_eq in B. pose proof (blank_yes l B). destruct (re_match blankRegex l); [reflexivity|contradiction].
    - destruct (re_match blankRegex l) eqn:M.
      + assert (l = spaces (length l)) as E by (apply blank_no; auto; congruence).
        exfalso. rewrite <- E in B. rewrite streqb_refl in B. discriminate.
      + destruct (decode80 l) as [d|e]; cbn [rbind]; [reflexivity|]. destruct e; reflexivity.
  Qed.
  Lemma records_single d rest : first_line d = false -> second_line d = false ->
    records (Got d :: rest) = (d :: fst (records rest), snd (records rest)).
  Proof. intros F S. cbn [records]. rewrite F, S. destruct (records rest); reflexivity. Qed.
  Lemma records_second d rest : first_line d = false -> second_line d = true -> records (Got d :: rest) = records rest.
  Proof. intros F S. cbn [records]. now rewrite F, S. Qed.
  Lemma records_pair a b rest : first_line a = true -> pairs_with a b = true ->
    records (Got a :: Got b :: rest) = if same_record a b then (joined a b :: fst (records rest), snd (records rest)) else ([], Some NameError).
  Proof. intros F P. cbn [records]. rewrite F, P. destruct (same_record a b); auto. destruct (records rest); reflexivity. Qed.
  Lemma records_first a b rest : first_line a = true -> pairs_with a b = false -> first_line b = true ->
    records (Got a :: Got b :: rest) = records (Got b :: rest).
  Proof. intros F P G. cbn [records]. rewrite F, P, G. reflexivity. Qed.
  Lemma records_drop a b rest : first_line a = true -> pairs_with a b = false -> first_line b = false ->
    records (Got a :: Got b :: rest) = records rest.
  Proof. intros F P G. cbn [records]. now rewrite F, P, G. Qed.
  Lemma feed_cons d rs c (P : C * option exn -> C * option exn) :
    then_end (feed cb (d :: rs) c) None = feed cb (d :: rs) c.
  Proof. destruct (feed cb (d :: rs) c) as [c' [e|]]; reflexivity. Qed.

  Theorem parse_lines_run ls : Forall (fun x => ~ In nl (removelast x)) ls ->
    (forall c, parse_lines cb ls p_none c = run (read (map (@removelast ascii) ls)) c) /\
    (forall a c, decoded a -> first_line a = true ->
       parse_lines cb ls (pending a) c = run (Got a :: read (map (@removelast ascii) ls)) c).
  Proof.
    induction 1 as [|x ls NL F [IH1 IH2]].
    - split; [reflexivity|]. intros a c D FA. unfold run, read. cbn [flat_map records map parse_lines]. rewrite FA. reflexivity.
    - cbn [map parse_lines]. remember (removelast x) as l eqn:X. change (read (l :: map (@removelast ascii) ls)) with (read_line l ++ read (map (@removelast ascii) ls)).
      assert (forall thing c ps rs e,
         (forall c', parse_lines cb ls ps c' = then_end (feed cb rs c') e) ->
         match (match cb thing c with
            | (c', Some RuntimeError) => (ps, c', None)
            | (c', e) => (ps, c', e)
            end) with
          | (ps', c', None) => parse_lines cb ls ps' c'
          | (_, c', Some e) => (c', Some e)
          end = then_end (feed cb (thing :: rs) c) e) as CB.
      { intros thing c ps rs e IH. cbn [feed]. destruct (cb thing c) as [c' [e'|]]; [|apply IH].
        destruct e'; try reflexivity; apply IH. }
      split.
      + intros c. rewrite (parse_line_eq x l) by auto.
        destruct (read_line_cases l NL) as [E|[(d & E & D)|(e & E & NE)]]; rewrite E; cbn [app].
        * apply IH1.
        * rewrite step_none by auto. destruct (first_line d) eqn:FD; cbn [orb].
          -- apply IH2; auto.
          -- destruct (second_line d) eqn:SD.
             ++ unfold run. rewrite records_second by auto. apply IH1.
             ++ unfold run. rewrite records_single by auto. cbn [fst snd]. apply CB. exact IH1.
        * reflexivity.
      + intros a c DA FA. rewrite (parse_line_eq x l) by auto.
        destruct (read_line_cases l NL) as [E|[(d & E & D)|(e & E & NE)]]; rewrite E; cbn [app].
        * apply IH2; auto.
        * rewrite step_pending by auto. destruct (pairs_with a d) eqn:P.
          -- unfold run. rewrite records_pair by auto. destruct (same_record a d).
             ++ cbn [fst snd]. apply CB. exact IH1.
             ++ reflexivity.
          -- destruct (first_line d) eqn:FD.
             ++ unfold run. rewrite records_first by auto. apply IH2; auto.
             ++ unfold run. rewrite records_drop by auto. apply IH1.
        * unfold run. cbn [records]. rewrite FA. reflexivity.
  Qed.
  Theorem parseFile_records ls g c : Forall (fun x => ~ In nl (removelast x)) ls ->
    parseFile cb (ls, g) c =
    let '(rs, e) := records (read (map (@removelast ascii) ls)) in then_end (then_end (feed cb rs c) e) g.
  Proof.
    intros F. unfold parseFile. cbn [fst snd]. rewrite (proj1 (parse_lines_run ls F)). unfold run.
    destruct (records _) as [rs e]. cbn [fst snd].
    destruct (then_end _ _) as [c' [e'|]]; reflexivity.
  Qed.
End Run.

(** * What is emitted *)
Theorem records_origin evs d : In d (fst (records evs)) ->
  (exists p q, evs = p ++ Got d :: q /\ first_line d = false /\ second_line d = false) \/
  (exists a b p q, evs = p ++ Got a :: Got b :: q /\ pairs_with a b = true /\ same_record a b = true /\ d = joined a b).
Proof.
  assert (forall n evs, length evs <= n -> In d (fst (records evs)) ->
    (exists p q, evs = p ++ Got d :: q /\ first_line d = false /\ second_line d = false) \/
    (exists a b p q, evs = p ++ Got a :: Got b :: q /\ pairs_with a b = true /\ same_record a b = true /\ d = joined a b)) as G.
  { induction n as [|n IH]; intros es L I.
    - destruct es; [destruct I|cbn in L; lia].
    - assert (forall pre es', es = pre ++ es' -> pre <> [] -> In d (fst (records es')) ->
        (exists p q, es = p ++ Got d :: q /\ first_line d = false /\ second_line d = false) \/
        (exists a b p q, es = p ++ Got a :: Got b :: q /\ pairs_with a b = true /\ same_record a b = true /\ d = joined a b)) as REC.
      { intros pre es' E NE I'. assert (length es' <= n) as L'.
        { subst es. rewrite app_length in L. destruct pre; [congruence|]. cbn in L. lia. }
        destruct (IH es' L' I') as [(p & q & E' & H)|(a & b & p & q & E' & H)].
        - left. exists (pre ++ p), q. split; auto. rewrite E, E'. now rewrite app_assoc.
        - right. exists a, b, (pre ++ p), q. split; auto. rewrite E, E'. now rewrite app_assoc. }
      destruct es as [|[a|e] rest]; [destruct I| |destruct I].
      cbn [records] in I. destruct (first_line a) eqn:FA.
      + destruct rest as [|[b|e] rest'].
        * destruct I.
        * destruct (pairs_with a b) eqn:P.
          -- destruct (same_record a b) eqn:S; [|destruct I].
             destruct (records rest') as [rs e'] eqn:R. cbn [fst] in I. destruct I as [<-|I].
             ++ right. exists a, b, [], rest'. auto.
             ++ apply (REC [Got a; Got b] rest'); auto; [discriminate|]. rewrite R. exact I.
          -- destruct (first_line b) eqn:FB.
             ++ apply (REC [Got a] (Got b :: rest')); auto. discriminate.
             ++ apply (REC [Got a; Got b] rest'); auto. discriminate.
        * destruct I.
      + destruct (second_line a) eqn:SA.
        * apply (REC [Got a] rest); auto. discriminate.
        * destruct (records rest) as [rs e'] eqn:R. cbn [fst] in I. destruct I as [<-|I].
          -- left. exists [], rest. auto.
          -- apply (REC [Got a] rest); auto; [discriminate|]. rewrite R. exact I. }
  intros I. eapply G; eauto.
Qed.
