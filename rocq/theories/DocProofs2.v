From Verif Require Import PyStrProofs.
From Verif Require Import Mpc80.
From Verif Require Export DocProofs1.
Local Open Scope nat_scope.

(** * The fields of an optical record *)
Lemma get_set {A} k k' (v : A) d : dget k (dset k' v d) = if streqb k k' then Some v else dget k d.
Proof.
  induction d as [|[q w] d IH]; cbn [dset dget]; [reflexivity|].
  destruct (streqb k' q) eqn:E; cbn [dget].
  - apply streqb_eq in E. subst q. now destruct (streqb k k').
  - destruct (streqb k q) eqn:E2; [|exact IH].
    apply streqb_eq in E2. subst q. destruct (streqb k k') eqn:E3; [|reflexivity].
    apply streqb_eq in E3. subst. now rewrite streqb_refl in E.
Qed.
Ltac lits := repeat match goal with |- context [streqb ?a ?b] =>
    let r := eval vm_compute in (streqb a b) in
    match r with true => change (streqb a b) with true | false => change (streqb a b) with false end end; cbn [negb andb orb].
Lemma iget_some k v d : dget k d = Some (@Some str v) -> iget k d = Ok v.
Proof. unfold iget. now intros ->. Qed.
Lemma text_some k v d : dget k d = Some (@Some str v) -> text_of d k = v.
Proof. unfold text_of. now intros ->. Qed.
Lemma iget_iset k k' v d : iget k (iset k' v d) = if streqb k k' then Ok v else iget k d.
Proof. unfold iget, iset. rewrite get_set. now destruct (streqb k k'). Qed.
Lemma iget_none k k' d : streqb k k' = false -> iget k (dset k' None d) = iget k d.
Proof. intros H. unfold iget. now rewrite get_set, H. Qed.

Definition text (o : option (option str)) : str := match o with Some (Some v) => v | _ => [] end.
Lemma field_text_eq d x : field_text d x = strip (text (dget x d)).
Proof. unfold field_text, text. destruct (dget x d) as [[v|]|]; reflexivity. Qed.

Lemma optical_item_spec d :
  (exists c, dget $"code" d = Some (@Some str [c]) /\ In c $"A PeCBTMcEOHNnSVX") ->
  present $"astCat" d -> present $"mag" d -> present $"band" d -> present $"notes" d -> present $"stn" d -> present $"packedref" d ->
  dget $"mode" d = None -> dget $"prog" d = None -> dget $"ref" d = None -> dget $"deprecated" d = None -> dget $"subFrm" d = None ->
  match optical_item d with
  | Err e => (program d = Err e \/ (exists p, program d = Ok p) /\ reference d = Err e)
  | Ok d' => exists p r, program d = Ok p /\ reference d = Ok r /\ forall x, field_text d' x = strip (optical_text p r d x)
  end.
Proof.
  intros (c & C & I) (ac & Ac) (mag & Ma) (band & Ba) (notes & No) (stn & St) (pref & Pr) Mo Prg Rf De Sf.
  unfold optical_item. rewrite (iget_some _ _ _ C). cbn [rbind].
  match goal with |- context [if sin [c] ?a then ?b else ?e] => set (CD := if sin [c] a then b else e) end.
  assert (exists code d1, CD = (code, d1) /\ dget code codeDict = Some (mode_of [c]) /\
    (forall x, dget x d1 = if called x "deprecated" then if ceqb c "X" then Some (Some $"X") else None
                           else if called x "subFrm" then if ceqb c "A" then Some (Some $"B1950.0") else None
                           else dget x d)) as (code & d1 & E & M & D1).
  { assert (forall x, (if called x "deprecated" then None else if called x "subFrm" then None else dget x d) = dget x d) as SAME.
    { intros x. unfold called. destruct (streqb x $"deprecated") eqn:E1; [apply streqb_eq in E1; subst; now rewrite De|].
      destruct (streqb x $"subFrm") eqn:E2; [apply streqb_eq in E2; subst; now rewrite Sf|]. reflexivity. }
    destruct I as [<-|[<-|[<-|[<-|[<-|[<-|[<-|[<-|[<-|[<-|[<-|[<-|[<-|[<-|[<-|[<-|[<-|[]]]]]]]]]]]]]]]]]];
      subst CD; eexists _, _; (split; [reflexivity|]); (split; [reflexivity|]); intros x;
      try (symmetry; apply SAME).
    - unfold iset. rewrite get_set. unfold called. destruct (streqb x $"subFrm") eqn:E2; [apply streqb_eq in E2; subst; reflexivity|].
      rewrite <- SAME at 1. unfold called. rewrite E2. destruct (streqb x $"deprecated"); reflexivity.
    - unfold iset. rewrite get_set. unfold called. destruct (streqb x $"deprecated") eqn:E2; [apply streqb_eq in E2; subst; reflexivity|].
      rewrite <- SAME at 1. unfold called. rewrite E2. destruct (streqb x $"subFrm"); reflexivity. }
  rewrite E. rewrite M. cbn [rbind]. clear CD E M I.
  assert (forall k, streqb k $"deprecated" = false -> streqb k $"subFrm" = false -> dget k d1 = dget k d) as G1.
  { intros k K1 K2. rewrite D1. unfold called. now rewrite K1, K2. }
  set (d2 := iset $"mode" (mode_of [c]) d1).
  rewrite (iget_some $"astCat" ac d2) by (subst d2; unfold iset; rewrite get_set; lits; rewrite G1 by reflexivity; exact Ac). cbn [rbind].
  change (match dget ac catCodes with Some v => v | None => $"UNK" end) with (catalogue ac).
  set (d3 := iset $"astCat" (catalogue ac) d2).
  assert (forall k, streqb k $"deprecated" = false -> streqb k $"subFrm" = false -> streqb k $"mode" = false -> streqb k $"astCat" = false -> dget k d3 = dget k d) as G3.
  { intros k K1 K2 K3 K4. subst d3 d2. unfold iset. rewrite !get_set, K3, K4. auto. }
  rewrite (iget_some $"mag" mag d3) by (rewrite G3 by reflexivity; exact Ma). cbn [rbind].
  rewrite (iget_some $"band" band d3) by (rewrite G3 by reflexivity; exact Ba). cbn [rbind].
  set (b := if blank mag then [] else if blank band then $"UNK" else band).
  set (d4 := match mag with [] => d3 | _ => if blank band then iset $"band" $"UNK" d3 else d3 end).
  assert (exists band4, iget $"band" d4 = Ok band4 /\
     let d5 := match band4 with [] => d4 | _ :: _ => if blank mag then dset $"band" None d4 else d4 end in
     text (dget $"band" d5) = b /\ forall x, streqb x $"band" = false -> dget x d5 = dget x d3) as (band4 & B4 & D5).
  { subst d4 b. assert (dget $"band" d3 = Some (Some band)) as B3 by (rewrite G3 by reflexivity; exact Ba).
    destruct mag as [|m mag].
    - exists band. rewrite (iget_some _ _ _ B3). split; [reflexivity|]. intros d5. subst d5.
      replace (blank []) with true by reflexivity. destruct band as [|b0 band].
      + rewrite B3. split; reflexivity.
      + rewrite get_set. split; [reflexivity|]. intros x E. now rewrite get_set, E.
    - destruct (blank band) eqn:BB.
      + exists $"UNK". rewrite iget_iset. change (streqb $"band" $"band") with true. split; [reflexivity|]. intros d5. subst d5.
        change (match $"UNK" with [] => iset $"band" $"UNK" d3 | _ :: _ => if blank (m :: mag) then dset $"band" None (iset $"band" $"UNK" d3) else iset $"band" $"UNK" d3 end)
          with (if blank (m :: mag) then dset $"band" None (iset $"band" $"UNK" d3) else iset $"band" $"UNK" d3).
        destruct (blank (m :: mag)).
        * rewrite get_set. split; [reflexivity|]. intros x E. unfold iset. now rewrite !get_set, E.
        * unfold iset. rewrite get_set. split; [reflexivity|]. intros x E. now rewrite !get_set, E.
      + exists band. rewrite (iget_some _ _ _ B3). split; [reflexivity|]. intros d5. subst d5.
        destruct band as [|b0 band]; [discriminate BB|]. destruct (blank (m :: mag)).
        * rewrite get_set. split; [reflexivity|]. intros x E. now rewrite get_set, E.
        * rewrite B3. split; reflexivity. }
  rewrite B4. cbn [rbind]. clearbody d4. cbv zeta in D5. destruct D5 as [D5b D5].
  set (d5 := match band4 with [] => d4 | _ :: _ => if blank mag then dset $"band" None d4 else d4 end) in *. clearbody d5.
  assert (forall k, streqb k $"deprecated" = false -> streqb k $"subFrm" = false -> streqb k $"mode" = false -> streqb k $"astCat" = false ->
    streqb k $"band" = false -> dget k d5 = dget k d) as G5.
  { intros k K1 K2 K3 K4 K5. rewrite D5 by auto. auto. }
  rewrite (iget_some $"notes" notes d5) by (rewrite G5 by reflexivity; exact No). cbn [rbind].
  rewrite (iget_some $"stn" stn d5) by (rewrite G5 by reflexivity; exact St). cbn [rbind].
  unfold program, reference, has_programs.
  rewrite (text_some _ _ _ St), (text_some _ _ _ No), (text_some _ _ _ Pr).
  rewrite (andb_comm (smem stn programCodeSites)).
  set (hp := negb (streqb notes $" ") && smem stn programCodeSites).
  (* the fields that are the same in both cases *)
  assert (forall p r x, called x "notes" = false -> called x "prog" = false -> called x "ref" = false ->
    text (dget x d5) = optical_text p r d x) as SAME.
  { intros p r x N1 N2 N3. unfold optical_text. rewrite N1, N2, N3. rewrite (text_some _ _ _ C), (text_some _ _ _ Ac), (text_some _ _ _ Ma), (text_some _ _ _ Ba).
    unfold called in *. destruct (streqb x $"mode") eqn:E1.
    { apply streqb_eq in E1. subst x. rewrite D5 by reflexivity. subst d3 d2. unfold iset. rewrite !get_set. lits. reflexivity. }
    destruct (streqb x $"astCat") eqn:E2.
    { apply streqb_eq in E2. subst x. rewrite D5 by reflexivity. subst d3 d2. unfold iset. rewrite !get_set. lits. reflexivity. }
    destruct (streqb x $"band") eqn:E3.
    { apply streqb_eq in E3. subst x. exact D5b. }
    rewrite D5 by auto. subst d3 d2. unfold iset. rewrite !get_set, E1, E2. rewrite D1. unfold called, is_kind. rewrite (text_some _ _ _ C).
    destruct (streqb x $"deprecated"); [change (streqb [c] $"X") with (ceqb c "X" && true); rewrite andb_true_r; now destruct (ceqb c "X")|].
    destruct (streqb x $"subFrm"); [change (streqb [c] $"A") with (ceqb c "A" && true); rewrite andb_true_r; now destruct (ceqb c "A")|].
    reflexivity. }
  destruct hp eqn:HP.
  - apply andb_prop in HP as [H1 H2]. destruct (packProgID notes) as [p|e]; cbn [rbind]; [|now left].
    rewrite (iget_some $"packedref" pref) by (unfold iset; rewrite !get_set; lits; rewrite G5 by reflexivity; exact Pr). cbn [rbind].
    destruct (unpackRef (skipn 1 pref)) as [r|e]; cbn [rbind]; [|right; split; [now exists p|reflexivity]].
    exists p, r. split; [reflexivity|]. split; [reflexivity|]. intros x. rewrite field_text_eq.
    unfold iset. rewrite !get_set.
    destruct (streqb x $"ref") eqn:E1; [apply streqb_eq in E1; subst x; unfold optical_text, called; lits; reflexivity|].
    destruct (streqb x $"notes") eqn:E2; [apply streqb_eq in E2; subst x; unfold optical_text, called, has_programs; rewrite (text_some _ _ _ St), H2; lits; reflexivity|].
    destruct (streqb x $"prog") eqn:E3; [apply streqb_eq in E3; subst x; unfold optical_text, called; lits; reflexivity|].
    f_equal. apply SAME; assumption.
  - cbn [rbind]. rewrite (iget_some $"packedref" pref) by (rewrite G5 by reflexivity; exact Pr). cbn [rbind].
    destruct (unpackRef (skipn 1 pref)) as [r|e]; cbn [rbind]; [|right; split; [now exists []|reflexivity]].
    exists [], r. split; [reflexivity|]. split; [reflexivity|]. intros x. rewrite field_text_eq.
    unfold iset. rewrite !get_set.
    destruct (streqb x $"ref") eqn:E1; [apply streqb_eq in E1; subst x; unfold optical_text, called; lits; reflexivity|].
    destruct (streqb x $"notes") eqn:E2.
    { apply streqb_eq in E2; subst x. rewrite G5, No by reflexivity. unfold optical_text, called, has_programs. rewrite (text_some _ _ _ St), (text_some _ _ _ No). lits.
      destruct (smem stn programCodeSites) eqn:H2; [|reflexivity]. unfold hp in HP. rewrite andb_true_r in HP. apply negb_false_iff in HP.
      apply streqb_eq in HP. subst notes. reflexivity. }
    destruct (streqb x $"prog") eqn:E3; [apply streqb_eq in E3; subst x; rewrite G5, Prg by reflexivity; unfold optical_text, called; lits; reflexivity|].
    f_equal. apply SAME; assumption.
Qed.
