From Verif Require Import FmtRe PyStrProofs PackProofs13 PackProofs14 PyReProofs.
From Verif Require Import Mpc80.
From Verif Require Export Mpc80Proofs6.
Local Open Scope nat_scope.

Lemma same_fields_opt code la lb (a b : item) : (code = $"S" \/ code = $"V") ->
  cols 15 15 la = code -> text_of a $"code" = cols 15 15 la ->
  text_of a $"totalid" = cols 1 12 la -> text_of a $"date" = cols 16 32 la -> text_of a $"stn" = cols 78 80 la ->
  text_of b $"totalid" = cols 1 12 lb -> text_of b $"date" = cols 16 32 lb -> text_of b $"stn" = cols 78 80 lb ->
  same_record a b = streqb (cols 1 12 lb) (cols 1 12 la) && streqb (cols 16 32 lb) (cols 16 32 la) && streqb (cols 78 80 lb) (cols 78 80 la).
Proof.
  intros C K A0 A1 A2 A3 B1 B2 B3. unfold same_record, same, is_kind. rewrite A0, A1, A2, A3, B1, B2, B3, K.
  rewrite (streqb_sym (cols 1 12 lb)), (streqb_sym (cols 16 32 lb)), (streqb_sym (cols 78 80 lb)).
  assert (negb (streqb code $"R") = true) as -> by (destruct C as [-> | ->]; reflexivity).
  cbn [orb]. now rewrite andb_true_r.
Qed.

Lemma merge_SV code la ta pa perma prova trka ra pra de pde lb tb pb permb provb trkb x y z sys :
  (code = $"S" \/ code = $"V") -> cols 15 15 la = code ->
  let a := iapp (optical_dict la ta pa ra pra de pde) (iapp (texts [($"astCat", cols 72 72 la)]) (designation perma prova trka)) in
  (let b := iapp (iapp (satellite_dict lb x y z sys) (texts (time_fields tb pb))) (iapp (texts [($"astCat", cols 72 72 lb)]) (designation permb provb trkb)) in
   merge code b a = if same_record a b then Ok (joined a b) else Err NameError) /\
  (let b := iapp (iapp (rover_dict lb) (texts (time_fields tb pb))) (iapp (texts [($"astCat", cols 72 72 lb)]) (designation permb provb trkb)) in
   merge code b a = if same_record a b then Ok (joined a b) else Err NameError).
Proof.
  intros SV K a.
  assert (is_kind "R" a = false) as NR.
  { unfold is_kind. change (text_of a $"code") with (cols 15 15 la). rewrite K. destruct SV as [-> | ->]; reflexivity. }
  assert (streqb code $"R" = false) as CR by (destruct SV as [-> | ->]; reflexivity).
  assert (streqb code $"S" || streqb code $"V" = true) as CSV by (destruct SV as [-> | ->]; reflexivity).
  split; intros b.
  - rewrite (same_fields_opt code la lb a b SV K) by reflexivity. unfold merge, joined. rewrite NR, CR, CSV.
    change (same_field $"totalid" b a) with (Ok (streqb (cols 1 12 lb) (cols 1 12 la))). cbn [rbind].
    destruct (streqb (cols 1 12 lb) (cols 1 12 la)); cbn [rbind andb negb]; [|reflexivity].
    change (same_field $"date" b a) with (Ok (streqb (cols 16 32 lb) (cols 16 32 la))). cbn [rbind].
    destruct (streqb (cols 16 32 lb) (cols 16 32 la)); cbn [rbind andb negb]; [|reflexivity].
    change (same_field $"stn" b a) with (Ok (streqb (cols 78 80 lb) (cols 78 80 la))). cbn [rbind].
    destruct (streqb (cols 78 80 lb) (cols 78 80 la)); cbn [rbind andb negb]; reflexivity.
  - rewrite (same_fields_opt code la lb a b SV K) by reflexivity. unfold merge, joined. rewrite NR, CR, CSV.
    change (same_field $"totalid" b a) with (Ok (streqb (cols 1 12 lb) (cols 1 12 la))). cbn [rbind].
    destruct (streqb (cols 1 12 lb) (cols 1 12 la)); cbn [rbind andb negb]; [|reflexivity].
    change (same_field $"date" b a) with (Ok (streqb (cols 16 32 lb) (cols 16 32 la))). cbn [rbind].
    destruct (streqb (cols 16 32 lb) (cols 16 32 la)); cbn [rbind andb negb]; [|reflexivity].
    change (same_field $"stn" b a) with (Ok (streqb (cols 78 80 lb) (cols 78 80 la))). cbn [rbind].
    destruct (streqb (cols 78 80 lb) (cols 78 80 la)); cbn [rbind andb negb]; reflexivity.
Qed.

(** * One decoded line *)
Definition pending (a : item) : pstate80 := {| p_code := text_of a $"code"; p_line := a |}.
Lemma code_facts d : decoded d -> exists c, dget $"code" d = Some (@Some str [c]) /\ iget $"code" d = Ok (@cons ascii c []) /\
  text_of d $"code" = [c] /\ first_line d = cmem c $"RSV" /\ second_line d = cmem c $"rsv" /\ cmem c all_kinds = true.
Proof.
  intros D. destruct (decoded_code d D) as (c & H & A). exists c. split; auto.
  unfold iget, text_of. rewrite H. split; [reflexivity|]. split; [reflexivity|].
  unfold first_line, second_line. rewrite !(is_kind_char d c) by auto.
  assert (forall c, Bool.eqb (ceqb c "R" || ceqb c "S" || ceqb c "V") (cmem c $"RSV") = true) as H1 by (apply forall_ascii; vm_compute; reflexivity).
  assert (forall c, Bool.eqb (ceqb c "r" || ceqb c "s" || ceqb c "v") (cmem c $"rsv") = true) as H2 by (apply forall_ascii; vm_compute; reflexivity).
  specialize (H1 c). specialize (H2 c). apply Bool.eqb_prop in H1, H2. auto.
Qed.
(** nothing pending *)
Lemma step_none d : decoded d -> pair_step p_none d =
  Ok (if first_line d then pending d else p_none, if first_line d || second_line d then None else Some d).
Proof.
  intros D. destruct (code_facts d D) as (c & G & I & T & F & S & _). unfold pair_step. rewrite I. cbn [rbind].
  rewrite F, S. unfold p_none at 1 2 3 4 5. cbn [p_code p_line].
  change (sin $"None" $"RSV") with false. cbn [andb orb]. cbv iota.
  change (sin [c] $"rsv") with (sin (@cons ascii c []) $"rsv"). rewrite !sin1. unfold pending. rewrite T.
  assert (forall c, Bool.eqb (cmem c $"rsv" && negb (streqb (upper [c]) $"None")) (cmem c $"rsv") = true) as H1 by (apply forall_ascii; vm_compute; reflexivity).
  assert (forall c, Bool.eqb (cmem c $"RrSsVv") (cmem c $"RSV" || cmem c $"rsv") = true) as H2 by (apply forall_ascii; vm_compute; reflexivity).
  specialize (H1 c). specialize (H2 c). apply Bool.eqb_prop in H1, H2. rewrite H1, H2.
  destruct (cmem c $"RSV"), (cmem c $"rsv"); reflexivity.
Qed.
Lemma pairs_chars a b ca cb : dget $"code" a = Some (@Some str [ca]) -> dget $"code" b = Some (@Some str [cb]) ->
  pairs_with a b = ceqb ca "R" && ceqb cb "r" || ceqb ca "S" && ceqb cb "s" || ceqb ca "V" && ceqb cb "v".
Proof. intros A B. unfold pairs_with. now rewrite !(is_kind_char a ca), !(is_kind_char b cb). Qed.
Lemma rsv_cases c : cmem c $"RSV" = true -> c = "R"%char \/ c = "S"%char \/ c = "V"%char.
Proof.
  intros H. assert (forall c, implb (cmem c $"RSV") (ceqb c "R" || ceqb c "S" || ceqb c "V") = true) as A by (apply forall_ascii; vm_compute; reflexivity).
  specialize (A c). rewrite H in A. cbn in A. apply orb_prop in A as [A|A]; [apply orb_prop in A as [A|A]|]; apply ceqb_eq in A; auto.
Qed.
Lemma step_pending a d : decoded a -> first_line a = true -> decoded d -> pair_step (pending a) d =
  if pairs_with a d then if same_record a d then Ok (p_none, Some (joined a d)) else Err NameError
  else Ok (if first_line d then pending d else p_none, None).
Proof.
  intros DA FA D. destruct (code_facts a DA) as (ca & GA & IA & TA & FA' & SA & _). rewrite FA in FA'. symmetry in FA'.
  destruct (code_facts d D) as (c & G & I & T & F & S & _).
  rewrite (pairs_chars a d ca c GA G). unfold pair_step. rewrite I. cbn [rbind]. rewrite F.
  unfold pending at 1 2 3 4 5 6. cbn [p_code p_line]. rewrite TA. 
  pose proof (decoded_kind d c D G) as (DR & Dr & _ & Ds & Dv).
  pose proof (decoded_kind a ca DA GA) as (AR & _ & ASV & _ & _).
  assert (text_of a $"code" = [ca]) as TA2 by exact TA.
  unfold pending. rewrite T.
  change (sin (@cons ascii ca []) $"RSV") with (sin [ca] $"RSV"). rewrite (sin1 ca $"RSV"), FA'. cbn [andb].
  change (sin (@cons ascii c []) $"rsv") with (sin [c] $"rsv"). rewrite (sin1 c $"rsv"), (sin1 c $"RrSsVv"), (sin1 c $"RSV").
  destruct (ceqb ca "R" && ceqb c "r" || ceqb ca "S" && ceqb c "s" || ceqb ca "V" && ceqb c "v") eqn:P.
  - apply orb_prop in P as [P|P]; [apply orb_prop in P as [P|P]|]; apply andb_prop in P as [P1 P2]; apply ceqb_eq in P1, P2; subst ca c.
    + destruct (AR eq_refl) as (la & ta & pa & pe & pv & tk & shift & EA). destruct (Dr eq_refl) as (lb & tb & pb & pe' & pv' & tk' & SC & EB).
      assert (cols 15 15 la = $"R") as KA by (rewrite EA in TA2; exact TA2).
      change (negb (streqb (@cons ascii "r"%char []) (lower (@cons ascii "R"%char [])))) with false.
      change (cmem "r" $"rsv" && negb (streqb (upper (@cons ascii "r"%char [])) (@cons ascii "R"%char []))) with false.
      cbn [orb]. cbv iota. change (merge (@cons ascii "R"%char []) d a) with (merge $"R" d a).
      assert (merge $"R" d a = if same_record a d then Ok (joined a d) else Err NameError) as M
        by (rewrite EA, EB; exact (merge_R la ta pa pe pv tk shift lb tb pb pe' pv' tk' SC KA)).
      rewrite M. clear M.
      destruct (same_record a d); reflexivity.
    + destruct (ASV (or_introl eq_refl)) as (la & ta & pa & pe & pv & tk & ra & pra & de & pde & EA). destruct (Ds eq_refl) as (lb & tb & pb & pe' & pv' & tk' & x & y & z & sys & EB).
      assert (cols 15 15 la = $"S") as KA by (rewrite EA in TA2; exact TA2).
      change (negb (streqb (@cons ascii "s"%char []) (lower (@cons ascii "S"%char [])))) with false.
      change (cmem "s" $"rsv" && negb (streqb (upper (@cons ascii "s"%char [])) (@cons ascii "S"%char []))) with false.
      cbn [orb]. cbv iota. change (merge (@cons ascii "S"%char []) d a) with (merge $"S" d a).
      assert (merge $"S" d a = if same_record a d then Ok (joined a d) else Err NameError) as M
        by (rewrite EA, EB; exact (proj1 (merge_SV $"S" la ta pa pe pv tk ra pra de pde lb tb pb pe' pv' tk' x y z sys (or_introl eq_refl) KA))).
      rewrite M. clear M.
      destruct (same_record a d); reflexivity.
    + destruct (ASV (or_intror eq_refl)) as (la & ta & pa & pe & pv & tk & ra & pra & de & pde & EA). destruct (Dv eq_refl) as (lb & tb & pb & pe' & pv' & tk' & EB).
      assert (cols 15 15 la = $"V") as KA by (rewrite EA in TA2; exact TA2).
      change (negb (streqb (@cons ascii "v"%char []) (lower (@cons ascii "V"%char [])))) with false.
      change (cmem "v" $"rsv" && negb (streqb (upper (@cons ascii "v"%char [])) (@cons ascii "V"%char []))) with false.
      cbn [orb]. cbv iota. change (merge (@cons ascii "V"%char []) d a) with (merge $"V" d a).
      assert (merge $"V" d a = if same_record a d then Ok (joined a d) else Err NameError) as M
        by (rewrite EA, EB; exact (proj2 (merge_SV $"V" la ta pa pe pv tk ra pra de pde lb tb pb pe' pv' tk' [] [] [] [] (or_intror eq_refl) KA))).
      rewrite M. clear M.
      destruct (same_record a d); reflexivity.
  - assert (negb (streqb (@cons ascii c []) (lower (@cons ascii ca []))) = true) as ->; [|reflexivity].
    assert (forall ca, In ca [ "R"; "S"; "V" ]%char -> forall c, (ceqb ca "R" && ceqb c "r" || ceqb ca "S" && ceqb c "s" || ceqb ca "V" && ceqb c "v") ||
       negb (streqb (@cons ascii c []) (lower (@cons ascii ca []))) = true) as SW.
    { intros x [<-|[<-|[<-|[]]]]; apply forall_ascii; vm_compute; reflexivity. }
    specialize (SW ca). assert (In ca [ "R"; "S"; "V" ]%char) as IN by (apply rsv_cases in FA'; cbn; destruct FA' as [-> |[-> | ->]]; auto).
    specialize (SW IN c). rewrite P in SW. exact SW.
Qed.
