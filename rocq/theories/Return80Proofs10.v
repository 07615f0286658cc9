(** Lemmas of C50, part 10: documents with header lines. *)
From Verif Require Import SchemaSpec PyStrProofs AdesMasterTables Schema XsdSpec SchemaSpec XsdFiles ValueSpec RecordProofs6 PropsRecord PropsPrint.
From Verif Require Import PyFloat SexVals XmlToMpc80 JustSpec JustProofs Line80Spec XmlProofs DocProofs1 PropsMpc80 PropsDoc.
From Verif Require Import Mpc80 Mpc80Spec Mpc80Proofs1 Mpc80Proofs2 Mpc80Proofs4 Mpc80Proofs10 DocProofs6 FileLines DocSpec Back80Spec Back80Proofs5 Back80Proofs10 Back80Proofs11 SexSpec Print80Spec Submit80Spec Submit80Proofs3 Submit80Proofs4 Submit80Proofs5 Submit80Proofs6 Return80Spec Return80Proofs9.
From Verif Require Back80Proofs12.
From Verif Require Import Return80Spec Mpc80Spec DocSpec.
Local Open Scope nat_scope.

(** * Header lines *)
Definition headed_by (l : str) : Prop := exists k v, In k keywords /\ l = header_text (k, v).
Lemma headed_map k (xs : list str) l : In $k keywords -> In l (map (fun x => ($k ++ $" ") ++ x) xs) -> headed_by l.
Proof. intros K I. apply in_map_iff in I as (x & <- & _). exists $k, x. split; [exact K|]. unfold header_text. cbn [fst snd]. now rewrite <- app_assoc. Qed.
Lemma heading_headed e l : In l (heading80 e) -> headed_by l.
Proof.
  unfold heading80.
  destruct (is_tag $"comment" e); [apply (headed_map "COM"); vm_compute; tauto|].
  destruct (is_tag $"observatory" e); [apply (headed_map "COD"); vm_compute; tauto|].
  destruct (is_tag $"telescope" e); [apply (headed_map "TEL"); vm_compute; tauto|].
  destruct (is_tag $"submitter" e); [intro I; apply (headed_map "CON" [commas (said [$"name"; $"institution"] e)]); [vm_compute; tauto|exact I]|].
  destruct (is_tag $"observers" e); [intro I; apply (headed_map "OBS" [commas (said [$"name"] e)]); [vm_compute; tauto|exact I]|].
  destruct (is_tag $"measurers" e); [intro I; apply (headed_map "MEA" [commas (said [$"name"] e)]); [vm_compute; tauto|exact I]|].
  intros [].
Qed.
Lemma header_headed b l : In l (block_header80 b) -> headed_by l.
Proof.
  unfold block_header80. intro I. apply in_flat_map in I as (k & _ & I). destruct (is_tag _ k); [|destruct I]. apply in_flat_map in I as (e & _ & I). exact (heading_headed e l I).
Qed.
Lemma header_cut k v : In k keywords -> firstn 80 (header_text (k, v)) = header_text (k, firstn 76 v) /\ header_read (header_text (k, v)) = Back80Proofs12.hrec (k, firstn 76 v).
Proof.
  intro I. assert (exists a b c, k = [a; b; c]) as (a & b & c & ->). { unfold keywords in I. vm_compute in I. repeat (destruct I as [<-|I]; [eexists _, _, _; reflexivity|]). destruct I. }
  split; [reflexivity|]. unfold header_read, Back80Proofs12.hrec, header_text. cbn [fst snd]. reflexivity.
Qed.
Lemma header_one l : headed_by l -> plain_line l -> yields [firstn 80 l] (header_read l) /\ unsplit [firstn 80 l] /\ is_header_line l = true.
Proof.
  intros (k & v & I & ->) [N _]. destruct (header_cut k v I) as [E1 E2].
  assert (is_header_line (header_text (k, v)) = true) as H. { rewrite is_header_line_eq. apply is_header_iff. now exists k, v. }
  rewrite E1, E2. destruct (Back80Proofs12.header_read (k, firstn 76 v)) as [Y U]; [exact I| | |now split].
  - rewrite <- E1. now apply no_nl_firstn.
  - rewrite <- E1. rewrite firstn_length. lia.
Qed.
Lemma header_all hs : (forall l, In l hs -> headed_by l /\ plain_line l) ->
  unsplit (map (firstn 80) hs) /\ (forall rest, records (read (map (firstn 80) hs ++ rest)) = (map header_read hs ++ fst (records (read rest)), snd (records (read rest)))) /\
  Forall (fun l => is_header_line l = true) hs /\ Forall (fun h => header h = true) (map header_read hs).
Proof.
  induction hs as [|l hs IH]; intro A.
  - split; [intro rest; apply surjective_pairing|]. split; [intro rest; apply surjective_pairing|]. split; constructor.
  - destruct IH as (U & R & H & H'). { intros x I. apply A. now right. } destruct (A l (or_introl eq_refl)) as [L P]. destruct (header_one l L P) as (Y & U1 & H1).
    split; [|split; [|split; constructor; auto]].
    + intro rest. cbn [map app]. change (firstn 80 l :: map (firstn 80) hs ++ rest) with ([firstn 80 l] ++ map (firstn 80) hs ++ rest). rewrite U1, U. reflexivity.
    + intro rest. cbn [map app]. change (firstn 80 l :: map (firstn 80) hs ++ rest) with ([firstn 80 l] ++ map (firstn 80) hs ++ rest). rewrite Y, R. reflexivity.
Qed.
(** lxml takes what stands in the header *)
Lemma text_part s s' : (forall c, In c s' -> In c s) -> valid_text s = true -> valid_text s' = true.
Proof. unfold valid_text. intros H V. rewrite forallb_forall in *. auto. Qed.
Lemma until_in v c : In c (until_comma v) -> In c v.
Proof. induction v as [|a v IH]; cbn [until_comma]; [auto|]. destruct (ceqb a ","); intros [].  - now left. - right. now apply IH. Qed.
Lemma after_in v w c : after_comma v = Some w -> In c w -> In c v.
Proof. induction v as [|a v IH]; cbn [after_comma]; [discriminate|]. destruct (ceqb a ","); intros E I; [injection E as <-; now right|right; now apply IH]. Qed.
Lemma split_in v : forall x c, In x (splitc "," v) -> In c x -> In c v.
Proof.
  induction v as [|a v IH]; intros x c I J; cbn [splitc] in I; [destruct I as [<-|[]]; destruct J|].
  destruct (ceqb a ","); [destruct I as [<-|I]; [destruct J|right; now apply (IH x c)]|].
  destruct (splitc "," v) as [|y ys] eqn:E; [destruct I as [<-|[]]; destruct J as [<-|[]]; now left|].
  destruct I as [<-|I]; [destruct J as [<-|J]; [now left|right; apply (IH y c); [now left|exact J]]|right; apply (IH x c); [now right|exact J]].
Qed.
Lemma heading_xml h : valid_text (value h) = true -> forallb xml_valid (heading h) = true.
Proof.
  intro V. unfold heading. cbv zeta.
  assert (forallb xml_valid (names (value h)) = true) as N.
  { unfold names. rewrite forallb_forall. intros x I. apply in_map_iff in I as (s & <- & I). rewrite leaf_valid. cbn [valid_name]. apply (text_part _ s) in V; [rewrite V; reflexivity|]. intros c J. exact (split_in _ _ _ I J). }
  destruct (called _ "COD"). { cbn [forallb xml_valid leaf]. rewrite V. reflexivity. }
  destruct (called _ "CON").
  { cbn [forallb xml_valid leaf]. rewrite (text_part _ (until_comma (value h)) (until_in _) V).
    destruct (after_comma (value h)) as [w|] eqn:E; [|reflexivity]. cbn [forallb xml_valid leaf]. rewrite (text_part _ w (fun c => after_in _ w c E) V). reflexivity. }
  destruct (called _ "OBS"). { cbn [forallb xml_valid]. rewrite N. reflexivity. }
  destruct (called _ "MEA"). { cbn [forallb xml_valid]. rewrite N. reflexivity. }
  destruct (called _ "TEL"); [|reflexivity]. cbn [forallb xml_valid leaf]. rewrite V. reflexivity.
Qed.
Lemma context_xml hs : (forall h, In h hs -> valid_text (value h) = true) -> xml_valid (context hs) = true.
Proof.
  intro A. unfold context. cbn [xml_valid]. change (valid_name $"obsContext") with true. cbn [valid_text forallb andb]. rewrite forallb_app. apply andb_true_intro. split.
  - rewrite forallb_forall. intros x I. apply in_flat_map in I as (h & J & I). apply Back80Proofs12.first_of_each_in in J. exact (proj1 (forallb_forall _ _) (heading_xml h (A h J)) x I).
  - unfold comments. destruct (filter _ hs) as [|c cs] eqn:E; [reflexivity|]. rewrite <- E. cbn [forallb xml_valid]. rewrite andb_true_r. change (valid_name $"comment") with true. cbn [valid_text forallb andb].
    rewrite forallb_forall. intros x I. apply in_map_iff in I as (h & <- & I). apply filter_In in I as [I _]. rewrite leaf_valid. rewrite (A h I). reflexivity.
Qed.
Lemma header_value l : valid_text l = true -> valid_text (value (header_read l)) = true.
Proof.
  intro V. assert (value (header_read l) = skipn 4 (firstn 80 l)) as ->; [unfold value, header_read; reflexivity|]. apply (text_part l); [|exact V]. intros c I.
  assert (In c (firstn 80 l)) as J by (rewrite <- (firstn_skipn 4 (firstn 80 l)); apply in_or_app; now right). rewrite <- (firstn_skipn 80 l). apply in_or_app. now left.
Qed.

(** * Blocks *)
Section Blocks.
Variable F : derivation -> str -> Prop.
Variable RV : reads_values F.
Variable o : opts80.
Hypothesis So : standard o.
Definition gives_blocks (ls : list str) (gs : list group) (xs : list xml) : Prop :=
  Forall plain_line ls /\ Forall (fun l => is_header_line l = true \/ column15 l <> $"R") ls /\ unsplit (map (firstn 80) ls) /\
  (forall rest, records (read (map (firstn 80) ls ++ rest)) = (ungroup gs ++ fst (records (read rest)), snd (records (read rest)))) /\
  Forall regular gs /\ Forall (fun g => rows ofields rfields (snd g) <> Some []) gs /\ blocks ofields rfields gs = Some xs.
Lemma cut_80 ls : Forall (fun l => length l = 80 /\ column15 l <> $"R") ls -> map (firstn 80) ls = ls.
Proof. induction 1 as [|l ls [L _] _ IH]; [reflexivity|]. cbn [map]. rewrite IH, firstn_all2 by lia. reflexivity. Qed.
Lemma blocks_cons hs ls es ms gs xs : hs <> [] -> (forall l, In l hs -> headed_by l /\ plain_line l /\ valid_text l = true) -> gives_rows ls es -> es <> [] -> gives_blocks ms gs xs ->
  exists g, gives_blocks (hs ++ ls ++ ms) (g :: gs) (Elem $"obsBlock" [] [] [context (map header_read hs); Elem $"obsData" [] [] es] :: xs).
Proof.
  intros NH H (P1 & L1 & U1 & ds & _ & D & W & R1) NE (P2 & C2 & U2 & R2 & G2 & W2 & B2).
  destruct (header_all hs) as (U0 & R0 & H0 & H0'). { intros l I. destruct (H l I) as (A & B & _). now split. }
  assert (map (firstn 80) (hs ++ ls ++ ms) = map (firstn 80) hs ++ ls ++ map (firstn 80) ms) as CT.
  { rewrite !map_app. f_equal. f_equal. exact (cut_80 ls L1). }
  exists (map header_read hs, ds). unfold gives_blocks. split; [|split; [|split; [|split; [|split; [|split]]]]].
  - apply Forall_app. split; [apply Forall_forall; intros l I; now destruct (H l I) as (_ & B & _)|]. apply Forall_app. now split.
  - apply Forall_app. split; [eapply Forall_impl; [|exact H0]; intros l Q; now left|]. apply Forall_app. split; [eapply Forall_impl; [|exact L1]; intros l [_ Q]; now right|exact C2].
  - rewrite CT. intro rest. rewrite <- !app_assoc. rewrite U0, U1, U2. unfold ahead. cbn [fst snd]. now rewrite <- !app_assoc.
  - rewrite CT. intro rest. rewrite <- !app_assoc. rewrite R0, R1, R2. cbn [fst snd ungroup flat_map]. now rewrite <- !app_assoc.
  - constructor; [|exact G2]. unfold regular. cbn [fst snd]. split; [destruct hs; [now elim NH|discriminate]|]. split; [exact H0'|]. split; [|exact D].
    intros ->. cbn in W. injection W as <-. now elim NE.
  - constructor; [|exact W2]. cbn [snd]. rewrite W. congruence.
  - unfold blocks in *. cbn [together]. rewrite B2. unfold block. cbn [fst snd]. rewrite W, context_xml; [reflexivity|].
    intros h I. apply in_map_iff in I as (l & <- & I). apply header_value. now destruct (H l I) as (_ & _ & V).
Qed.
Lemma blocks_nil : gives_blocks [] [] [].
Proof. split; [constructor|]. split; [constructor|]. split; [intro rest; apply surjective_pairing|]. split; [intro rest; apply surjective_pairing|]. split; [constructor|]. split; [constructor|reflexivity]. Qed.
Lemma blocks_written nosplit ls gs xs : gs <> [] -> gives_blocks ls gs xs -> mpc80coltoxml ades_tables nosplit (file ls) = Written (ades xs).
Proof.
  intros NG (P & C & U & R & G & W & B). destruct opt_rad as [HO HR]. specialize (U []). specialize (R []). rewrite app_nil_r in U, R. unfold ahead in U. cbn [split_radar fst snd] in U. rewrite app_nil_r in U. cbn [read flat_map records fst snd] in R. rewrite app_nil_r in R.
  rewrite (C39_blocks ades_tables ofields rfields nosplit ls gs HO HR); [now rewrite B| | |exact NG|exact G|].
  - split; [exact P|]. intros p l q -> H Q. rewrite Forall_forall in C. destruct (C l (in_elt _ _ _)) as [A|A]; [congruence|contradiction].
  - unfold records_of. destruct nosplit; [exact R|]. rewrite U, R. reflexivity.
  - clear - W. induction W as [|g gs A W IH]; [constructor|]. cbn [removelast]. destruct gs; [constructor|now constructor].
Qed.
Lemma header_some b : valid F submit_xsd b -> xtag b = $"obsBlock" -> block_header80 b <> [].
Proof.
  intros V T. apply (obsBlock_valid F submit_xsd b) in V; [|right; now left|exact T]. destruct V as (_ & c & d & K & Tc & Vc & Td & _).
  apply (RecordProofs6.context_valid F submit_xsd c) in Vc; [|right; now left|exact Tc]. destruct Vc as (_ & _ & _ & N).
  assert (In $"submitter" (map xtag (xkids c))) as I. { apply N. right. now left. }
  apply in_map_iff in I as (s & Ts & Is). intro E. unfold block_header80 in E. rewrite K in E. cbn [flat_map] in E. apply app_eq_nil in E as [E _].
  unfold is_tag at 1 in E. rewrite Tc in E. change (streqb $"obsContext" $"obsContext") with true in E. cbv iota in E.
  assert (In ($"CON " ++ commas (said [$"name"; $"institution"] s)) (flat_map heading80 (xkids c))) as J; [|rewrite E in J; destruct J].
  apply in_flat_map. exists s. split; [exact Is|]. unfold heading80, is_tag. rewrite Ts. now left.
Qed.
Lemma document_headed nosplit t ls : o_noHeader o = false -> valid F submit_xsd t -> xtag t = $"ades" ->
  (forall r, In r (observations t) -> xtag r = $"offset" \/ returnable r) ->
  (forall b, In b (xkids t) -> plain_header b /\ seen_block o b) -> xmltompc80col_lines ades_tables o t = Ok ls ->
  exists xs, mpc80coltoxml ades_tables nosplit (file ls) = Written (ades xs) /\ blocks_back o (xkids t) ls xs.
Proof.
  intros NH V T A S H. apply (C41_ades_submit F t T) in V as (_ & _ & _ & N & K).
  assert (forall b, In b (xkids t) -> is_tag $"obsBlock" b = true -> block_data_of b <> []) as Nb by (intros b I _; destruct (K b I) as [Tb Vb]; now destruct (block_facts F b Vb Tb)).
  apply (C44_parts o t ls T Nb) in H as (p & P & ->).
  assert (exists gs xs, gives_blocks (concat p) gs xs /\ blocks_back o (xkids t) (concat p) xs /\ length gs = length (xkids t)) as (gs & xs & G & B & L).
  { clear Nb N T. unfold observations in A. revert A S K P. generalize (xkids t) as bs0. intros bs0 A S K P. revert A S K. induction P as [|b l bs p Hb _ IH]; intros A S K; [exists [], []; split; [exact blocks_nil|split; [constructor|reflexivity]]|].
    destruct IH as (gs & xs & G & B & L). { intros r I. apply A. cbn [flat_map]. apply in_or_app. now right. } { intros b' I. apply S. now right. } { intros b' I. apply K. now right. }
    destruct (K b (or_introl eq_refl)) as [Tb Vb]. destruct (block_facts F b Vb Tb) as (_ & Nd & Rb). destruct (S b (or_introl eq_refl)) as [Ph Sb].
    unfold part80, is_tag in Hb. rewrite Tb in Hb. change (streqb $"obsBlock" $"obsBlock") with true in Hb. cbv iota in Hb. destruct Hb as (_ & rl & Hr & ->). rewrite NH. cbv iota.
    assert (Forall2 (record80 o) (block_data_of b) rl) as Hr' by (destruct (block_data_of b); [now elim Nd|exact Hr]).
    destruct (list_back F RV o So _ _ Hr') as (es & C & Gr & NE). { intros r I. split; [now destruct (Rb r I)|]. apply A. cbn [flat_map]. apply in_or_app. now left. }
    destruct (blocks_cons (block_header80 b) (concat rl) es (concat p) gs xs) as (g & GB); [now apply header_some| |exact Gr|exact (NE Sb)|exact G|].
    { intros l I. split; [exact (header_headed b l I)|exact (Ph l I)]. }
    exists (g :: gs), (block_read b es :: xs). cbn [concat length]. rewrite <- app_assoc. split; [exact GB|]. split; [now apply bb_block|now rewrite L]. }
  exists xs. split; [|exact B]. apply (blocks_written nosplit _ gs); [|exact G]. intros ->. destruct (xkids t); [now elim N|discriminate L].
Qed.
End Blocks.
