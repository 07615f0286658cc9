(** Lemmas of C50, part 12: documents with header lines, with blocks of which nothing is read. *)
From Verif Require Import SchemaSpec PyStrProofs AdesMasterTables Schema XsdSpec SchemaSpec XsdFiles ValueSpec RecordProofs6 PropsRecord PropsPrint.
From Verif Require Import PyFloat SexVals XmlToMpc80 JustSpec JustProofs Line80Spec XmlProofs DocProofs1 PropsMpc80 PropsDoc.
From Verif Require Import Mpc80 Mpc80Spec Mpc80Proofs1 Mpc80Proofs2 Mpc80Proofs4 Mpc80Proofs10 DocProofs5 DocProofs6 FileLines DocSpec Back80Spec Back80Proofs5 Back80Proofs10 Back80Proofs11 SexSpec Print80Spec Submit80Spec Submit80Proofs3 Submit80Proofs4 Submit80Proofs5 Submit80Proofs6 Return80Spec Return80Proofs9 Return80Proofs10.
From Verif Require Import Return80Spec Mpc80Spec DocSpec.
Local Open Scope nat_scope.

Definition empty_block : xml := Elem $"obsBlock" [] [] [Elem $"obsContext" [] [] []].
(** nothing but headers *)
Lemma only_headers T opt rad nosplit ls hs :
  dget $"optical" (allowed T) = Some opt -> dget $"radar" (allowed T) = Some rad ->
  readable ls -> records_of nosplit ls = (hs, None) -> hs <> [] -> Forall (fun h => header h = true) hs ->
  mpc80coltoxml T nosplit (file ls) = Written (ades [empty_block]).
Proof.
  intros HO HR P E N H. rewrite file_document, E by auto. pose proof (all_records _ _ _ P E) as R. unfold conclude. destruct init_filled as (c & -> & _ & ST).
  destruct (headers_run T hs c root [] [] N R H ST) as (s2 & co & cx & se & E2 & A2 & _).
  rewrite app_nil_r in E2. rewrite E2. cbn [feed]. destruct (take_tree _ _ (at_R _ _ _ _ _ _ _ _ A2) (at_open _ _ _ _ _ _ _ _ A2)) as (t & C & ->).
  f_equal. cbn in C. injection C as <-. reflexivity.
Qed.
Section Blocks.
Variable F : derivation -> str -> Prop.
Variable RV : reads_values F.
Variable o : opts80.
Hypothesis So : standard o.
Definition good (l : str) : Prop := headed_by l /\ plain_line l /\ valid_text l = true.
Definition at_end (tl : list item) : list xml := match tl with [] => [] | _ => [empty_block] end.
(** the lines ls, after the header lines hs *)
Definition gives_merged (hs ls : list str) (gs : list group) (tl : list item) (xs : list xml) : Prop :=
  Forall plain_line ls /\ Forall (fun l => is_header_line l = true \/ column15 l <> $"R") ls /\ unsplit (map (firstn 80) ls) /\
  (exists D, map header_read hs ++ D = ungroup gs ++ tl /\ forall rest, records (read (map (firstn 80) ls ++ rest)) = (D ++ fst (records (read rest)), snd (records (read rest)))) /\
  Forall regular gs /\ Forall (fun g => rows ofields rfields (snd g) <> Some []) gs /\ Forall (fun h => header h = true) tl /\ blocks ofields rfields gs = Some xs.
Lemma merged_step hb ls ms : (forall l, In l hb -> good l) -> Forall plain_line ls -> Forall (fun l => length l = 80 /\ column15 l <> $"R") ls -> unsplit ls ->
  Forall plain_line ms -> Forall (fun l => is_header_line l = true \/ column15 l <> $"R") ms -> unsplit (map (firstn 80) ms) ->
  Forall plain_line (hb ++ ls ++ ms) /\ Forall (fun l => is_header_line l = true \/ column15 l <> $"R") (hb ++ ls ++ ms) /\ unsplit (map (firstn 80) (hb ++ ls ++ ms)) /\
  map (firstn 80) (hb ++ ls ++ ms) = map (firstn 80) hb ++ ls ++ map (firstn 80) ms.
Proof.
  intros H P1 L1 U1 P2 C2 U2. destruct (header_all hb) as (U0 & _ & H0 & _). { intros l I. destruct (H l I) as (A & B & _). now split. }
  assert (map (firstn 80) (hb ++ ls ++ ms) = map (firstn 80) hb ++ ls ++ map (firstn 80) ms) as CT. { rewrite !map_app. f_equal. f_equal. exact (cut_80 ls L1). }
  split; [|split; [|split; [|exact CT]]].
  - apply Forall_app. split; [apply Forall_forall; intros l I; now destruct (H l I) as (_ & B & _)|]. apply Forall_app. now split.
  - apply Forall_app. split; [eapply Forall_impl; [|exact H0]; intros l Q; now left|]. apply Forall_app. split; [eapply Forall_impl; [|exact L1]; intros l [_ Q]; now right|exact C2].
  - rewrite CT. intro rest. rewrite <- !app_assoc. rewrite U0, U1, U2. unfold ahead. cbn [fst snd]. now rewrite <- !app_assoc.
Qed.
Lemma merged_cons hs hb ls es ms gs tl xs : hb <> [] -> (forall l, In l (hs ++ hb) -> good l) -> gives_rows ls es -> es <> [] -> gives_merged [] ms gs tl xs ->
  exists g, gives_merged hs (hb ++ ls ++ ms) (g :: gs) tl (Elem $"obsBlock" [] [] [context (map header_read (hs ++ hb)); Elem $"obsData" [] [] es] :: xs).
Proof.
  intros NH H (P1 & L1 & U1 & ds & Z & D & W & R1) NE (P2 & C2 & U2 & (D2 & E2 & R2) & G2 & W2 & T2 & B2).
  destruct (merged_step hb ls ms) as (Q1 & Q2 & Q3 & CT); try assumption. { intros l I. apply H. apply in_or_app. now right. }
  destruct (header_all hb) as (_ & R0 & _ & _). { intros l I. destruct (H l) as (A & B & _); [apply in_or_app; now right|]. now split. }
  destruct (header_all (hs ++ hb)) as (_ & _ & _ & H0'). { intros l I. destruct (H l I) as (A & B & _). now split. }
  exists (map header_read (hs ++ hb), ds). unfold gives_merged. split; [exact Q1|]. split; [exact Q2|]. split; [exact Q3|]. split; [|split; [|split; [|split; [exact T2|]]]].
  - exists (map header_read hb ++ ds ++ D2). split.
    + change (D2 = ungroup gs ++ tl) in E2. change (ungroup ((map header_read (hs ++ hb), ds) :: gs)) with ((map header_read (hs ++ hb) ++ ds) ++ ungroup gs). rewrite E2, map_app, <- !app_assoc. reflexivity.
    + intro rest. rewrite CT, <- !app_assoc. rewrite R0, R1, R2. cbn [fst snd]. reflexivity.
  - constructor; [|exact G2]. unfold regular. cbn [fst snd]. split; [destruct hs, hb; [now elim NH|discriminate..]|]. split; [exact H0'|]. split; [|exact D].
    intros ->. destruct es; [now elim NE|discriminate Z].
  - constructor; [|exact W2]. cbn [snd]. rewrite W. congruence.
  - unfold blocks in *. cbn [together]. rewrite B2. unfold block. cbn [fst snd]. rewrite W, context_xml; [reflexivity|].
    intros h I. apply in_map_iff in I as (l & <- & I). apply header_value. now destruct (H l I) as (_ & _ & V).
Qed.
Lemma merged_lost hs hb ls ms gs tl xs : (forall l, In l (hs ++ hb) -> good l) -> gives_rows ls [] -> gives_merged (hs ++ hb) ms gs tl xs -> gives_merged hs (hb ++ ls ++ ms) gs tl xs.
Proof.
  intros H (P1 & L1 & U1 & ds & Z & D & W & R1) (P2 & C2 & U2 & (D2 & E2 & R2) & G2 & W2 & T2 & B2).
  destruct (merged_step hb ls ms) as (Q1 & Q2 & Q3 & CT); try assumption. { intros l I. apply H. apply in_or_app. now right. }
  destruct (header_all hb) as (_ & R0 & _ & _). { intros l I. destruct (H l) as (A & B & _); [apply in_or_app; now right|]. now split. }
  assert (ds = []) as -> by (destruct ds; [reflexivity|discriminate Z]).
  split; [exact Q1|]. split; [exact Q2|]. split; [exact Q3|]. split; [|now repeat split].
  exists (map header_read hb ++ D2). split; [rewrite app_assoc, <- map_app; exact E2|]. intro rest. rewrite CT, <- !app_assoc. rewrite R0, R1, R2. cbn [fst snd app]. reflexivity.
Qed.
Lemma merged_nil hs : (forall l, In l hs -> good l) -> gives_merged hs [] [] (map header_read hs) [].
Proof.
  intro H. split; [constructor|]. split; [constructor|]. split; [intro rest; apply surjective_pairing|]. split; [exists []; split; [apply app_nil_r|intro rest; apply surjective_pairing]|].
  split; [constructor|]. split; [constructor|]. split; [|reflexivity]. apply header_all. intros l I. destruct (H l I) as (A & B & _). now split.
Qed.
Lemma merged_written nosplit ls gs tl xs : (gs <> [] \/ tl <> []) -> gives_merged [] ls gs tl xs -> mpc80coltoxml ades_tables nosplit (file ls) = Written (ades (xs ++ at_end tl)).
Proof.
  intros NG (P & C & U & (D & E & R) & G & W & T & B). destruct opt_rad as [HO HR]. cbn [map app] in E. subst D.
  specialize (U []). specialize (R []). rewrite app_nil_r in U, R. unfold ahead in U. cbn [split_radar fst snd] in U. rewrite app_nil_r in U. cbn [read flat_map records fst snd] in R. rewrite app_nil_r in R.
  assert (readable ls) as RD. { split; [exact P|]. intros p l q -> H Q. rewrite Forall_forall in C. destruct (C l (in_elt _ _ _)) as [A|A]; [congruence|contradiction]. }
  assert (records_of nosplit ls = (ungroup gs ++ tl, None)) as RO. { unfold records_of. destruct nosplit; [exact R|]. rewrite U, R. reflexivity. }
  destruct tl as [|h tl].
  - rewrite app_nil_r in RO. destruct NG as [NG|NG]; [|now elim NG]. rewrite (C39_blocks ades_tables ofields rfields nosplit ls gs HO HR RD RO NG G); [rewrite B; cbn [at_end]; now rewrite app_nil_r|].
    clear - W. induction W as [|g gs A W IH]; [constructor|]. cbn [removelast]. destruct gs; [constructor|now constructor].
  - destruct gs as [|g gs].
    + cbn in B. injection B as <-. exact (only_headers ades_tables ofields rfields nosplit ls (h :: tl) HO HR RD RO ltac:(discriminate) T).
    + rewrite (C39_trailing_headers_refuted ades_tables ofields rfields nosplit ls (g :: gs) (h :: tl) HO HR RD RO ltac:(discriminate) G W ltac:(discriminate) T), B. reflexivity.
Qed.
Lemma document_merged nosplit t ls : o_noHeader o = false -> valid F submit_xsd t -> xtag t = $"ades" ->
  (forall r, In r (observations t) -> xtag r = $"offset" \/ returnable r) ->
  (forall b, In b (xkids t) -> plain_header b) -> xmltompc80col_lines ades_tables o t = Ok ls ->
  exists xs, mpc80coltoxml ades_tables nosplit (file ls) = Written (ades xs) /\ blocks_merged o [] (xkids t) ls xs.
Proof.
  intros NH V T A S H. apply (C41_ades_submit F t T) in V as (_ & _ & _ & N & K).
  assert (forall b, In b (xkids t) -> is_tag $"obsBlock" b = true -> block_data_of b <> []) as Nb by (intros b I _; destruct (K b I) as [Tb Vb]; now destruct (block_facts F b Vb Tb)).
  apply (C44_parts o t ls T Nb) in H as (p & P & ->).
  assert (forall hs, (forall l, In l hs -> good l) -> exists gs tl xs, gives_merged hs (concat p) gs tl xs /\ blocks_merged o hs (xkids t) (concat p) (xs ++ at_end tl) /\ (hs <> [] \/ xkids t <> [] -> gs <> [] \/ tl <> [])) as X.
  { clear Nb N T. unfold observations in A. revert A S K P. generalize (xkids t) as bs0. intros bs0 A S K P. revert A S K. induction P as [|b l bs p Hb _ IH]; intros A S K hs Gh.
    { exists [], (map header_read hs), []. cbn [app concat]. split; [now apply merged_nil|]. split; [destruct hs; [constructor|cbn [map at_end]; now constructor]|]. intros [Q|Q]; [right; now destruct hs|now elim Q]. }
    assert (forall hs, (forall l, In l hs -> good l) -> exists gs tl xs, gives_merged hs (concat p) gs tl xs /\ blocks_merged o hs bs (concat p) (xs ++ at_end tl) /\ (hs <> [] \/ bs <> [] -> gs <> [] \/ tl <> [])) as IH'.
    { apply IH. { intros r I. apply A. cbn [flat_map]. apply in_or_app. now right. } { intros b' I. apply S. now right. } { intros b' I. apply K. now right. } }
    clear IH. destruct (K b (or_introl eq_refl)) as [Tb Vb]. destruct (block_facts F b Vb Tb) as (_ & Nd & Rb). pose proof (S b (or_introl eq_refl)) as Ph.
    unfold part80, is_tag in Hb. rewrite Tb in Hb. change (streqb $"obsBlock" $"obsBlock") with true in Hb. cbv iota in Hb. destruct Hb as (_ & rl & Hr & ->). rewrite NH. cbv iota.
    assert (Forall2 (record80 o) (block_data_of b) rl) as Hr' by (destruct (block_data_of b); [now elim Nd|exact Hr]).
    destruct (list_back F RV o So _ _ Hr') as (es & C & Gr & _). { intros r I. split; [now destruct (Rb r I)|]. apply A. cbn [flat_map]. apply in_or_app. now left. }
    assert (forall l, In l (hs ++ block_header80 b) -> good l) as Gb.
    { intros l I. apply in_app_or in I as [I|I]; [now apply Gh|]. split; [exact (header_headed b l I)|exact (Ph l I)]. }
    pose proof (header_some F b Vb Tb) as NHb. cbn [concat]. rewrite <- app_assoc.
    destruct es as [|e es].
    - destruct (IH' (hs ++ block_header80 b) Gb) as (gs & tl & xs & G & B & L). exists gs, tl, xs. split; [now apply merged_lost|]. split; [now apply bm_lost|]. intros _. apply L. left. intro Q. apply app_eq_nil in Q as [_ Q]. contradiction.
    - destruct (IH' [] ltac:(intros l [])) as (gs & tl & xs & G & B & L).
      destruct (merged_cons hs (block_header80 b) (concat rl) (e :: es) (concat p) gs tl xs NHb Gb Gr ltac:(discriminate) G) as (g & GB).
      exists (g :: gs), tl. eexists. split; [exact GB|]. split; [cbn [app]; apply bm_block; [exact C|discriminate|exact B]|]. intros _. left. discriminate. }
  destruct (X [] ltac:(intros l [])) as (gs & tl & xs & G & B & L). exists (xs ++ at_end tl). split; [|exact B]. apply (merged_written nosplit _ gs tl xs); [|exact G]. apply L. now right.
Qed.
End Blocks.
