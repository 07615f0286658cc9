(** Records of 80-column files always say that they come from there. *)
From Verif Require Import SchemaSpec PyStrProofs XmlProofs SchemaProofs2 SchemaProofs3 RecordProofs4 RecordProofs9 DocProofs1 DocProofs6 Mpc80Proofs1.
From Verif Require Import AdesMasterTables FileLines Mpc80 Mpc80Spec Schema XsdSpec SchemaSpec XsdFiles DocSpec ValidSpec PropsMpc80 PropsDoc PropsSchema.
Local Open Scope nat_scope.

Lemma decoded_subFmt d : decoded d -> header d = true \/ dget $"subFmt" d = Some (Some $"M92").
Proof.
  intros (l & H & NE).
  destruct H as [k v Le I E|t p perm prov trk ra pra de pde NH F A0 R0 DE
                            |t p perm prov trk shift NH F A0 S|t p perm prov trk NH F A0
                            |t p perm prov trk x y z dp sys NH F A0 SY P1 P2 P3|t p perm prov trk NH F A0|E];
    [left; reflexivity|right; reflexivity..|contradiction].
Qed.
Lemma records_subFmt ls d : Forall (fun l => ~ In nl l) ls -> In d (fst (records (read ls))) -> header d = true \/ dget $"subFmt" d = Some (Some $"M92").
Proof.
  intros F I. destruct (records_origin _ _ I) as [(p & q & E & NF & NS)|(a & b & p & q & E & PW & SR & ->)].
  - apply decoded_subFmt. eapply read_decoded; eauto. rewrite E. apply in_or_app. right. now left.
  - assert (decoded a) as D by (eapply read_decoded; eauto; rewrite E; apply in_or_app; right; now left).
    destruct (not_second_pair a b PW) as [NS NH]. destruct (decoded_subFmt a D) as [H|H]; [rewrite NH in H; discriminate H|].
    right. unfold joined. destruct (is_kind "R" a); rewrite updated_get by reflexivity; exact H.
Qed.
Lemma file_subFmt nosplit ls rs d : readable ls -> records_of nosplit ls = (rs, None) -> In d rs -> header d = false -> dget $"subFmt" d = Some (Some $"M92").
Proof.
  intros P E I H. assert (header d = true \/ dget $"subFmt" d = Some (Some $"M92")) as [C|C]; [|rewrite H in C; discriminate C|exact C].
  destruct nosplit; unfold records_of in E.
  - apply (records_subFmt (map (firstn 80) ls)); [|now rewrite E]. apply Forall_map. eapply Forall_impl; [|exact (proj1 P)]. intros a [N _]. now apply no_nl_firstn.
  - pose proof (split_no_nl ls P) as N. destruct (split_radar (map (firstn 80) ls)) as [ls' e]. cbn [fst] in N.
    apply (records_subFmt ls'); auto. unfold ended in E. destruct (records (read ls')) as [rs' [e'|]]; [discriminate|]. injection E as <- _. exact I.
Qed.
Lemma optical_subFmt p r d : dget $"subFmt" d = Some (Some $"M92") -> given (optical_text p r d) $"subFmt" = true.
Proof. intro H. unfold given, optical_text, called. assert (text_of d $"subFmt" = $"M92") as T by (unfold text_of; now rewrite H).
  change (streqb $"subFmt" $"mode") with false. change (streqb $"subFmt" $"astCat") with false. change (streqb $"subFmt" $"band") with false.
  change (streqb $"subFmt" $"notes") with false. change (streqb $"subFmt" $"prog") with false. change (streqb $"subFmt" $"ref") with false.
  change (streqb $"subFmt" $"deprecated") with false. cbv iota. change (streqb $"subFmt" $"subFrm") with false. cbv iota. rewrite T. reflexivity. Qed.
Lemma element_has kind table text x : In x table -> given text x = true -> exists k, In k (xkids (element kind table text)) /\ xtag k = x.
Proof.
  unfold element, given. cbn [xkids]. intros I G. exists (DocSpec.leaf x (strip (text x))). split; [|reflexivity].
  apply in_flat_map. exists x. split; [exact I|]. destruct (strip (text x)); [discriminate G|now left].
Qed.
Lemma together_in {A B} (f : A -> option (list B)) l y : together f l = Some y -> forall a, In a l -> exists z, f a = Some z /\ incl z y.
Proof.
  revert y. induction l as [|b l IH]; intros y E a I; [destruct I|]. cbn [together] in E. destruct (f b) as [u|] eqn:Fb; [|discriminate E].
  destruct (together f l) as [v|]; [|discriminate E]. injection E as <-. destruct I as [<-|I].
  - exists u. split; [exact Fb|]. now apply incl_appl, incl_refl.
  - destruct (IH v eq_refl a I) as (z & Z & J). exists z. split; [exact Z|]. now apply incl_appr.
Qed.
Lemma block_optical gs bs g d : blocks optical_fields radar_fields gs = Some bs -> In g gs -> In d (snd g) ->
  left_out d = false -> is_kind "R" d = false -> dget $"subFmt" d = Some (Some $"M92") ->
  exists k, In k (descendants (ades bs)) /\ xtag k = $"subFmt".
Proof.
  intros B Ig Id L K M. destruct (together_in _ _ _ B g Ig) as (y & Y & J). unfold block in Y.
  destruct (rows optical_fields radar_fields (snd g)) as [rs|] eqn:R; [|discriminate Y]. destruct (xml_valid (context (fst g))); [|discriminate Y]. injection Y as <-.
  destruct (together_in _ _ _ R d Id) as (z & Z & JZ). unfold row in Z. rewrite L, K in Z. destruct (program d) as [p|]; [|discriminate Z]. destruct (reference d) as [r|]; [|discriminate Z].
  unfold checked in Z. destruct (xml_valid _); [|discriminate Z]. injection Z as <-.
  destruct (element_has $"optical" optical_fields (optical_text p r d) $"subFmt") as (k & Ik & T).
  { apply RecordProofs1.smem_iff. vm_compute. reflexivity. } { now apply optical_subFmt. }
  exists k. split; [|exact T].
  assert (forall a b c, In b (xkids a) -> c = b \/ In c (descendants b) -> In c (descendants a)) as D.
  { intros [t at_ v ks] b c Ib Ic. cbn [xkids] in Ib. cbn [descendants]. apply in_flat_map. exists b. split; [exact Ib|]. destruct Ic as [->|Ic]; [now left|now right]. }
  eapply D; [apply J; now left|]. right. eapply D; [right; now left|]. right. eapply D; [apply JZ; now left|]. right. eapply D; [exact Ik|now left].
Qed.
