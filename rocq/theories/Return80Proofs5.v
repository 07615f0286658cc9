(** Lemmas of C50, part 5: the element that is read from a line. *)
From Verif Require Import SchemaSpec PyStrProofs AdesMasterTables Schema XsdSpec SchemaSpec XsdFiles ValueSpec IdProofs5 RoundSpec RoundProofs2.
From Verif Require Import PyFloat SexVals XmlToMpc80 JustSpec JustProofs Line80Spec LineProofs1 PropsMpc80 DocProofs1 DocProofs3 ValueProofs9.
From Verif Require Import Mpc80 Mpc80Spec Mpc80Proofs1 Mpc80Proofs11 PackSpec DocSpec Back80Spec Back80Proofs4 Back80Proofs5 Back80Proofs6 Back80Proofs7 Back80Proofs10 SexSpec Print80Spec Submit80Spec Submit80Proofs5 Return80Spec Return80Proofs1 Return80Proofs2 Return80Proofs3 Return80Proofs4.
Local Open Scope nat_scope.

Lemma cols_fine a b l : fine l -> fine (cols a b l).
Proof. unfold cols. intro H. apply firstn_fine. apply (fine_sub l); [|exact H]. intros c I. rewrite <- (firstn_skipn (a - 1) l). apply in_or_app. now right. Qed.
Lemma names_valid : forallb valid_name ofields = true. Proof. vm_compute. reflexivity. Qed.
Lemma optical_name : valid_name $"optical" = true. Proof. vm_compute. reflexivity. Qed.
Lemma element_fine text : (forall x, fine (text x)) -> xml_valid (element $"optical" ofields text) = true.
Proof.
  intro T. rewrite element_valid by exact optical_name. apply forallb_forall. intros x I. apply in_flat_map in I as (f & If & Ix).
  pose proof names_valid as N. rewrite forallb_forall in N. specialize (N f If).
  destruct (strip (text f)) as [|c s] eqn:E; [destruct Ix|]. destruct Ix as [<-|[]]. rewrite leaf_valid, N, <- E. cbn [andb]. apply fine_text, strip_fine, T.
Qed.
Lemma element_value text x : rec_value (element $"optical" ofields text) x = if smem x ofields then strip (text x) else [].
Proof.
  pose proof (rec_get (element $"optical" ofields text) x) as G. rewrite element_get in G. unfold shown in G.
  destruct (smem x ofields); [|now destruct (rec_value _ x)]. destruct (strip (text x)), (rec_value _ x); congruence.
Qed.
Lemma prog_text : forall c, implb (cmem c validProgramCodes && negb (ceqb c " ")) (match packProgID [c] with Ok p => streqb (strip p) p && forallb okc p | Err _ => false end) = true.
Proof. apply forall_ascii. vm_compute. reflexivity. Qed.
Lemma dict_text (d : item) x : Forall (fun kv => fine_o (snd kv)) d -> fine (text_of d x).
Proof.
  intro H. unfold text_of. destruct (dget x d) as [[v|]|] eqn:E; try reflexivity. apply dget_In in E. rewrite Forall_forall in H. exact (H _ E).
Qed.
Lemma modes_fine : forallb (fun c => forallb okc (mode_of [c])) $"PeCBTMcEOHNn SV" = true. Proof. vm_compute. reflexivity. Qed.
Lemma cats_fine : forallb (fun c => forallb okc (catalogue [c])) catalogue_letters = true. Proof. vm_compute. reflexivity. Qed.

Section Line.
Variable F : derivation -> str -> Prop.
Variable RV : reads_values F.
Variable r : xml.
Hypothesis V : valid F submit_xsd r.
Variable o : opts80.
Hypothesis So : standard o.
Hypothesis Tg : In (xtag r) [$"optical"; $"occultation"].
Variables l id c date ra de mag : str.
Variables i j k : nat.
Variables q q' : Q.
Hypothesis PA : parts r o l id c date ra de mag i j k q q'.
Hypothesis LG : legible l.
Variables t ra' de' : str.
Variables perm prov trk : option str.
Hypothesis Ft : fine t. Hypothesis Fr : fine ra'. Hypothesis Fd : fine de'.
Hypothesis UN : unpackPackedID id = Ok (perm, prov, trk).
Definition dd : item := optical_dict l t (PInt (10 ^ (6 - Z.of_nat i))) perm prov trk ra' (PTen j) de' (PTen k).
Definition CO := cols_are r o l id c date ra de mag i j k q q' PA.

Lemma l80 : length l = 80.
Proof. rewrite (line_is r o l id c date ra de mag i j k q q' PA). destruct CO. destruct (RA r o l id c date ra de mag i j k q q' PA) as ((Lr & _) & _). destruct (DA r o l id c date ra de mag i j k q q' PA) as ((Ld & _) & _). destruct (TA r o l id c date ra de mag i j k q q' PA) as ((Lt & _) & _). rewrite !app_length, !spaces_length. lia. Qed.
(** what the second line adds to it *)
Definition locs : list str := map lit location_fields.
Variable d : item.
Hypothesis SD : forall x, smem x locs = false -> text_of d x = text_of dd x.
Hypothesis LF : forall x, smem x locs = true -> fine (text_of d x).
Hypothesis ND : cols 15 15 l = $"V" -> blank (text_of d $"pos3") = false.
Lemma same_text x : smem $x locs = false -> text_of d $x = text_of dd $x. Proof. apply SD. Qed.
Lemma code_text : text_of d $"code" = cols 15 15 l. Proof. exact (same_text "code" eq_refl). Qed.
Lemma stn_text : text_of d $"stn" = cols 78 80 l. Proof. exact (same_text "stn" eq_refl). Qed.
Lemma notes_text : text_of d $"notes" = cols 14 14 l. Proof. exact (same_text "notes" eq_refl). Qed.
Lemma ref_none : reference d = Ok (spaces 5).
Proof. unfold reference. rewrite (same_text "packedref" eq_refl). change (text_of dd $"packedref") with (cols 72 77 l). rewrite skip1 by exact l80. rewrite (co_ref _ _ _ _ _ _ _ _ CO). vm_compute. reflexivity. Qed.
Lemma nt_is : firstn 1 (given (subDict_of r) $"notes" $" ") = match firstn 1 (rec_value r $"notes") with [] => $" " | n => n end.
Proof. rewrite (dgiven r "notes"). destruct (rec_value r $"notes"); reflexivity. Qed.
Lemma nt_dark x s : firstn 1 (rec_value r $"notes") = x :: s -> pyspace x = false /\ s = [].
Proof.
  pose proof (notes_an F RV r V Tg) as A. destruct (rec_value r $"notes") as [|y n]; [discriminate 1|]. cbn [firstn]. intro E. injection E as <- <-. cbn [forallb] in A. apply andb_true_iff in A as [A _]. split; [now apply an_space|reflexivity].
Qed.
Lemma program_is : exists pg, program d = Ok pg /\ strip pg = pg /\ fine pg /\
  let n := firstn 1 (rec_value r $"notes") in
  if smem (rec_value r $"stn") programCodeSites
  then match n with [] => pg = [] | _ => packProgID n = Ok pg end
  else pg = [].
Proof.
  cbv zeta. unfold program, has_programs. rewrite stn_text, notes_text.
  rewrite (co_st _ _ _ _ _ _ _ _ CO), (co_nt _ _ _ _ _ _ _ _ CO), nt_is.
  pose proof (lg_note l LG) as (x & Ex & Ix). rewrite (co_st _ _ _ _ _ _ _ _ CO) in Ix. rewrite (co_nt _ _ _ _ _ _ _ _ CO), nt_is in Ex.
  destruct (smem (rec_value r $"stn") programCodeSites); cbn [andb]; [|exists []; repeat split; reflexivity].
  destruct (firstn 1 (rec_value r $"notes")) as [|y s] eqn:N.
  - exists []. repeat split; reflexivity.
  - destruct (nt_dark y s N) as (D & ->). injection Ex as ->. assert (ceqb x " " = false) as NB by (destruct (ceqb x " ") eqn:Q; [|reflexivity]; apply ceqb_eq in Q; subst x; discriminate D).
    assert (streqb [x] $" " = false) as -> by (unfold lit; cbn [streqb list_ascii_of_string]; now rewrite NB). cbn [negb].
    pose proof (prog_text x) as K. apply cmem_in in Ix. rewrite Ix, NB in K. cbn [andb negb implb] in K. destruct (packProgID [x]) as [p|]; [|discriminate K]. apply andb_true_iff in K as [K1 K2]. apply streqb_eq in K1. exists p. repeat split; assumption.
Qed.
Lemma texts_fine pg x : fine pg -> fine (optical_text pg (spaces 5) d x).
Proof.
  intro Fp. pose proof (l_fine F RV r V o Tg l id c date ra de mag i j k q q' PA) as Fl.
  destruct (code_is r o l id c date ra de mag i j k q q' PA) as (y & Ey & Iy & _). destruct (cat_letter (rec_value r $"astCat")) as (z & Ez & Iz).
  destruct (unpack_fine id perm prov trk (id_fine F RV r V o Tg l id c date ra de mag i j k q q' PA) UN) as (U1 & U2 & U3).
  assert (forall x, fine (text_of d x)) as T.
  { intro w. destruct (smem w locs) eqn:W; [now apply LF|rewrite (SD w W)]. apply dict_text. unfold dd, optical_dict, texts, common, time_fields, designation. cbn [map app fst snd].
    repeat (apply Forall_cons; [cbn [snd fine_o]|]); try apply Forall_nil; try (apply cols_fine; exact Fl); try assumption; try reflexivity.
    - destruct (in_i r o l id c date ra de mag i j k q q' PA) as [<-|[<-|[]]]; reflexivity.
    - destruct (in_j r o l id c date ra de mag i j k q q' PA) as [<-|[<-|[<-|[]]]]; reflexivity.
    - destruct (in_k r o l id c date ra de mag i j k q q' PA) as [<-|[<-|[]]]; reflexivity. }
  unfold optical_text. rewrite code_text, (same_text "astCat" eq_refl). change (text_of dd $"astCat") with (cols 72 72 l). rewrite (co_c _ _ _ _ _ _ _ _ CO), (co_ct _ _ _ _ _ _ _ _ CO), Ey, Ez.
  destruct (called x "mode"); [pose proof modes_fine as M; rewrite forallb_forall in M; exact (M y Iy)|].
  destruct (called x "astCat"); [pose proof cats_fine as M; rewrite forallb_forall in M; exact (M z Iz)|].
  clear ND. destruct (called x "band"). { destruct (blank _); [reflexivity|]. destruct (blank _); [reflexivity|apply T]. }
  destruct (called x "notes"). { destruct (has_programs d); [reflexivity|apply T]. }
  destruct (called x "prog"); [exact Fp|]. destruct (called x "ref"); [reflexivity|].
  destruct (called x "deprecated"); [destruct (is_kind "X" d); reflexivity|]. destruct (called x "subFrm"); [destruct (is_kind "A" d); reflexivity|]. apply T.
Qed.
Lemma row_is : exists pg, row ofields rfields d = Some [element $"optical" ofields (optical_text pg (spaces 5) d)] /\ program d = Ok pg /\ strip pg = pg /\ fine pg.
Proof.
  destruct program_is as (pg & P & S & Fp & _). exists pg. split; [|split; [exact P|split; assumption]].
  destruct (code_is r o l id c date ra de mag i j k q q' PA) as (y & Ey & Iy & _).
  assert (text_of d $"code" = [y]) as Ed by (rewrite code_text, (co_c _ _ _ _ _ _ _ _ CO); exact Ey).
  destruct (not_left_out d y Ed) as (L1 & L2).
  { clear - Iy. vm_compute in Iy |- *. tauto. }
  { intros ->. apply ND. now rewrite (co_c _ _ _ _ _ _ _ _ CO). }
  unfold row. rewrite L1, L2, P, ref_none. unfold checked. rewrite element_fine; [reflexivity|]. intro x. now apply texts_fine.
Qed.
End Line.
