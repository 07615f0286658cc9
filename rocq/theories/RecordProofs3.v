(** The formulas of the record types are the conditions of RecordSpec. *)
From Coq Require Import Btauto.
From Verif Require Import SchemaSpec PyStrProofs SchemaProofs3 RecordProofs1 RecordProofs2 AdesMasterTables.
From Verif Require Import Schema XsdSpec SchemaSpec XsdFiles.
From Verif Require Import RecordSpec.
Local Open Scope nat_scope.

Definition fields (kind : str) : list str := match dget kind (allowed ades_tables) with Some l => l | None => [] end.
Definition kinds6 : list str := [$"optical"; $"offset"; $"occultation"; $"radar"; $"opticalResidual"; $"radarResidual"].
Lemma general_ok : forallb (fun k => record_ok general_xsd 12 (type_of_tag general_xsd k) (fields k)) kinds6 = true.
Proof. vm_compute. reflexivity. Qed.
Lemma submit_ok : forallb (fun k => record_ok submit_xsd 12 (type_of_tag submit_xsd k) (fields k)) (firstn 4 kinds6) = true.
Proof. vm_compute. reflexivity. Qed.
Lemma general_all : forallb (fun k => match missing general_xsd 12 (type_of_tag general_xsd k) (fields k) with [] => true | _ => false end) kinds6 = true.
Proof. vm_compute. reflexivity. Qed.

(** * Simplified formulas: no optional fields, no double negation *)
Fixpoint subset (a b : list str) : bool := match a with [] => true | x :: a' => if smem x b then subset a' b else false end.
Lemma subset_ok a b : subset a b = true -> incl a b.
Proof.
  induction a as [|x a IH]; intros H y I; [destruct I|]. cbn [subset] in H. destruct (smem x b) eqn:E; [|discriminate H]. destruct I as [<-|I]; [now apply smem_iff|now apply IH].
Qed.
Lemma none_same h a b : subset a b = true -> subset b a = true -> sem h (FNone a) = sem h (FNone b).
Proof.
  intros A B. apply subset_ok in A, B. cbn [sem]. destruct (forallb _ b) eqn:E; destruct (forallb _ a) eqn:E'; try reflexivity.
  - rewrite forallb_forall in E. assert (forallb (fun x => negb (h x)) a = true) as K by (apply forallb_forall; intros x I; apply E, A, I). congruence.
  - rewrite forallb_forall in E'. assert (forallb (fun x => negb (h x)) b = true) as K by (apply forallb_forall; intros x I; apply E', B, I). congruence.
Qed.
Definition is_true (f : form) : bool := match f with FAll [] => true | _ => false end.
(** an optional field *)
Definition optional (l : list form) : bool := match l with [FNone [x]; FHas y] => streqb x y | _ => false end.
Fixpoint simp (f : form) : form :=
  match f with
  | FAll l => match filter (fun f => negb (is_true f)) (map simp l) with [f] => f | l' => FAll l' end
  | FAny l => if optional l then FAll [] else match map simp l with [f] => f | l' => FAny l' end
  | FNone [] => FAll []
  | _ => f
  end.
Section FormInd.
Variable P : form -> Prop.
Hypothesis Hh : forall x, P (FHas x).
Hypothesis Hn : forall l, P (FNone l).
Hypothesis Ha : forall l, Forall P l -> P (FAll l).
Hypothesis Hy : forall l, Forall P l -> P (FAny l).
Fixpoint form_ind' (f : form) : P f :=
  match f with
  | FHas x => Hh x
  | FNone l => Hn l
  | FAll l => Ha l ((fix go l : Forall P l := match l with [] => Forall_nil _ | x :: l' => Forall_cons _ (form_ind' x) (go l') end) l)
  | FAny l => Hy l ((fix go l : Forall P l := match l with [] => Forall_nil _ | x :: l' => Forall_cons _ (form_ind' x) (go l') end) l)
  end.
End FormInd.
Lemma simp_ok h f : sem h (simp f) = sem h f.
Proof.
  induction f as [x|l|l IH|l IH] using form_ind'.
  - reflexivity.
  - now destruct l.
  - cbn [simp sem]. transitivity (forallb (sem h) (filter (fun f => negb (is_true f)) (map simp l))).
    + destruct (filter _ _) as [|f [|f' r]]; try reflexivity. cbn [forallb]. now rewrite andb_true_r.
    + induction IH as [|x l' E _ IHl]; [reflexivity|]. cbn [map filter forallb]. destruct (is_true (simp x)) eqn:T; cbn [negb].
      * rewrite IHl. destruct (simp x) as [| |[|]|]; try discriminate T. cbn [sem forallb] in E. now rewrite <- E.
      * cbn [forallb]. now rewrite E, IHl.
  - cbn [simp sem]. destruct (optional l) eqn:O.
    + destruct l as [|[|[|x [|]]| |] [|[y| | |] [|]]]; try discriminate O. cbn [optional] in O. apply streqb_eq in O. subst y. cbn [sem forallb existsb]. now destruct (h x).
    + transitivity (existsb (sem h) (map simp l)).
      * destruct (map simp l) as [|f [|f' r]]; try reflexivity. cbn [existsb]. now rewrite orb_false_r.
      * clear O. induction IH as [|x l' E _ IHl]; [reflexivity|]. cbn [map existsb]. now rewrite E, IHl.
Qed.

(** * The groups *)
Local Open Scope string_scope.
Local Open Scope list_scope.
Definition FN (l : list string) : form := FNone (map lit l).
Definition FH (l : list string) : form := FAll (map (fun x => FHas (lit x)) l).
Lemma sem_FN h l : sem h (FN l) = none h l.
Proof. unfold FN. cbn [sem]. now rewrite forallb_map'. Qed.
Lemma sem_FH h l : sem h (FH l) = every h l.
Proof. unfold FH. cbn [sem]. now rewrite forallb_map'. Qed.
Lemma none_perm h a b : subset (map lit a) (map lit b) = true -> subset (map lit b) (map lit a) = true -> none h a = none h b.
Proof. intros A B. rewrite <- !sem_FN. now apply none_same. Qed.
Lemma sem_all h l : sem h (FAll l) = forallb (sem h) l. Proof. reflexivity. Qed.
Lemma sem_any h l : sem h (FAny l) = existsb (sem h) l. Proof. reflexivity. Qed.
Lemma sem_has h x : sem h (FHas x) = h x. Proof. reflexivity. Qed.

Definition f_known : form := FAny [FAll [FN ["artSat"]; FHas $"permID"]; FAll [FN ["permID"; "artSat"]; FHas $"provID"]; FAll [FN ["permID"; "provID"; "provID"]; FHas $"artSat"]].
Definition f_object : form := FAny [f_known; FAll [FN ["permID"; "provID"; "provID"; "artSat"]; FHas $"trkSub"]].
Definition f_group (order must : list string) : form := FAny [FN order; FH must].
Definition f_location : form := f_group
  ["sys"; "ctr"; "pos1"; "pos2"; "pos3"; "vel1"; "vel2"; "vel3"; "posCov11"; "posCov12"; "posCov13"; "posCov22"; "posCov23"; "posCov33"] ["sys"; "ctr"; "pos1"; "pos2"; "pos3"].
Definition f_photometry : form := f_group ["mag"; "rmsMag"; "band"; "fltr"; "photCat"; "photAp"; "nucMag"] ["mag"; "band"].
Definition f_precision : form := f_group ["precTime"; "precRA"; "precDec"] ["precTime"; "precRA"; "precDec"].
Definition f_offset : form := FAny [FAll [FN ["dist"; "pa"; "rmsDist"; "rmsPA"]; FH ["deltaRA"; "deltaDec"]];
  FAll [FN ["deltaRA"; "deltaDec"; "rmsRA"; "rmsDec"]; FH ["dist"; "pa"]]].
Definition f_radar_value : form := FAny [FAll [FN ["delay"; "rmsDelay"]; FH ["doppler"; "rmsDoppler"]]; FAll [FN ["doppler"; "rmsDoppler"]; FH ["delay"; "rmsDelay"]]].
Definition mags : list string := ["photProd"; "resMag"; "selPhot"; "sigMag"; "biasMag"; "photMod"].
Definition f_residual : form := FAll [FHas $"orbProd"; FHas $"orbID";
  FAny [FAll [FH position_residual; f_group mags magnitude_residual]; FAll [FN (position_residual ++ position_extra); FH magnitude_residual]]].
Definition f_residuals : form := FAny [FN (["orbProd"; "orbID"] ++ position_residual ++ position_extra ++ mags ++ mags); f_residual].
Definition f_radar_residual : form := FAll [FHas $"orbProd"; FHas $"orbID";
  FAny [FAll [FN doppler_residual; FH delay_residual]; FAll [FN delay_residual; FH doppler_residual]]].
Definition f_radar_residuals : form := FAny [FN radar_residual_fields; f_radar_residual].

Ltac gen h := repeat match goal with |- context [h ?x] => generalize (h x); intro end.
Lemma s_known h : sem h f_known = known_object h.
Proof.
  unfold f_known, known_object. rewrite sem_any. cbn [existsb]. rewrite !sem_all. cbn [forallb]. rewrite !sem_FN, !sem_has. cbn [none some forallb existsb].
  unfold none, some, g. cbn [forallb existsb]. unfold g. gen h. btauto.
Qed.
Lemma s_object h : sem h f_object = object h.
Proof.
  unfold f_object, object. rewrite sem_any. cbn [existsb]. rewrite s_known, sem_all. cbn [forallb]. rewrite !sem_FN, !sem_has.
  generalize (known_object h). intro k. unfold none. cbn [forallb]. unfold g. gen h. btauto.
Qed.
Lemma s_group h order must may : subset (map lit order) (map lit (must ++ may)) = true -> subset (map lit (must ++ may)) (map lit order) = true ->
  sem h (f_group order must) = group h must may.
Proof.
  intros A B. unfold f_group, group. rewrite sem_any. cbn [existsb]. now rewrite sem_FN, sem_FH, (none_perm h _ _ A B), orb_false_r.
Qed.
Lemma s_location h : sem h f_location = location h. Proof. apply s_group; vm_compute; reflexivity. Qed.
Lemma s_photometry h : sem h f_photometry = photometry h. Proof. apply s_group; vm_compute; reflexivity. Qed.
Lemma s_precision h : sem h f_precision = precision h. Proof. apply s_group; vm_compute; reflexivity. Qed.
Lemma s_offset h : sem h f_offset = offset_value h.
Proof. unfold f_offset, offset_value. rewrite sem_any. cbn [existsb]. rewrite !sem_all. cbn [forallb]. rewrite !sem_FN, !sem_FH. btauto. Qed.
Lemma s_radar_value h : sem h f_radar_value = radar_value h.
Proof. unfold f_radar_value, radar_value. rewrite sem_any. cbn [existsb]. rewrite !sem_all. cbn [forallb]. rewrite !sem_FN, !sem_FH. btauto. Qed.
Lemma every2 h a b : every h [a; b] = h (lit a) && h (lit b). Proof. unfold every. cbn [forallb]. unfold g. now rewrite andb_true_r. Qed.
Lemma s_residual h : sem h f_residual = residual h.
Proof.
  unfold f_residual, residual. rewrite sem_all. cbn [forallb]. rewrite !sem_has, sem_any. cbn [existsb]. rewrite !sem_all. cbn [forallb].
  rewrite sem_FH, sem_FN, sem_FH, (s_group h mags magnitude_residual magnitude_extra) by (vm_compute; reflexivity). rewrite every2. btauto.
Qed.
Lemma s_residuals h : sem h f_residuals = none h residual_fields || residual h.
Proof.
  unfold f_residuals. rewrite sem_any. cbn [existsb]. rewrite s_residual, sem_FN, orb_false_r. f_equal. apply none_perm; vm_compute; reflexivity.
Qed.
Lemma s_radar_residual h : sem h f_radar_residual = radar_residual h.
Proof.
  unfold f_radar_residual, radar_residual. rewrite sem_all. cbn [forallb]. rewrite !sem_has, sem_any. cbn [existsb]. rewrite !sem_all. cbn [forallb].
  rewrite !sem_FH, !sem_FN, every2. btauto.
Qed.
Lemma s_radar_residuals h : sem h f_radar_residuals = none h radar_residual_fields || radar_residual h.
Proof. unfold f_radar_residuals. rewrite sem_any. cbn [existsb]. now rewrite s_radar_residual, sem_FN, orb_false_r. Qed.

(** * The record types *)
Definition s_of (S : xml) (t : str) : form := simp (FAll (map (pform S 12) (model S t))).
Lemma s_sem S t h : sem h (s_of S t) = sem h (FAll (map (pform S 12) (model S t))). Proof. apply simp_ok. Qed.
Ltac pieces := cbn [forallb]; rewrite ?s_object, ?s_known, ?s_location, ?s_photometry, ?s_precision, ?s_offset, ?s_radar_value, ?s_residuals, ?s_radar_residuals, ?s_residual, ?s_radar_residual, ?sem_has.
Lemma s_optical h : sem h (s_of general_xsd $"OpticalType") = complete_optical h.
Proof.
  transitivity (sem h (FAll [f_object; FHas $"mode"; FHas $"stn"; f_location; FHas $"obsTime"; FHas $"ra"; FHas $"dec"; FHas $"astCat"; f_photometry; f_precision; f_residuals]));
    [f_equal; vm_compute; reflexivity|].
  rewrite sem_all. pieces. unfold complete_optical, every. cbn [forallb]. unfold g. btauto.
Qed.
Lemma s_offset_type h : sem h (s_of general_xsd $"OffsetType") = complete_offset h.
Proof.
  transitivity (sem h (FAll [f_object; FHas $"mode"; FHas $"stn"; f_location; FHas $"obsTime"; FHas $"obsCenter"; f_offset; f_photometry; f_precision; f_residuals]));
    [f_equal; vm_compute; reflexivity|].
  rewrite sem_all. pieces. unfold complete_offset, every. cbn [forallb]. unfold g. btauto.
Qed.
Lemma s_occultation h : sem h (s_of general_xsd $"OccultationType") = complete_occultation h.
Proof.
  transitivity (sem h (FAll [f_object; FHas $"mode"; FHas $"stn"; f_location; FHas $"obsTime"; FHas $"raStar"; FHas $"decStar"; f_offset; FHas $"astCat"; f_photometry; f_precision; f_residuals]));
    [f_equal; vm_compute; reflexivity|].
  rewrite sem_all. pieces. unfold complete_occultation, every. cbn [forallb]. unfold g. btauto.
Qed.
Lemma s_radar h : sem h (s_of general_xsd $"RadarType") = complete_radar h.
Proof.
  transitivity (sem h (FAll [f_known; FHas $"trx"; FHas $"rcv"; FHas $"obsTime"; f_radar_value; FHas $"frq"; f_radar_residuals])); [f_equal; vm_compute; reflexivity|].
  rewrite sem_all. pieces. unfold complete_radar, every. cbn [forallb]. unfold g. btauto.
Qed.
Lemma s_opticalResidual h : sem h (s_of general_xsd $"OpticalResType") = complete_opticalResidual h.
Proof.
  transitivity (sem h (FAll [f_object; FHas $"obsTime"; f_residual])); [f_equal; vm_compute; reflexivity|].
  rewrite sem_all. pieces. unfold complete_opticalResidual, every. cbn [forallb]. unfold g. btauto.
Qed.
Lemma s_radarResidual h : sem h (s_of general_xsd $"RadarResType") = complete_radarResidual h.
Proof.
  transitivity (sem h (FAll [f_known; FHas $"obsTime"; f_radar_residual])); [f_equal; vm_compute; reflexivity|].
  rewrite sem_all. pieces. unfold complete_radarResidual, every. cbn [forallb]. unfold g. btauto.
Qed.
