(** Lemmas about ValueSpec, part 14: radar records. *)
From Verif Require PropsPack.
From Verif Require Import PyStrProofs PackUtil Codes PackSpec JsonProofs2 Back80Proofs1 Back80Proofs2 Back80Proofs3 Back80Proofs5 Back80Proofs6 Back80Proofs7.
From Verif Require Import Mpc80 Mpc80Spec Mpc80Proofs1 Mpc80Proofs4 Mpc80Proofs11 DocSpec ValidSpec RecordSpec.
From Verif Require Import IdSpec IdProofs3 IdProofs5 ValueSpec XsdFiles ValueProofs1 ValueProofs3 ValueProofs6 ValueProofs7 ValueProofs8 ValueProofs9 ValueProofs10 ValueProofs11 ValueProofs12 ValueProofs13.
From Verif Require RecordProofs1 Mpc80Proofs10 PropsMpc80.
From Verif Require Import PropsDoc.
Local Open Scope nat_scope.

Lemma dark_strip c s : In c s -> pyspace c = false -> In c (strip s).
Proof.
  intros I P. destruct (strip_decomp s) as (a & b & E & A & B). rewrite E in I. apply in_app_or in I as [I|I].
  - exfalso. rewrite forallb_forall in A. rewrite (A _ I) in P. discriminate P.
  - apply in_app_or in I as [I|I]; [exact I|]. exfalso. rewrite forallb_forall in B. rewrite (B _ I) in P. discriminate P.
Qed.
Lemma point_given n w : forallb snumeric w = true -> (match strip (implied_point n w) with [] => false | _ => true end) = negb (blank w).
Proof.
  intro H. rewrite <- (point_implied n w H). destruct (blank w); [reflexivity|]. cbn [negb].
  assert (In "."%char (strip (point_at n w))) as I. { apply dark_strip; [|reflexivity]. unfold point_at. apply in_or_app. right. now left. }
  destruct (strip (point_at n w)); [destruct I|reflexivity].
Qed.
Lemma numeric_plain s : forallb numeric s = true -> unsigned (strip s) = strip s.
Proof.
  intro H. destruct (strip s) as [|c t] eqn:E; [reflexivity|]. cbn [unsigned]. rewrite forallb_forall in H.
  assert (numeric c = true) as N by (apply H; apply strip_In; rewrite E; now left).
  assert (one_of $"+-" c = false) as ->; [|reflexivity]. clear -N. revert c N. apply implf_ascii. vm_compute. reflexivity.
Qed.
Lemma shift_fun w s s' : shift_of w s -> shift_of w s' -> s = s'.
Proof.
  unfold shift_of. destruct (streqb w (spaces 15)); intros A B; [congruence|]. exact (ok_inj _ _ (eq_trans (eq_sym A) B)).
Qed.
Lemma shift_facts w s : length w = 15 -> forallb snumeric w = true -> shift_of w s -> strip s = s /\ (match s with [] => false | _ => true end) = negb (blank w).
Proof.
  intros L H S. unfold shift_of in S. rewrite (blank_spaces w) by auto. rewrite L. destruct (streqb w (spaces 15)) eqn:E; [subst s; split; reflexivity|].
  cbn [negb]. unfold implied_point in S. rewrite L, E in S. destruct w as [|c w]; [discriminate L|].
  change (packSigned (c :: (firstn 10 w ++ $"." ++ skipn 11 (c :: w))) = Ok s) in S. set (r := firstn 10 w ++ $"." ++ skipn 11 (c :: w)) in *. rewrite signed_ok in S.
  assert (In "."%char (strip r)) as I. { apply dark_strip; [|reflexivity]. unfold r. apply in_or_app. right. now left. }
  clearbody r. destruct (ceqb c " ") eqn:C.
  - apply ok_inj in S. subst s. split; [apply strip_idem|]. destruct (strip r); [destruct I|reflexivity].
  - apply ok_inj in S. subst s. split; [|reflexivity]. 
    assert (pyspace c = false) as P.
    { cbn [forallb] in H. apply andb_prop in H as [H _]. clear -H C. assert (forall c, implb (snumeric c && negb (ceqb c " ")) (negb (pyspace c)) = true) as Q by (apply forall_ascii; vm_compute; reflexivity).
      specialize (Q c). rewrite H, C in Q. now destruct (pyspace c). }
    apply (signed_texty c r P).
Qed.

(** designations, in any record *)
Section Ids.
  Variable F : derivation -> str -> Prop.
  Hypothesis RT : reads_texts F.
  Variables (T : str -> str) (w : str) (perm prov trk : option str).
  Hypothesis L : length w = 12.
  Hypothesis NL : ~ In nl w.
  Hypothesis U : unpackPackedID w = Ok (perm, prov, trk).
  Hypothesis E1 : T $"permID" = text_or perm.
  Hypothesis E2 : T $"provID" = text_or prov.
  Hypothesis E3 : T $"trkSub" = text_or trk.
  Notation ok x := (given T $x = true -> simple F G (type_name G $x) (strip (T $x))).
  Lemma ids_ok : (ok "permID" /\ ok "provID" /\ ok "trkSub") <-> refused_designation w = false.
  Proof.
    pose proof (verdict_ok w _ L NL U) as V. unfold verdict in V. split.
    - intros (_ & H & _). destruct (refused_designation w); [exfalso|reflexivity]. destruct V as (s & Q & N & A & B). cbn [fst snd] in Q. rewrite Q in E2. cbn [text_or] in E2.
      assert (given T $"provID" = true) as K by (unfold given; rewrite E2; now destruct (strip s)). specialize (H K). rewrite E2 in H.
      assert (type_name G $"provID" = $"ProvIDType") as Y by (vm_compute; reflexivity). rewrite Y in H.
      apply (prov_type_general F RT) in H as [(_ & i & Hi & W)|H]; [exact (A i Hi W)|contradiction].
    - intro R. rewrite R in V. destruct V as (V1 & V2 & V3). cbn [fst snd] in V1, V2, V3.
      assert (type_name G $"permID" = $"PermIDType" /\ type_name G $"provID" = $"ProvIDType" /\ type_name G $"trkSub" = $"TrkSubType") as (Y1 & Y2 & Y3) by (vm_compute; repeat split).
      rewrite Y1, Y2, Y3, E1, E2, E3. split; [|split].
      + intros K. destruct perm as [x|]; cbn [text_or] in *; [|unfold given in K; rewrite E1 in K; discriminate K]. specialize (V1 x eq_refl). destruct (perm_text x V1) as [-> _].
        apply (perm_type F RT general_xsd x perm_general). exact V1.
      + intros K. destruct prov as [x|]; cbn [text_or] in *; [|unfold given in K; rewrite E2 in K; discriminate K]. specialize (V2 x eq_refl). destruct (prov_text x V2) as [-> _].
        apply (prov_type_general F RT). now left.
      + intros K. destruct trk as [x|]; cbn [text_or] in *; [|unfold given in K; rewrite E3 in K; discriminate K].
        assert (x <> []) as Nx by (intros ->; unfold given in K; rewrite E3 in K; discriminate K). specialize (V3 x eq_refl Nx). destruct (trk_text x V3) as [-> _].
        destruct V3 as [Lx A]. apply (trk_type_general F RT). split; [lia|]. split; [revert A; apply forallb_imp; intros c Hc; unfold old_trk_char; now rewrite Hc|].
        destruct x as [|c x]; [contradiction|]. exists c. split; [now left|]. cbn [forallb] in A. apply andb_prop in A as [A _]. intros ->. discriminate A.
  Qed.
  Lemma ids_known : refused_designation w = false -> given T $"artSat" = false -> (known_object (given T) = true <-> (perm <> None \/ prov <> None)).
  Proof.
    intros R A. pose proof (verdict_ok w _ L NL U) as V. unfold verdict in V. rewrite R in V. destruct V as (V1 & V2 & _). cbn [fst snd] in V1, V2.
    unfold known_object, some, none, g. cbn [existsb forallb]. unfold g. rewrite A. cbn [negb andb orb]. rewrite !orb_false_r, !andb_true_r.
    assert (given T $"permID" = match perm with Some _ => true | None => false end) as ->.
    { destruct perm as [x|]; cbn [text_or] in E1; [apply (given_texty T $"permID" x E1 (perm_text x (V1 x eq_refl)))|now apply given_none]. }
    assert (given T $"provID" = match prov with Some _ => true | None => false end) as ->.
    { destruct prov as [x|]; cbn [text_or] in E2; [apply (given_texty T $"provID" x E2 (prov_text x (V2 x eq_refl)))|now apply given_none]. }
    destruct perm, prov; cbn [orb]; split; intro H; try reflexivity; try discriminate H; try (now left); try (right; discriminate); try (left; discriminate). destruct H as [H|H]; now elim H.
  Qed.
End Ids.

Definition radar_shown : list str := map lit ["permID"; "provID"; "trkSub"; "trx"; "rcv"; "obsTime"; "doppler"; "rmsDoppler"; "delay"; "rmsDelay"; "com"; "frq"; "ref"]%string.
Definition radar_others : list str := Eval vm_compute in filter (fun x => negb (smem x radar_shown)) radar_fields.
Lemma radar_cases x : In x radar_fields -> In x radar_shown \/ In x radar_others.
Proof.
  intro I. assert (radar_others = filter (fun x => negb (smem x radar_shown)) radar_fields) as E by (vm_compute; reflexivity).
  rewrite E. destruct (smem x radar_shown) eqn:A; [left; now apply RecordProofs1.smem_iff|]. right. apply filter_In. split; [exact I|]. now rewrite A.
Qed.
Lemma ref6_fine F w : reads_texts F -> length w = 6 -> ((strip w <> [] -> simple F G $"RefType" (strip w)) <-> ~ In "|"%char w).
Proof.
  intros R L. rewrite (ref_type F R). split.
  - intros H I. pose proof (bar_strip w I) as J. destruct H as [_ [H _]]; [intro E; rewrite E in J; destruct J|]. apply no_bar_plain in H. contradiction.
  - intros N E. assert (~ In "|"%char (strip w)) as N2 by (intro I; apply N; now apply strip_In). split; [pose proof (strip_len w); lia|].
    split; [now apply no_bar_plain|]. destruct (solid_strip w E) as [S|S]; [exact S|contradiction].
Qed.
Section Radar.
  Variable F : derivation -> str -> Prop.
  Hypothesis RT : reads_texts F.
  Hypothesis RD : reads_decimals F.
  Hypothesis RI : reads_integers F.
  Hypothesis RM : reads_times F.
  Variables (l m : str) (T : str -> str) (t : str) (p : prec) (perm prov trk : option str) (shift : str).
  Hypothesis L : length l = 80.
  Hypothesis M : length m = 80.
  Hypothesis NL : ~ In nl l.
  Hypothesis AC : accepted true l t p perm prov trk.
  Hypothesis SH : shift_of (cols 48 62 l) shift.
  Hypothesis N1 : forallb numeric (cols 33 47 l) = true.
  Hypothesis N2 : forallb snumeric (cols 48 62 l) = true.
  Hypothesis N3 : forallb numeric (cols 63 68 l) = true.
  Hypothesis N4 : forallb numeric (cols 34 47 m) = true.
  Hypothesis N5 : forallb numeric (cols 48 62 m) = true.
  Let frq : str := firstn 5 (cols 63 68 l) ++ $"." ++ skipn 5 (cols 63 68 l).
  Hypothesis T1 : T $"permID" = text_or perm.
  Hypothesis T2 : T $"provID" = text_or prov.
  Hypothesis T3 : T $"trkSub" = text_or trk.
  Hypothesis T4 : T $"trx" = cols 69 71 l.
  Hypothesis T5 : T $"rcv" = cols 78 80 m.
  Hypothesis T6 : T $"obsTime" = t.
  Hypothesis T7 : T $"doppler" = shift.
  Hypothesis T8 : T $"rmsDoppler" = implied_point 11 (cols 48 62 m).
  Hypothesis T9 : T $"delay" = implied_point 5 (cols 33 47 l).
  Hypothesis T10 : T $"rmsDelay" = implied_point 10 (cols 34 47 m).
  Hypothesis T11 : In (T $"com") [$"0"; $"1"].
  Hypothesis T12 : T $"frq" = frq.
  Hypothesis T13 : T $"ref" = cols 72 77 l.
  Hypothesis T0 : forall x, In x radar_others -> T x = [].
  Notation ok x := (given T $x = true -> simple F G (type_name G $x) (strip (T $x))).
  Lemma numeric_s w : forallb numeric w = true -> forallb snumeric w = true.
  Proof. apply forallb_imp. intros c H. unfold snumeric. now rewrite H. Qed.
  Lemma radar_fine : fields_fine F G $"radar" radar_fields T <-> takes_radar l m.
  Proof.
    destruct AC as (DT & _ & UN).
    assert (length (cols 1 12 l) = 12) as L12 by (rewrite cols_length; lia).
    assert (~ In nl (cols 1 12 l)) as NL12 by now apply Mpc80Proofs10.no_nl_cols.
    assert (length (cols 16 32 l) = 17) as L17 by (rewrite cols_length; lia).
    destruct (date_back (cols 16 32 l) true t p L17 DT) as (D1 & _). pose proof (radar_time_fine F _ _ _ RM L17 DT) as D2.
    assert (forall x, smem $x radar_others = true -> given T $x = false) as NO by (intros x I; apply given_none, T0; now apply RecordProofs1.smem_iff).
    pose proof (ids_ok F RT T (cols 1 12 l) perm prov trk L12 NL12 UN T1 T2 T3) as ID.
    pose proof (fun R => ids_known T (cols 1 12 l) perm prov trk L12 NL12 UN T1 T2 R (NO "artSat"%string ltac:(vm_compute; reflexivity))) as KN.
    assert (type_name G $"trx" = $"StationType" /\ type_name G $"rcv" = $"StationType" /\ type_name G $"obsTime" = $"TimeType" /\ type_name G $"doppler" = $"DecimalTypeW14" /\
      type_name G $"rmsDoppler" = $"PosDecimalTypeW6" /\ type_name G $"delay" = $"PosDecimalTypeW14" /\ type_name G $"rmsDelay" = $"PosDecimalTypeW6" /\ type_name G $"com" = $"LogicalType" /\
      type_name G $"frq" = $"FrequencyType" /\ type_name G $"ref" = $"RefType") as (Y1 & Y2 & Y3 & Y4 & Y5 & Y6 & Y7 & Y8 & Y9 & Y10) by (vm_compute; repeat split).
    destruct (shift_facts (cols 48 62 l) shift ltac:(rewrite cols_length; lia) N2 SH) as [SS SG].
    assert (given T $"doppler" = negb (blank (cols 48 62 l))) as G1 by (unfold given; rewrite T7, SS; exact SG).
    assert (given T $"rmsDoppler" = negb (blank (cols 48 62 m))) as G2 by (unfold given; rewrite T8; exact (point_given 11 _ (numeric_s _ N5))).
    assert (given T $"delay" = negb (blank (cols 33 47 l))) as G3 by (unfold given; rewrite T9; exact (point_given 5 _ (numeric_s _ N1))).
    assert (given T $"rmsDelay" = negb (blank (cols 34 47 m))) as G4 by (unfold given; rewrite T10; exact (point_given 10 _ (numeric_s _ N4))).
    assert (given T $"obsTime" = true) as G5 by exact (proj1 (given_texty T $"obsTime" t T6 D1)).
    assert (given T $"com" = true /\ strip (T $"com") = T $"com") as [G6 C1] by (unfold given; destruct T11 as [<-|[<-|[]]]; split; reflexivity).
    assert (forallb numeric frq = true) as NF.
    { unfold frq. rewrite !forallb_app. assert (forall n, forallb numeric (firstn n (cols 63 68 l)) = true /\ forallb numeric (skipn n (cols 63 68 l)) = true) as Q.
      { intro n. rewrite <- (firstn_skipn n (cols 63 68 l)) in N3. rewrite forallb_app in N3. now apply andb_prop in N3. }
      rewrite (proj1 (Q 5)), (proj2 (Q 5)). reflexivity. }
    assert (length frq = 7) as LF.
    { unfold frq. rewrite !app_length, firstn_length, skipn_length. rewrite (cols_length 63 68 l) by lia. reflexivity. }
    assert (given T $"frq" = true) as G7.
    { unfold given. rewrite T12. assert (In "."%char (strip frq)) as I. { apply dark_strip; [|reflexivity]. unfold frq. apply in_or_app. right. now left. } destruct (strip frq); [destruct I|reflexivity]. }
    assert (simple F G $"FrequencyType" (strip frq) <-> exists q, decimal_value (strip frq) q /\ (0 < q)%Q) as TF.
    { apply (frq_type F RD); [apply strip_idem|now apply numeric_plain|]. pose proof (strip_len frq). lia. }
    assert (length (cols 69 71 l) = 3 /\ length (cols 78 80 m) = 3 /\ length (cols 72 77 l) = 6) as (L3 & L4 & L6) by (rewrite !cols_length by lia; auto).
    pose proof (three_strip F _ RT L3) as S3. pose proof (three_strip F _ RT L4) as S4. pose proof (ref6_fine F _ RT L6) as S6.
    assert (forall k w, T $k = w -> (given T $k = true <-> strip w <> [])) as GV.
    { intros k w E. unfold given. rewrite E. destruct (strip w); split; intro H; try discriminate H; try reflexivity; try discriminate. now elim H. }
    unfold fields_fine. assert (complete $"radar" (given T) = known_object (given T) && (given T $"trx" && given T $"rcv") && RecordSpec.radar_value (given T)) as CO.
    { change (complete $"radar" (given T)) with (complete_radar (given T)). unfold complete_radar.
      assert (none (given T) radar_residual_fields = true) as ->.
      { unfold none, radar_residual_fields, delay_residual, doppler_residual, g. cbn [app forallb]. repeat rewrite NO by (vm_compute; reflexivity). reflexivity. }
      unfold every, g. cbn [forallb]. rewrite G5, G7. cbn [orb andb]. rewrite !andb_true_r.
      destruct (known_object (given T)), (given T $"trx"), (given T $"rcv"), (RecordSpec.radar_value (given T)); reflexivity. }
    assert (RecordSpec.radar_value (given T) = true <-> (blank (cols 48 62 l) = true /\ blank (cols 48 62 m) = true /\ blank (cols 33 47 l) = false /\ blank (cols 34 47 m) = false) \/
       (blank (cols 48 62 l) = false /\ blank (cols 48 62 m) = false /\ blank (cols 33 47 l) = true /\ blank (cols 34 47 m) = true)) as RV.
    { unfold RecordSpec.radar_value, every, none, g. cbn [forallb]. unfold g. rewrite G1, G2, G3, G4.
      generalize (blank (cols 48 62 l)) (blank (cols 48 62 m)) (blank (cols 33 47 l)) (blank (cols 34 47 m)). clear. intros [] [] [] []; cbn; split; intro H; try discriminate H; try reflexivity; try (left; repeat split; reflexivity); try (right; repeat split; reflexivity); destruct H as [(A & B & C & D)|(A & B & C & D)]; discriminate. }
    rewrite CO. clear CO. split.
    - intros [C A]. apply andb_prop in C as [C C3]. apply andb_prop in C as [Ck C2]. apply andb_prop in C2 as [Ct Cr].
      assert (forall x : string, smem $x radar_fields = true -> ok x) as OK by (intros x I; apply A; now apply RecordProofs1.smem_iff).
      assert (refused_designation (cols 1 12 l) = false) as RF by (apply ID; split; [|split]; apply OK; vm_compute; reflexivity).
      constructor.
      + exact RF.
      + exists perm, prov, trk. split; [exact UN|]. now apply (KN RF).
      + apply S3. split; [now apply (GV "trx"%string _ T4)|]. rewrite <- T4, <- Y1. apply (OK "trx"%string); [vm_compute; reflexivity|exact Ct].
      + apply S4. split; [now apply (GV "rcv"%string _ T5)|]. rewrite <- T5, <- Y2. apply (OK "rcv"%string); [vm_compute; reflexivity|exact Cr].
      + apply TF. rewrite <- T12, <- Y9. apply (OK "frq"%string); [vm_compute; reflexivity|exact G7].
      + apply S6. intro Ne. rewrite <- T13, <- Y10. apply (OK "ref"%string); [vm_compute; reflexivity|]. now apply (GV "ref"%string _ T13).
      + apply RV in C3 as [(B1 & B2 & B3 & B4)|(B1 & B2 & B3 & B4)]; rewrite B1, B2, B3, B4 in *; [left|right]; (split; [reflexivity|]; split; [reflexivity|]; split).
        * apply (delay_type F RD _ (strip_idem _)). rewrite <- T9, <- Y6. apply (OK "delay"%string); [vm_compute; reflexivity|exact G3].
        * apply (rms_type F RD _ (strip_idem _)). rewrite <- T10, <- Y7. apply (OK "rmsDelay"%string); [vm_compute; reflexivity|exact G4].
        * pose proof (OK "doppler"%string ltac:(vm_compute; reflexivity) G1) as H. rewrite T7, SS, Y4 in H. apply (shift_type F RD _ SS) in H as (q & H). exists shift, q. auto.
        * apply (rms_type F RD _ (strip_idem _)). rewrite <- T8, <- Y5. apply (OK "rmsDoppler"%string); [vm_compute; reflexivity|exact G2].
    - intros [H1 H2 H3 H4 H5 H6 H7]. destruct H2 as (perm' & prov' & trk' & UN' & H2). pose proof (ok_inj _ _ (eq_trans (eq_sym UN) UN')) as Q. injection Q as <- <- <-.
      apply S3 in H3 as [H3 H3']. apply S4 in H4 as [H4 H4']. destruct (proj2 ID H1) as (I1 & I2 & I3).
      rewrite (proj2 (KN H1) H2), (proj2 (GV "trx"%string _ T4) H3), (proj2 (GV "rcv"%string _ T5) H4).
      assert (forall n s, positive n s -> s <> []) as PN.
      { intros n s (q & [D _] & _) ->. destruct D as (sg & a & b & [[E0 ->]|E0] & _ & _ & N & _).
        - apply N. symmetry in E0. apply app_eq_nil in E0 as [_ ->]. reflexivity.
        - destruct sg; [|discriminate E0]. destruct a; discriminate E0. }
      assert (forall n w, blank w = true -> forallb numeric w = true -> strip (implied_point n w) = []) as PB.
      { intros n w B Nw. pose proof (point_given n w (numeric_s w Nw)) as Q. rewrite B in Q. destruct (strip (implied_point n w)); [reflexivity|discriminate Q]. }
      assert ((RecordSpec.radar_value (given T) = true) /\ ok "doppler" /\ ok "rmsDoppler" /\ ok "delay" /\ ok "rmsDelay") as (HV & O1 & O2 & O3 & O4).
      { destruct H7 as [(B1 & B2 & P1 & P2)|(B1 & B2 & P1 & P2)].
        - destruct (blank (cols 33 47 l)) eqn:B3; [elim (PN _ _ P1); now apply PB|]. destruct (blank (cols 34 47 m)) eqn:B4; [elim (PN _ _ P2); now apply PB|].
          split; [apply RV; left; auto|]. rewrite G1, G2, G3, G4, B1, B2. split; [intro X; discriminate X|]. split; [intro X; discriminate X|]. split; intros _.
          + rewrite Y6, T9. now apply (delay_type F RD _ (strip_idem _)).
          + rewrite Y7, T10. now apply (rms_type F RD _ (strip_idem _)).
        - destruct (blank (cols 48 62 m)) eqn:B4; [elim (PN _ _ P2); now apply PB|]. destruct P1 as (sh & q & Q1 & Q2 & Q3). rewrite (shift_fun _ _ _ Q1 SH) in *.
          destruct (blank (cols 48 62 l)) eqn:B3.
          { exfalso. destruct shift; [|discriminate SG]. destruct Q2 as [D _]. destruct D as (sg & a & b & [[E0 ->]|E0] & _ & _ & N & _).
            - apply N. symmetry in E0. apply app_eq_nil in E0 as [_ ->]. reflexivity.
            - destruct sg; [|discriminate E0]. destruct a; discriminate E0. }
          split; [apply RV; right; auto|]. rewrite G1, G2, G3, G4, B1, B2. split; [|split; [|split; intro X; discriminate X]]; intros _.
          + rewrite Y4, T7, SS. apply (shift_type F RD _ SS). eauto.
          + rewrite Y5, T8. now apply (rms_type F RD _ (strip_idem _)). }
      rewrite HV. split; [reflexivity|]. intros x I Gx. destruct (radar_cases x I) as [J|J].
      + destruct J as [<-|[<-|[<-|[<-|[<-|[<-|[<-|[<-|[<-|[<-|[<-|[<-|[<-|[]]]]]]]]]]]]]].
        * exact (I1 Gx).
        * exact (I2 Gx).
        * exact (I3 Gx).
        * rewrite Y1, T4. exact H3'.
        * rewrite Y2, T5. exact H4'.
        * rewrite Y3, T6, (proj1 D1). exact D2.
        * exact (O1 Gx).
        * exact (O2 Gx).
        * exact (O3 Gx).
        * exact (O4 Gx).
        * rewrite Y8, C1. now apply com_type.
        * rewrite Y9, T12. now apply TF.
        * rewrite Y10, T13. apply (proj2 S6 H6). now apply (GV "ref"%string _ T13).
      + rewrite (given_none T x (T0 x J)) in Gx. discriminate Gx.
  Qed.
End Radar.
