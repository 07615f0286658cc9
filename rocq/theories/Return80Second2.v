(** Lemmas of C50: what is read from the second line. *)
From Verif Require Import SchemaSpec PyStrProofs AdesMasterTables Schema XsdSpec SchemaSpec XsdFiles ValueSpec IdProofs3 IdProofs5 LexProofs1 ValidSpec2 ValueProofs2 Submit80Proofs1 Submit80Proofs3 RecordProofs2 ValidSpec.
From Verif Require Import PyFloat SexVals XmlToMpc80 JustSpec JustProofs Line80Spec LineProofs1 PropsMpc80 PropsPack.
From Verif Require Import Mpc80 Mpc80Spec Mpc80Proofs1 Mpc80Proofs2 Mpc80Proofs3 Mpc80Proofs4 Mpc80Proofs6 DocProofs6 Mpc80Proofs11 PackSpec DocSpec Back80Spec Back80Proofs7 Back80Proofs10 SexSpec Print80Spec Submit80Spec Submit80Proofs4 Submit80Proofs5 Return80Spec Return80Proofs1 Return80Proofs2 Return80Proofs3 Return80Proofs4 Return80Proofs5 Return80Proofs7 Return80Proofs8 Return80Second.
From Verif Require Import FmtRe.
From Verif Require Import Mpc80Spec DocSpec.
Local Open Scope nat_scope.

Definition sat_tail : layout := skipn 8 satellite_layout.
Definition rover_tail : layout := skipn 8 rover_layout.
Lemma blanks_fine p n : p " "%char = true -> forallb p (spaces n) = true. Proof. apply spaces_all. Qed.
Lemma skip_app {A} (a b : list A) n : length a = n -> skipn n (a ++ b) = b.
Proof. intros <-. rewrite skipn_app, skipn_all, Nat.sub_diag. reflexivity. Qed.

Section Second.
Variable F : derivation -> str -> Prop.
Variable RV : reads_values F.
Variable r : xml.
Hypothesis V : valid F submit_xsd r.
Variable o : opts80.
Hypothesis Tg : In (xtag r) [$"optical"; $"occultation"].
Hypothesis Lo : located r = true.
Hypothesis SF : second_fits r.
Lemma pos_shape x : In x ["pos1"; "pos2"; "pos3"]%string -> exists sg u, rec_value r $x = sg ++ u /\ pos_text sg u.
Proof.
  intro I. pose proof (tag4 r Tg) as K4. destruct (opt_facts F r V Tg) as (_ & _ & _ & _ & Hl & _).
  assert (rec_value r $"pos1" <> []) as N1. { unfold located, text_if in Lo. destruct (rec_value r $"pos1"); [discriminate Lo|discriminate]. }
  assert (occurs_in (xkids r) $x = true) as H. { apply (pos_group r Hl); [now apply value_occurs|]. cbn [In] in *. tauto. }
  assert (exists s, simple F general_xsd $"DecimalTypeW14" s /\ rec_value r $x = strip s) as (s & S & ->).
  { apply (field_value F r _ K4 eq_refl V $x "DecimalTypeW14" H); destruct I as [<-|[<-|[<-|[]]]]; (apply neq_local; vm_compute; reflexivity) || (vm_compute; reflexivity). }
  destruct (number_steps F (proj1 (proj2 RV)) "DecimalTypeW14" [[($"xsd:pattern", $"[+\-]?[0123456789\.]{1,13}")]; [($"xsd:pattern", decimal_pattern)]] s ltac:(vm_compute; reflexivity) S) as (q & D & A).
  inversion A as [|? ? _ A2 E1]; subst. inversion A2 as [|? ? A3 _ E2]; subst. destruct A3 as (A3 & _). destruct A3 as (p & [E|[]] & M); [exists decimal_pattern; now left|]. injection E as <-.
  exact (decimal_shape _ q D M).
Qed.
Lemma pos_chars x : In x ["pos1"; "pos2"; "pos3"]%string -> (forall c, In c (rec_value r $x) -> snumeric c = true /\ pyspace c = false) /\ rec_value r $x <> [].
Proof.
  intro I. destruct (pos_shape x I) as (sg & u & -> & (J & (N & A & _) & _)). split; [|now destruct sg, u].
  intros c K. apply in_app_or in K as [K|K]; [destruct J as [<-|[<-|[<-|[]]]]; [destruct K|destruct K as [<-|[]]; split; reflexivity|destruct K as [<-|[]]; split; reflexivity]|].
  rewrite forallb_forall in A. specialize (A c K). cbv beta in A. assert (snumeric c && negb (pyspace c) = true) as H; [clear - A; revert c A; apply imp_ascii; vm_compute; reflexivity|].
  apply andb_true_iff in H as [H1 H2]. apply Bool.negb_true_iff in H2. now split.
Qed.
Variables l id c date ra de mag : str.
Variables i j k : nat.
Variables q q' : Q.
Hypothesis PA : parts r o l id c date ra de mag i j k q q'.
Let st := rec_value r $"stn".
Lemma st3 : length st = 3. Proof. exact (le_st _ _ _ _ _ _ _ _ (cols_are r o l id c date ra de mag i j k q q' PA)). Qed.
Lemma st_any : forallb any st = true. Proof. apply fine_any, (st_fine F RV r V Tg). Qed.

(** the second line, and what is read from it *)
Record second_read (l2 : str) : Prop := {
  sr_fine : fine l2; sr_len : length l2 = 80; sr_head : ~ header_line l2;
  sr_kind : exists k2, cols 15 15 l2 = [k2] /\ In (k2, c) [("s"%char, $"S"); ("v"%char, $"V")];
  sr_id : agree 1 12 l l2; sr_date : agree 16 32 l l2; sr_stn : agree 78 80 l l2;
  sr_ok : legible l -> exists b, decode80 l2 = Ok b /\ is_kind "0" b = false /\ fine (text_of b $"sys") /\ fine (text_of b $"ctr") /\
    strip (text_of b $"sys") = rec_value r $"sys" /\ strip (text_of b $"ctr") = $"399" /\
    forall x, In x ["pos1"; "pos2"; "pos3"]%string -> fine (text_of b $x) /\ strip (text_of b $x) = position_back (rec_value r $"sys") (rec_value r $x);
  sr_quiet : forall e, decode80 l2 = Err e -> e = RuntimeError }.
Lemma legible_accepted : legible l -> exists t p perm prov trk, accepted false l t p perm prov trk.
Proof.
  intro LG. pose proof (proj2 (readable_iff F RV r V o Tg l id c date ra de mag i j k q q' PA) LG) as (d & H & N0).
  apply (C26_decode l d (no_nl F RV r V o Tg l id c date ra de mag i j k q q' PA)) in H. destruct (code_is r o l id c date ra de mag i j k q q' PA) as (x & Ec & I & _).
  destruct (decodes_optical l d x H N0 (kind_c r o l id c date ra de mag i j k q q' PA x Ec)) as (_ & _ & t & p & perm & prov & trk & _ & _ & _ & _ & A & _).
  { clear - I. vm_compute in I |- *. tauto. }
  exists t, p, perm, prov, trk. exact A.
Qed.
Lemma legible_name : legible l -> name_chars id.
Proof. intros [H _ _ _ _ _]. rewrite (co_id _ _ _ _ _ _ _ _ (cols_are r o l id c date ra de mag i j k q q' PA)) in H. exact H. Qed.
Lemma num_fine s : forallb snumeric s = true -> fine s.
Proof. apply forallb_imp, imp_ascii. vm_compute. reflexivity. Qed.

(** ** Spacecraft *)
Lemma sat_back l2 unit dp x y : In (unit, dp, x, y, rec_value r $"sys") [($"2", 3%Z, 1, 9, $"ICRF_AU"); ($"1", 7%Z, 5, 5, $"ICRF_KM")] -> c = $"S" ->
  (forall z, In z ["pos1"; "pos2"; "pos3"]%string -> room x y (unsigned (rec_value r $z))) ->
  satellite_line (subDict_of r) l2 id (firstn 1 (given (subDict_of r) $"notes" $" ")) date (spaces 5) unit dp -> second_read l2.
Proof.
  intros U Ec Rm (a1 & a2 & a3 & E1 & E2 & E3 & Fl). rewrite !given_nil in *.
  assert ((dp = Z.of_nat x + 2)%Z /\ x + y = 10 /\ length unit = 1 /\ forallb (one_of $"12") unit = true /\ (if streqb unit $"1" then (7%Z, $"ICRF_KM") else (3%Z, $"ICRF_AU")) = (dp, rec_value r $"sys") /\ position_back (rec_value r $"sys") = signed) as (Ed & Exy & Lu & Ou & Eu & Ep).
  { clear - U. revert U. generalize (rec_value r $"sys") as sy. intros sy U. assert (position_back $"ICRF_AU" = signed /\ position_back $"ICRF_KM" = signed) as (B1 & B2) by (split; reflexivity). destruct U as [U|[U|[]]]; injection U as <- <- <- <- <-; repeat split; first [exact B1|exact B2|vm_compute; reflexivity]. }
  assert (forall z a, In z ["pos1"; "pos2"; "pos3"]%string -> unPackSigned (rec_value r $z) 11 dp = Ok a ->
     length a = 11 /\ position dp a (signed (rec_value r $z)) /\ laid_out [(1, one_of $"+-"); (10, numeric)] a /\ fine (signed (rec_value r $z)) /\ strip (signed (rec_value r $z)) = signed (rec_value r $z)) as Cell.
  { intros z a I E. destruct (pos_shape z I) as (sg & u & Ev & P). pose proof (Rm z I) as R. rewrite Ev in *. destruct (sign_cases sg u P) as (s & S1 & S2 & S3 & _). rewrite S3 in R.
    destruct (sat_cell sg u dp a x y P R Ed Exy E) as (C1 & C2 & C3). split; [exact C1|]. split; [exact C2|]. split; [exact C3|]. rewrite S2. destruct P as (_ & (_ & A & _) & _).
    assert (forallb (fun ch => okc ch && negb (pyspace ch)) (s :: u) = true) as B.
    { cbn [forallb]. apply andb_true_iff. split; [clear - S1; revert s S1; apply imp_ascii; vm_compute; reflexivity|]. revert A. apply forallb_imp, imp_ascii. vm_compute. reflexivity. }
    split; [revert B; apply forallb_imp; intros ch H; now apply andb_true_iff in H|]. apply strip_no_space; [discriminate|]. revert B. apply forallb_imp. intros ch H. now apply andb_true_iff in H. }
  destruct (Cell "pos1"%string a1 ltac:(cbn [In]; tauto) E1) as (L1 & P1 & D1 & F1 & S1). destruct (Cell "pos2"%string a2 ltac:(cbn [In]; tauto) E2) as (L2 & P2 & D2 & F2 & S2). destruct (Cell "pos3"%string a3 ltac:(cbn [In]; tauto) E3) as (L3 & P3 & D3 & F3 & S3).
  rewrite (firstn_all2 a1), (firstn_all2 a2), (firstn_all2 a3) in Fl by (rewrite ?L1, ?L2, ?L3; apply Nat.le_refl).
  assert (cols 33 33 l2 = unit /\ cols 35 45 l2 = a1 /\ cols 47 57 l2 = a2 /\ cols 59 69 l2 = a3) as (Cu & C1 & C2 & C3).
  { pose proof Fl as G. cbn [fill Nat.add Nat.sub] in G. tauto. }
  apply fill_all in Fl; [|repeat constructor]. cbn [map snd concat] in Fl. rewrite app_nil_r in Fl.
  set (body := unit ++ $" " ++ a1 ++ $" " ++ a2 ++ $" " ++ a3 ++ spaces 3 ++ spaces 5).
  assert (l2 = id ++ given (subDict_of r) $"disc" $" " ++ firstn 1 (given (subDict_of r) $"notes" $" ") ++ ["s"%char] ++ date ++ body ++ st) as El by (rewrite Fl; unfold body, st; rewrite <- !app_assoc; reflexivity).
  assert (length body = 45) as Lb by (unfold body; rewrite !app_length, L1, L2, L3, Lu, !spaces_length; reflexivity).
  assert (laid_out sat_tail (body ++ st)) as LB.
  { unfold body. rewrite <- !app_assoc. change sat_tail with ([(1, one_of $"12")] ++ [(1, any)] ++ [(1, one_of $"+-"); (10, numeric)] ++ [(1, any)] ++ [(1, one_of $"+-"); (10, numeric)] ++ [(1, any)] ++ [(1, one_of $"+-"); (10, numeric)] ++ [(3, one_of $" ")] ++ [(5, any)] ++ [(3, any)]).
    apply laid_app; [now apply laid_one|]. apply laid_app; [now apply laid_one|]. apply laid_app; [exact D1|]. apply laid_app; [now apply laid_one|]. apply laid_app; [exact D2|]. apply laid_app; [now apply laid_one|]. apply laid_app; [exact D3|].
    apply laid_app; [now apply laid_one|]. apply laid_app; [now apply laid_one|]. apply laid_one; [exact st3|exact st_any]. }
  assert (forall a, laid_out [(1, one_of $"+-"); (10, numeric)] a -> fine a) as FA by (intro a; apply laid_fine; repeat constructor; cbn [snd]; apply imp_ascii; vm_compute; reflexivity).
  assert (fine unit) as Fu by (revert Ou; apply forallb_imp, imp_ascii; vm_compute; reflexivity).
  assert (fine body) as Fb.
  { unfold body. repeat (apply fine_app; [first [exact Fu|now apply FA|apply spaces_fine|reflexivity]|]). apply spaces_fine. }
  pose proof (second_cols r o l id c date ra de mag i j k q q' PA "s" l2 body El Lb) as SC. destruct SC as [s_id0 s_nt0 s_k0 s_date0 s_st0 s_body0 s_len0].
  pose proof (second_fine F RV r V o Tg l id c date ra de mag i j k q q' PA "s" ltac:(vm_compute; tauto) l2 body El Fb) as Ff.
  pose proof (second_no_nl F RV r V o Tg l id c date ra de mag i j k q q' PA "s" ltac:(vm_compute; tauto) l2 body El Fb) as NN.
  pose proof (second_no_header r o l id c date ra de mag i j k q q' PA "s" l2 body El) as NH.
  pose proof (second_header_false r o l id c date ra de mag i j k q q' PA "s" l2 body El) as HF.
  pose proof (second_laid F RV r V o Tg l id c date ra de mag i j k q q' PA "s" l2 body El sat_tail LB) as SL.
  change (first32 ["s"%char] ++ sat_tail) with satellite_layout in SL.
  assert (unit_of l2 = (dp, rec_value r $"sys")) as UO by (unfold unit_of; rewrite Cu; exact Eu).
  constructor; try assumption.
  - exists "s"%char. split; [exact s_k0|]. left. now rewrite Ec.
  - now symmetry.
  - now symmetry.
  - now symmetry.
  - intro LG. destruct (legible_accepted LG) as (t & p & perm & prov & trk & AC).
    apply (second_accepted r o l id c date ra de mag i j k q q' PA "s" l2 body El Lb) in AC.
    eexists. split; [apply (C26_decode l2 _ NN)|].
    + eapply (dec_satellite l2 t p perm prov trk _ _ _ dp (rec_value r $"sys")); [exact NH|apply SL; now apply legible_name|exact AC| |rewrite C1; exact P1|rewrite C2; exact P2|rewrite C3; exact P3].
      rewrite Cu. destruct (streqb unit $"1"); now symmetry.
    + split; [unfold is_kind; match goal with |- streqb (text_of ?d _) _ = _ => change (text_of d $"code") with (cols 15 15 l2) end; rewrite s_k0; reflexivity|].
      match goal with |- fine (text_of ?d _) /\ _ => change (text_of d $"sys") with (rec_value r $"sys"); change (text_of d $"ctr") with $"399" end.
      assert (fine (rec_value r $"sys") /\ strip (rec_value r $"sys") = rec_value r $"sys") as (Q1 & Q2) by (clear - U; revert U; generalize (rec_value r $"sys") as sy; intros sy U; destruct U as [U|[U|[]]]; injection U as _ _ _ _ <-; split; vm_compute; reflexivity).
      split; [exact Q1|]. split; [reflexivity|]. split; [exact Q2|]. split; [vm_compute; reflexivity|]. rewrite Ep.
      intros z [<-|[<-|[<-|[]]]]; match goal with |- fine (text_of ?d $?n) /\ _ => change (text_of d $n) with (signed (rec_value r $n)) end; now split.
  - intros e. rewrite decode80_data by assumption. destruct (fitp (flat satellite_layout) l2) eqn:Fp.
    + rewrite data_satellite by assumption. assert (decode_satellite (capsf satelliteSecondLineRegex l2 []) = Ok (satellite_dict l2 (signed (rec_value r $"pos1")) (signed (rec_value r $"pos2")) (signed (rec_value r $"pos3")) (rec_value r $"sys"))) as ->.
      { apply satellite_eq; [assumption|]. rewrite UO. cbn [fst snd]. do 3 eexists. rewrite C1, C2, C3. split; [exact P1|]. split; [exact P2|]. split; [exact P3|reflexivity]. }
      cbn [rbind]. rewrite satellite_checks; [|exact s_len0|eapply codeok_of; [exact Fp|reflexivity..]].
      destruct (checkDate (cols 16 32 l2) false) as [[t p]|e1] eqn:Ed1; cbn [rbind]; [apply any_tail_quiet|]. intro H. injection H as <-. exact (second_date_quiet r o l id c date ra de mag i j k q q' PA "s" l2 body El Lb _ Ed1).
    + rewrite data_none; [intro H; now injection H as <-|exact s_len0| | | |exact Fp|].
      * exact (other_layout optical_layout $"A PeCBTMcEOHNnSVXx" l2 _ s_k0 eq_refl eq_refl eq_refl).
      * exact (other_layout radar1_layout $"R" l2 _ s_k0 eq_refl eq_refl eq_refl).
      * exact (other_layout radar2_layout $"r" l2 _ s_k0 eq_refl eq_refl eq_refl).
      * exact (other_layout rover_layout $"v" l2 _ s_k0 eq_refl eq_refl eq_refl).
Qed.

(** ** Roving observers *)
Lemma cat_fine : fine (catalogue_letter (rec_value r $"astCat")) /\ length (catalogue_letter (rec_value r $"astCat")) = 1.
Proof. split; [exact (ct_fine r)|exact (le_ct _ _ _ _ _ _ _ _ (cols_are r o l id c date ra de mag i j k q q' PA))]. Qed.
Lemma rover_back l2 : rec_value r $"sys" = $"WGS84" -> c = $"V" ->
  rover_line (subDict_of r) l2 id (firstn 1 (given (subDict_of r) $"notes" $" ")) date (catalogue_letter (rec_value r $"astCat")) (spaces 5) -> second_read l2.
Proof.
  intros Sy Ec (a1 & a2 & E1 & E2 & Fl). rewrite !given_nil in *.
  destruct (proj1 SF Sy) as (St & Fit).
  destruct (pos_chars "pos1" ltac:(cbn [In]; tauto)) as (C1 & N1). destruct (pos_chars "pos2" ltac:(cbn [In]; tauto)) as (C2 & N2). destruct (pos_chars "pos3" ltac:(cbn [In]; tauto)) as (C3 & N3).
  destruct (rover_cell _ _ C1 N1 E1 (Fit "pos1"%string ltac:(cbn [In]; tauto))) as (w1 & Ew1 & Lw1 & Sw1 & Nw1).
  destruct (rover_cell _ _ C2 N2 E2 (Fit "pos2"%string ltac:(cbn [In]; tauto))) as (w2 & Ew2 & Lw2 & Sw2 & Nw2).
  rewrite Ew1, Ew2 in Fl. set (w3 := padl 5 (rec_value r $"pos3")) in *.
  assert (length w3 = 5) as Lw3. { pose proof Fl as G. cbn [fill Nat.add Nat.sub] in G. tauto. }
  assert (forallb snumeric w3 = true) as Nw3.
  { unfold w3, padl. rewrite forallb_app, spaces_all by reflexivity. cbn [andb]. apply forallb_forall. intros ch I. now destruct (C3 ch I). }
  assert (strip w3 = rec_value r $"pos3") as Sw3.
  { unfold w3, padl. rewrite <- (app_nil_r (rec_value r $"pos3")) at 2. apply strip_pad; [now apply spaces_all|reflexivity|]. assert (strip (rec_value r $"pos3") = rec_value r $"pos3") as <-; [|apply strip_is_trimmed].
    apply strip_no_space; [exact N3|]. apply forallb_forall. intros ch I. now destruct (C3 ch I) as [_ ->]. }
  destruct cat_fine as (Fc & Lc). set (cat := catalogue_letter (rec_value r $"astCat")) in *.
  apply fill_all in Fl; [|repeat constructor]. cbn [map snd concat] in Fl. rewrite app_nil_r in Fl. rewrite <- !app_assoc in Fl.
  set (body := $"1" ++ $" " ++ w1 ++ $" " ++ w2 ++ $" " ++ w3 ++ spaces 10 ++ (cat ++ spaces 5)).
  assert (l2 = id ++ given (subDict_of r) $"disc" $" " ++ firstn 1 (given (subDict_of r) $"notes" $" ") ++ ["v"%char] ++ date ++ body ++ st) as El by (rewrite Fl; unfold body, st; rewrite <- !app_assoc; reflexivity).
  assert (length body = 45) as Lbd by (unfold body; rewrite !app_length, Lw1, Lw2, Lw3, Lc, !spaces_length; reflexivity).
  assert (laid_out rover_tail (body ++ st)) as LB.
  { unfold body. rewrite <- !app_assoc. change rover_tail with ([(1, one_of $"1")] ++ [(1, one_of $" ")] ++ [(10, snumeric)] ++ [(1, one_of $" ")] ++ [(10, snumeric)] ++ [(1, one_of $" ")] ++ [(5, snumeric)] ++ [(10, one_of $" ")] ++ [(6, any)] ++ [(1, one_of $"2"); (1, one_of $"4"); (1, one_of $"7")]).
    rewrite (app_assoc cat). do 9 (apply laid_app; [apply laid_one; [first [assumption|reflexivity|rewrite app_length, Lc, spaces_length; reflexivity]|first [assumption|reflexivity|apply fine_any, fine_app; [exact Fc|apply spaces_fine]]]|]). unfold st. rewrite St. change $"247" with ($"2" ++ $"4" ++ $"7"). apply laid_cons; [reflexivity..|]. apply laid_cons; [reflexivity..|]. apply laid_one; reflexivity. }
  assert (fine body) as Fb.
  { unfold body. repeat (apply fine_app; [first [exact Fc|now apply num_fine|apply spaces_fine|reflexivity]|]). apply spaces_fine. }
  pose proof (second_cols r o l id c date ra de mag i j k q q' PA "v" l2 body El Lbd) as SC. destruct SC as [s_id0 s_nt0 s_k0 s_date0 s_st0 s_body0 s_len0].
  assert (cols 35 44 l2 = w1 /\ cols 46 55 l2 = w2 /\ cols 57 61 l2 = w3) as (B1 & B2 & B3).
  { assert (forall p q m, 33 <= p -> q <= 77 -> p <= q -> cols (p - 32) (q - 32) body = m -> cols p q l2 = m) as Sub.
    { intros p q0 m Hp Hq Hpq <-. rewrite <- s_body0. unfold cols. rewrite skipn_firstn_comm, firstn_firstn, skipn_skipn'. f_equal; [lia|]. f_equal. lia. }
    split; [apply Sub; [lia..|]|split; apply Sub; try lia]; cbn [Nat.sub]; unfold body.
    - apply (cols_mid 3 12 ($"1" ++ $" ")); [lia|reflexivity|exact Lw1].
    - change (cols 14 23 (($"1" ++ $" ") ++ w1 ++ $" " ++ w2 ++ $" " ++ w3 ++ spaces 10 ++ (cat ++ spaces 5)) = w2). rewrite (app_assoc w1 $" "), (app_assoc ($"1" ++ $" ")). apply cols_mid; [lia| |exact Lw2]. rewrite !app_length, Lw1. reflexivity.
    - change (cols 25 29 (($"1" ++ $" ") ++ w1 ++ $" " ++ w2 ++ $" " ++ w3 ++ spaces 10 ++ (cat ++ spaces 5)) = w3). rewrite (app_assoc w2 $" "), (app_assoc $" " (w2 ++ $" ")), (app_assoc w1), (app_assoc ($"1" ++ $" ")). apply cols_mid; [lia| |exact Lw3]. rewrite !app_length, Lw1, Lw2. reflexivity. }
  pose proof (second_fine F RV r V o Tg l id c date ra de mag i j k q q' PA "v" ltac:(vm_compute; tauto) l2 body El Fb) as Ff.
  pose proof (second_no_nl F RV r V o Tg l id c date ra de mag i j k q q' PA "v" ltac:(vm_compute; tauto) l2 body El Fb) as NN.
  pose proof (second_no_header r o l id c date ra de mag i j k q q' PA "v" l2 body El) as NH.
  pose proof (second_header_false r o l id c date ra de mag i j k q q' PA "v" l2 body El) as HF.
  pose proof (second_laid F RV r V o Tg l id c date ra de mag i j k q q' PA "v" l2 body El rover_tail LB) as SL.
  change (first32 ["v"%char] ++ rover_tail) with rover_layout in SL.
  constructor; try assumption.
  - exists "v"%char. split; [exact s_k0|]. right. left. now rewrite Ec.
  - now symmetry.
  - now symmetry.
  - now symmetry.
  - intro LG. destruct (legible_accepted LG) as (t & p & perm & prov & trk & AC).
    apply (second_accepted r o l id c date ra de mag i j k q q' PA "v" l2 body El Lbd) in AC.
    eexists. split; [apply (C26_decode l2 _ NN)|].
    + eapply (dec_rover l2 t p perm prov trk); [exact NH|apply SL; now apply legible_name|exact AC].
    + split; [unfold is_kind; match goal with |- streqb (text_of ?d _) _ = _ => change (text_of d $"code") with (cols 15 15 l2) end; rewrite s_k0; reflexivity|].
      match goal with |- fine (text_of ?d _) /\ _ => change (text_of d $"sys") with $"WGS84"; change (text_of d $"ctr") with $"399" end.
      split; [reflexivity|]. split; [reflexivity|]. split; [rewrite Sy; vm_compute; reflexivity|]. split; [vm_compute; reflexivity|]. rewrite Sy.
      intros z [<-|[<-|[<-|[]]]]; [match goal with |- fine (text_of ?d $?n) /\ _ => change (text_of d $n) with (cols 35 44 l2) end; rewrite B1|match goal with |- fine (text_of ?d $?n) /\ _ => change (text_of d $n) with (cols 46 55 l2) end; rewrite B2|match goal with |- fine (text_of ?d $?n) /\ _ => change (text_of d $n) with (cols 57 61 l2) end; rewrite B3];
        (split; [now apply num_fine|]); unfold position_back; change (streqb $"WGS84" $"WGS84") with true; cbv iota; assumption.
  - intros e. rewrite decode80_data by assumption. destruct (fitp (flat rover_layout) l2) eqn:Fp.
    + rewrite data_rover, rover_eq by assumption.
      cbn [rbind]. rewrite rover_checks; [|exact s_len0|eapply codeok_of; [exact Fp|reflexivity..]].
      destruct (checkDate (cols 16 32 l2) false) as [[t p]|e1] eqn:Ed1; cbn [rbind]; [apply any_tail_quiet|]. intro H. injection H as <-. exact (second_date_quiet r o l id c date ra de mag i j k q q' PA "v" l2 body El Lbd _ Ed1).
    + rewrite data_none; [intro H; now injection H as <-|exact s_len0| | | | |exact Fp].
      * exact (other_layout optical_layout $"A PeCBTMcEOHNnSVXx" l2 _ s_k0 eq_refl eq_refl eq_refl).
      * exact (other_layout radar1_layout $"R" l2 _ s_k0 eq_refl eq_refl eq_refl).
      * exact (other_layout radar2_layout $"r" l2 _ s_k0 eq_refl eq_refl eq_refl).
      * exact (other_layout satellite_layout $"s" l2 _ s_k0 eq_refl eq_refl eq_refl).
Qed.
Lemma second_back m : second_of r m id date -> exists l2, m = [l2] /\ second_read l2.
Proof.
  unfold second_of. cbv zeta. rewrite Lo. intros (l2 & -> & H). exists l2. split; [reflexivity|].
  pose proof (pa_code _ _ _ _ _ _ _ _ _ _ _ _ _ _ PA) as Pc. rewrite Lo in Pc.
  assert ($"WGS84" <> $"ICRF_AU" /\ $"WGS84" <> $"ICRF_KM") as (D1 & D2) by (split; discriminate).
  destruct H as [(Sy & H)|[(Sy & H)|(Sy & H)]].
  - apply rover_back; try assumption. destruct Pc as [(_ & E)|([E|E] & _)]; [exact E|congruence|congruence].
  - apply (sat_back l2 $"2" 3%Z 1 9); try assumption; [rewrite Sy; now left|destruct Pc as [(E & _)|(_ & E)]; [congruence|exact E]|]. exact (proj2 (proj2 SF) Sy).
  - apply (sat_back l2 $"1" 7%Z 5 5); try assumption; [rewrite Sy; right; now left|destruct Pc as [(E & _)|(_ & E)]; [congruence|exact E]|]. exact (proj1 (proj2 SF) Sy).
Qed.
End Second.
