(** Lemmas about ValueSpec, part 9: the fields of an optical record. *)
From Verif Require Import PyStrProofs PackUtil Codes PackSpec JsonProofs2 Back80Proofs1 Back80Proofs2 Back80Proofs3 Back80Proofs6 Back80Proofs5.
From Verif Require Import Mpc80 Mpc80Spec Mpc80Proofs1 Mpc80Proofs4 DocSpec ValidSpec RecordSpec.
From Verif Require Import IdSpec IdProofs3 IdProofs5 ValueSpec XsdFiles ValueProofs1 ValueProofs3 ValueProofs4 ValueProofs5 ValueProofs6 ValueProofs7 ValueProofs8.
From Verif Require PropsPack RecordProofs1 Mpc80Proofs10.
From Verif Require Import PropsDoc.
Local Open Scope nat_scope.
Notation G := general_xsd.
Lemma given_texty (T : str -> str) x v : T x = v -> texty v -> given T x = true /\ strip (T x) = v.
Proof. intros E [S N]. unfold given. rewrite E, S. split; [now destruct v|reflexivity]. Qed.
Lemma given_none (T : str -> str) x : T x = [] -> given T x = false.
Proof. intro E. unfold given. now rewrite E. Qed.
Lemma given_blank (T : str -> str) x : given T x = negb (blank (T x)).
Proof. unfold given, blank. now destruct (strip (T x)). Qed.

(** the fields a one-line record can have, and the ones of a location *)
Definition shown_fields : list str := map lit ["permID"; "provID"; "trkSub"; "mode"; "stn"; "prog"; "obsTime"; "ra"; "dec"; "astCat"; "mag"; "band"; "ref"; "disc"; "subFrm"; "subFmt";
  "precTime"; "precRA"; "precDec"; "notes"; "deprecated"]%string.
Definition place_fields : list str := map lit ["sys"; "ctr"; "pos1"; "pos2"; "pos3"]%string.
Definition other_fields : list str := Eval vm_compute in filter (fun x => negb (smem x shown_fields || smem x place_fields)) optical_fields.
Lemma fields_cases x : In x optical_fields -> In x shown_fields \/ In x place_fields \/ In x other_fields.
Proof.
  intro I. assert (other_fields = filter (fun x => negb (smem x shown_fields || smem x place_fields)) optical_fields) as E by (vm_compute; reflexivity).
  rewrite E. destruct (smem x shown_fields) eqn:A; [left; now apply RecordProofs1.smem_iff|]. destruct (smem x place_fields) eqn:B; [right; left; now apply RecordProofs1.smem_iff|].
  right; right. apply filter_In. split; [exact I|]. now rewrite A, B.
Qed.
Lemma cat_fine F c : reads_texts F -> simple F G $"CatType" (strip (catalogue [c])) <-> c <> "6"%char.
Proof.
  intro R. rewrite (cat_type F R).
  assert (forall c, (let s := strip (catalogue [c]) in Bool.eqb (forallb (fun c => alnum_ c || ceqb c ".") s && Nat.leb (length s) 8 && (forallb plain_char s && existsb solid_char s)) (negb (ceqb c "6"))) = true) as S
    by (apply forall_ascii; vm_compute; reflexivity).
  specialize (S c). cbv zeta in S. apply Bool.eqb_prop in S. set (s := strip (catalogue [c])) in *. clearbody s. unfold textual.
  split.
  - intros ((A & B) & C & D). apply Nat.leb_le in B. rewrite A, B, C, D in S. cbn [andb] in S. intros ->. discriminate S.
  - intro N. apply ceqb_neq in N. rewrite N in S. cbn [negb] in S. apply andb_prop in S as [S1 S2]. apply andb_prop in S1 as [S1 S3]. apply andb_prop in S2 as [S2 S4]. apply Nat.leb_le in S3. auto.
Qed.
Lemma cat_given c : strip (catalogue [c]) <> [].
Proof.
  assert (forall c, negb (match strip (catalogue [c]) with [] => true | _ => false end) = true) as S by (apply forall_ascii; vm_compute; reflexivity).
  specialize (S c). destruct (strip (catalogue [c])); [discriminate S|discriminate].
Qed.
Lemma one_strip c : pyspace c = false -> strip [c] = [c].
Proof. intro H. unfold strip, rstrip, lstrip. rewrite H. cbn. now rewrite H. Qed.
Lemma an_space c : alnum_ c = true -> pyspace c = false. Proof. revert c. apply implf_ascii. vm_compute. reflexivity. Qed.
Lemma an_strip s : forallb alnum_ s = true -> strip s = s.
Proof.
  intro H. destruct s as [|c s]; [reflexivity|]. apply tidy_ends.
  - exists c, s. split; [reflexivity|]. cbn [forallb] in H. apply andb_prop in H as [H _]. now apply an_space.
  - destruct (exists_last (l := c :: s)) as (m & d & E); [discriminate|]. rewrite E. exists m, d. split; [reflexivity|]. rewrite E, forallb_app in H. apply andb_prop in H as [_ H]. cbn [forallb] in H.
    apply andb_prop in H as [H _]. now apply an_space.
Qed.
Lemma three_strip F w : reads_texts F -> length w = 3 -> (strip w <> [] /\ simple F G $"StationType" (strip w) <-> forallb alnum_ w = true).
Proof.
  intros R L. rewrite (stn_type F R). split.
  - intros (_ & (L3 & _) & A). destruct (strip_decomp w) as (a & b & E & _). pose proof (f_equal (@length ascii) E) as EL. rewrite !app_length in EL.
    assert (a = [] /\ b = []) as [-> ->] by (destruct a; destruct b; cbn [length] in EL; try lia; auto). rewrite app_nil_r in E. cbn [app] in E. rewrite E. exact A.
  - intro A. rewrite (an_strip w A). split; [intros ->; discriminate L|]. split; [lia|exact A].
Qed.

Lemma perm_text x : perm_ok x -> texty x. Proof. intros (_ & i & Hi & <- & _). exact (perm_tidy i Hi). Qed.
Lemma prov_text x : prov_ok x -> texty x. Proof. intros (_ & i & Hi & <-). exact (prov_tidy i Hi). Qed.
Lemma trk_space : forall c, trk_schema_char c = true -> pyspace c = false. Proof. apply implf_ascii. vm_compute. reflexivity. Qed.
Lemma trk_text x : trk_ok x -> texty x.
Proof.
  intros [L A]. destruct x as [|c x]; [cbn in L; lia|]. apply texty_i.
  - exists c, x. split; [reflexivity|]. cbn [forallb] in A. apply andb_prop in A as [A _]. now apply trk_space.
  - destruct (exists_last (l := c :: x)) as (m & e & E); [discriminate|]. rewrite E in *. exists m, e. split; [reflexivity|]. rewrite forallb_app in A. apply andb_prop in A as [_ A]. cbn [forallb] in A.
    apply andb_prop in A as [A _]. now apply trk_space.
Qed.

Section Fine.
  Variable F : derivation -> str -> Prop.
  Hypothesis RT : reads_texts F.
  Hypothesis RD : reads_decimals F.
  Hypothesis RM : reads_times F.
  Variables (l : str) (d : item) (t : str) (p : prec) (perm prov trk : option str) (ra : str) (pra : prec) (de : str) (pde : prec) (pg rf : str).
  Hypothesis S : source l d t p perm prov trk ra pra de pde.
  Hypothesis SF : text_of d $"subFmt" = $"M92".
  Hypothesis OT : forall x, In x other_fields -> text_of d x = [].
  Hypothesis NL : ~ In nl l.
  Hypothesis LO : laid_out optical_layout l.
  Hypothesis AC : accepted false l t p perm prov trk.
  Hypothesis RA : checkRa (cols 33 44 l) = Ok (ra, pra).
  Hypothesis DE : checkDec (cols 45 56 l) = Ok (de, pde).
  Hypothesis NX : is_kind "x" d = false.
  Hypothesis PG : program d = Ok pg.
  Hypothesis RF : reference d = Ok rf.
  Let T := optical_text pg rf d.
  Notation ok x := (given T $x = true -> simple F G (type_name G $x) (strip (T $x))).
  Lemma len80 : length l = 80. Proof. pose proof LO as F'. apply laid_out_fitp in F'. now apply lay80 in F'. Qed.
  Lemma same_text x : In x (other_fields ++ place_fields ++ map lit ["permID"; "provID"; "trkSub"; "stn"; "obsTime"; "ra"; "dec"; "mag"; "disc"; "subFmt"; "precTime"; "precRA"; "precDec"]%string) -> T x = text_of d x.
  Proof.
    intro I. assert (forallb (fun x => negb (called x "mode" || called x "astCat" || called x "band" || called x "notes" || called x "prog" || called x "ref" || called x "deprecated" || called x "subFrm"))
      (other_fields ++ place_fields ++ map lit ["permID"; "provID"; "trkSub"; "stn"; "obsTime"; "ra"; "dec"; "mag"; "disc"; "subFmt"; "precTime"; "precRA"; "precDec"]%string) = true) as A by (vm_compute; reflexivity).
    rewrite forallb_forall in A. specialize (A x I). unfold T, optical_text.
    destruct (called x "mode"); [discriminate A|]. destruct (called x "astCat"); [discriminate A|]. destruct (called x "band"); [discriminate A|]. destruct (called x "notes"); [discriminate A|].
    destruct (called x "prog"); [discriminate A|]. destruct (called x "ref"); [discriminate A|]. destruct (called x "deprecated"); [discriminate A|]. destruct (called x "subFrm"); [discriminate A|]. reflexivity.
  Qed.
  Lemma same_lit (x : string) : smem $x (other_fields ++ place_fields ++ map lit ["permID"; "provID"; "trkSub"; "stn"; "obsTime"; "ra"; "dec"; "mag"; "disc"; "subFmt"; "precTime"; "precRA"; "precDec"]%string) = true -> T $x = text_of d $x.
  Proof. intro H. apply same_text. now apply RecordProofs1.smem_iff. Qed.
  Lemma other_none x : In x other_fields -> given T x = false.
  Proof. intro I. apply given_none. rewrite same_text by (apply in_or_app; now left). now apply OT. Qed.
  Lemma other_lit (x : string) : smem $x other_fields = true -> given T $x = false.
  Proof. intro H. apply other_none. now apply RecordProofs1.smem_iff. Qed.
  (** designations *)
  Lemma text_id : T $"permID" = text_or perm /\ T $"provID" = text_or prov /\ T $"trkSub" = text_or trk.
  Proof. rewrite (same_lit "permID" ltac:(vm_compute; reflexivity)), (same_lit "provID" ltac:(vm_compute; reflexivity)), (same_lit "trkSub" ltac:(vm_compute; reflexivity)). split; [apply (s_perm _ _ _ _ _ _ _ _ _ _ _ S)|]. split; [apply (s_prov _ _ _ _ _ _ _ _ _ _ _ S)|apply (s_trk _ _ _ _ _ _ _ _ _ _ _ S)]. Qed.
  Lemma id_verdict : verdict (cols 1 12 l) (perm, prov, trk).
  Proof.
    destruct AC as (_ & _ & U). apply verdict_ok; [rewrite cols_length; rewrite ?len80; lia| |exact U].
    now apply Mpc80Proofs10.no_nl_cols.
  Qed.
  Lemma id_ok : (ok "permID" /\ ok "provID" /\ ok "trkSub") <-> refused_designation (cols 1 12 l) = false.
  Proof.
    pose proof id_verdict as V. unfold verdict in V. destruct text_id as (E1 & E2 & E3). split.
    - intros (_ & H & _). destruct (refused_designation (cols 1 12 l)); [exfalso|reflexivity]. destruct V as (s & Q & N & A & B). cbn [fst snd] in Q. rewrite Q in E2. cbn [text_or] in E2.
      assert (given T $"provID" = true) as K by (unfold given; rewrite E2; now destruct (strip s)). specialize (H K). rewrite E2 in H.
      change (type_name G $"provID") with (type_name G $"provID") in H. assert (type_name G $"provID" = $"ProvIDType") as Y by (vm_compute; reflexivity). rewrite Y in H.
      apply (prov_type_general F RT) in H as [(_ & i & Hi & W)|H]; [exact (A i Hi W)|contradiction].
    - intro R. rewrite R in V. destruct V as (V1 & V2 & V3). cbn [fst snd] in V1, V2, V3.
      assert (type_name G $"permID" = $"PermIDType" /\ type_name G $"provID" = $"ProvIDType" /\ type_name G $"trkSub" = $"TrkSubType") as (Y1 & Y2 & Y3) by (vm_compute; repeat split).
      rewrite Y1, Y2, Y3, E1, E2, E3. split; [|split].
      + intros K. destruct perm as [x|]; cbn [text_or] in *; [|unfold given in K; rewrite E1 in K; discriminate K]. specialize (V1 x eq_refl). destruct (perm_text x V1) as [-> _].
        apply (perm_type F RT general_xsd x perm_general). exact V1.
      + intros K. destruct prov as [x|]; cbn [text_or] in *; [|unfold given in K; rewrite E2 in K; discriminate K]. specialize (V2 x eq_refl). destruct (prov_text x V2) as [-> _].
        apply (prov_type_general F RT). now left.
      + intros K. destruct trk as [x|]; cbn [text_or] in *; [|unfold given in K; rewrite E3 in K; discriminate K].
        assert (x <> []) as Nx by (intros ->; unfold given in K; rewrite E3 in K; discriminate K). specialize (V3 x eq_refl Nx). destruct (trk_text x V3) as [-> _].
        destruct V3 as [L A]. apply (trk_type_general F RT). split; [lia|]. split; [revert A; apply forallb_imp; intros c Hc; unfold old_trk_char; now rewrite Hc|].
        destruct x as [|c x]; [contradiction|]. exists c. split; [now left|]. cbn [forallb] in A. apply andb_prop in A as [A _]. intros ->. discriminate A.
  Qed.
  Lemma object_ok : refused_designation (cols 1 12 l) = false -> object (given T) = true.
  Proof.
    intro R. pose proof id_verdict as V. unfold verdict in V. rewrite R in V. destruct V as (V1 & V2 & V3). cbn [fst snd] in V1, V2, V3. destruct text_id as (E1 & E2 & E3).
    pose proof (other_lit "artSat" ltac:(vm_compute; reflexivity)) as A.
    unfold object, known_object, some, none, g. cbn [existsb forallb]. unfold g. rewrite A. cbn [negb andb orb]. rewrite !orb_false_r, !andb_true_r.
    destruct AC as (_ & _ & U). apply PropsPack.C11_nonempty in U as (x & Nx & [-> |[-> | ->]]).
    - destruct (given_texty T $"permID" x E1 (perm_text x (V1 x eq_refl))) as [-> _]. reflexivity.
    - destruct (given_texty T $"provID" x E2 (prov_text x (V2 x eq_refl))) as [-> _]. rewrite orb_true_r. reflexivity.
    - destruct (given_texty T $"trkSub" x E3 (trk_text x (V3 x eq_refl Nx))) as [-> _]. destruct (given T $"permID"), (given T $"provID"); reflexivity.
  Qed.
  (** fields that are always good *)
  Lemma kind_ok : texty (T $"mode") /\ simple F G (type_name G $"mode") (strip (T $"mode")).
  Proof.
    assert (T $"mode" = mode_of (cols 15 15 l)) as E by (change (T $"mode") with (mode_of (text_of d $"code")); now rewrite (s_code _ _ _ _ _ _ _ _ _ _ _ S)).
    pose proof (f_equal (fun x => x) NX) as N. unfold is_kind in N. rewrite (s_code _ _ _ _ _ _ _ _ _ _ _ S) in N.
    pose proof LO as L. apply laid_out_fitp in L. assert (forallb (one_of $"A PeCBTMcEOHNnSVXx") (cols 15 15 l) = true) as K by fclass L.
    destruct (nth_cols 14 l) as (c & _ & C); [rewrite len80; lia|]. rewrite C in *. cbn [forallb] in K. rewrite andb_true_r in K.
    assert (type_name G $"mode" = $"ModeType") as Y by (vm_compute; reflexivity). rewrite Y, E. 
    assert (forall c, implb (one_of $"A PeCBTMcEOHNnSVXx" c && negb (streqb [c] $"x")) (streqb (strip (mode_of [c])) (mode_of [c]) && negb (blank (mode_of [c])) && Nat.leb (length (mode_of [c])) 3 && forallb alnum_ (mode_of [c])) = true) as Q
      by (apply forall_ascii; vm_compute; reflexivity).
    specialize (Q c). rewrite K, N in Q. cbn [implb andb negb] in Q. apply andb_prop in Q as [Q Q4]. apply andb_prop in Q as [Q Q3]. apply andb_prop in Q as [Q1 Q2].
    apply streqb_eq in Q1. apply Nat.leb_le in Q3. assert (mode_of [c] <> []) as Ne by (intro Z; rewrite Z in Q2; discriminate Q2).
    split; [split; assumption|]. rewrite Q1. apply (mode_type F RT). auto.
  Qed.
  Lemma time_ok : texty (T $"obsTime") /\ simple F G (type_name G $"obsTime") (strip (T $"obsTime")) /\ texty (T $"precTime") /\ simple F G (type_name G $"precTime") (strip (T $"precTime")).
  Proof.
    destruct AC as (DT & _ & _). assert (length (cols 16 32 l) = 17) as L by (rewrite cols_length; rewrite ?len80; lia).
    destruct (date_back (cols 16 32 l) false t p L DT) as (T1 & T2 & _).
    assert (type_name G $"obsTime" = $"TimeType" /\ type_name G $"precTime" = $"TimePrecType") as (Y1 & Y2) by (vm_compute; repeat split).
    rewrite Y1, Y2, (same_lit "obsTime" ltac:(vm_compute; reflexivity)), (same_lit "precTime" ltac:(vm_compute; reflexivity)), (s_time _ _ _ _ _ _ _ _ _ _ _ S), (s_ptime _ _ _ _ _ _ _ _ _ _ _ S).
    split; [exact T1|]. split; [rewrite (proj1 T1); exact (time_fine F RM _ _ _ L DT)|]. split; [exact T2|]. rewrite (proj1 T2). exact (time_prec_fine F _ _ _ RD L DT).
  Qed.
  Lemma ra_ok : texty (T $"ra") /\ (simple F G (type_name G $"ra") (strip (T $"ra")) <-> right_ascension (cols 33 44 l)) /\ texty (T $"precRA") /\ simple F G (type_name G $"precRA") (strip (T $"precRA")).
  Proof.
    assert (length (cols 33 44 l) = 12) as L by (rewrite cols_length; rewrite ?len80; lia).
    destruct (ra_back (cols 33 44 l) ra pra L RA) as (T1 & T2 & _).
    assert (type_name G $"ra" = $"RAType" /\ type_name G $"precRA" = $"RaDecPrecType") as (Y1 & Y2) by (vm_compute; repeat split).
    rewrite Y1, Y2, (same_lit "ra" ltac:(vm_compute; reflexivity)), (same_lit "precRA" ltac:(vm_compute; reflexivity)), (s_ra _ _ _ _ _ _ _ _ _ _ _ S), (s_pra _ _ _ _ _ _ _ _ _ _ _ S).
    split; [exact T1|]. split; [rewrite (proj1 T1); exact (ra_fine F RD _ _ _ L RA)|]. split; [exact T2|]. rewrite (proj1 T2). exact (prec_fine F RD _ (ra_prec _ _ _ L RA)).
  Qed.
  Lemma dec_ok : texty (T $"dec") /\ (simple F G (type_name G $"dec") (strip (T $"dec")) <-> declination (cols 45 56 l)) /\ texty (T $"precDec") /\ simple F G (type_name G $"precDec") (strip (T $"precDec")).
  Proof.
    assert (length (cols 45 56 l) = 12) as L by (rewrite cols_length; rewrite ?len80; lia).
    destruct (dec_back (cols 45 56 l) de pde L DE) as (T1 & T2 & _).
    assert (type_name G $"dec" = $"DeclinationType" /\ type_name G $"precDec" = $"RaDecPrecType") as (Y1 & Y2) by (vm_compute; repeat split).
    rewrite Y1, Y2, (same_lit "dec" ltac:(vm_compute; reflexivity)), (same_lit "precDec" ltac:(vm_compute; reflexivity)), (s_de _ _ _ _ _ _ _ _ _ _ _ S), (s_pde _ _ _ _ _ _ _ _ _ _ _ S).
    split; [exact T1|]. split; [rewrite (proj1 T1); exact (dec_fine F RD _ _ _ L DE)|]. split; [exact T2|]. rewrite (proj1 T2). exact (prec_fine F RD _ (dec_prec _ _ _ L DE)).
  Qed.
  Lemma stn_ok : (given T $"stn" = true /\ ok "stn") <-> forallb alnum_ (cols 78 80 l) = true.
  Proof.
    assert (length (cols 78 80 l) = 3) as L by (rewrite cols_length; rewrite ?len80; lia).
    assert (type_name G $"stn" = $"StationType") as Y by (vm_compute; reflexivity).
    rewrite Y, <- (three_strip F _ RT L). unfold given. rewrite (same_lit "stn" ltac:(vm_compute; reflexivity)), (s_stn _ _ _ _ _ _ _ _ _ _ _ S).
    destruct (strip (cols 78 80 l)) as [|c w]; split.
    - intros [H _]. discriminate H.
    - intros [H _]. now elim H.
    - intros [_ H]. split; [discriminate|now apply H].
    - intros [_ H]. auto.
  Qed.
  Lemma cat_ok : given T $"astCat" = true /\ (ok "astCat" <-> cols 72 72 l <> $"6").
  Proof.
    assert (T $"astCat" = catalogue (cols 72 72 l)) as E by (change (T $"astCat") with (catalogue (text_of d $"astCat")); now rewrite (s_cat _ _ _ _ _ _ _ _ _ _ _ S)).
    destruct (nth_cols 71 l) as (c & _ & C); [rewrite len80; lia|]. assert (type_name G $"astCat" = $"CatType") as Y by (vm_compute; reflexivity). rewrite Y. unfold given. rewrite E, C.
    pose proof (cat_given c) as N. pose proof (cat_fine F c RT) as K. destruct (strip (catalogue [c])) as [|e w] eqn:Q; [contradiction|].
    split; [reflexivity|]. rewrite <- Q in *. clear Q. split.
    - intro H. specialize (proj1 K (H eq_refl)). intros N6 E6. apply N6. change $"6" with ["6"%char] in E6. now injection E6.
    - intros N6 _. apply K. intros ->. now apply N6.
  Qed.
  Lemma band_mag : photometry (given T) = true /\ ((ok "mag" /\ ok "band") <-> (blank (cols 66 70 l) = true \/ magnitude (cols 66 70 l) /\ (blank (cols 71 71 l) = true \/ forallb alnum_ (cols 71 71 l) = true))).
  Proof.
    assert (T $"mag" = cols 66 70 l) as E by (rewrite (same_lit "mag" ltac:(vm_compute; reflexivity)); exact (s_mag _ _ _ _ _ _ _ _ _ _ _ S)).
    assert (T $"band" = if blank (cols 66 70 l) then [] else if blank (cols 71 71 l) then $"UNK" else cols 71 71 l) as E2.
    { change (T $"band") with (if blank (text_of d $"mag") then [] else if blank (text_of d $"band") then $"UNK" else text_of d $"band"). now rewrite (s_mag _ _ _ _ _ _ _ _ _ _ _ S), (s_band _ _ _ _ _ _ _ _ _ _ _ S). }
    assert (type_name G $"mag" = $"MagType" /\ type_name G $"band" = $"BandType") as (Y1 & Y2) by (vm_compute; repeat split). rewrite Y1, Y2.
    assert (given T $"mag" = negb (blank (cols 66 70 l))) as G1 by now rewrite given_blank, E.
    assert (given T $"band" = negb (blank (cols 66 70 l))) as G2.
    { rewrite given_blank, E2. destruct (blank (cols 66 70 l)); [reflexivity|]. destruct (blank (cols 71 71 l)) eqn:B; [reflexivity|now rewrite B]. }
    split.
    - unfold photometry, group, none, every, g. cbn [app forallb]. unfold g. rewrite G1, G2.
      rewrite (other_lit "rmsMag" ltac:(vm_compute; reflexivity)), (other_lit "fltr" ltac:(vm_compute; reflexivity)), (other_lit "photCat" ltac:(vm_compute; reflexivity)),
        (other_lit "photAp" ltac:(vm_compute; reflexivity)), (other_lit "nucMag" ltac:(vm_compute; reflexivity)). destruct (blank (cols 66 70 l)); reflexivity.
    - rewrite G1, G2, E, E2. destruct (blank (cols 66 70 l)) eqn:B; cbn [negb].
      + split; [now left|]. intros _. split; intro H; discriminate H.
      + assert (length (strip (cols 66 70 l)) <= 7) as L by (pose proof (strip_len (cols 66 70 l)) as HL; rewrite (cols_length 66 70 l) in HL by (rewrite ?len80; lia); lia).
        rewrite (mag_type F RD (strip (cols 66 70 l)) (strip_idem _) L).
        destruct (nth_cols 70 l) as (c & _ & C); [rewrite len80; lia|]. rewrite C.
        assert (blank [c] = false -> strip [c] = [c]) as SC.
        { unfold blank. destruct (pyspace c) eqn:P; [|intros _; now apply one_strip]. unfold strip, lstrip. rewrite P. cbn. intro X. discriminate X. }
        split.
        * intros [H1 H2]. right. split; [now apply H1|]. specialize (H2 eq_refl). destruct (blank [c]) eqn:BC; [now left|]. right. rewrite (SC eq_refl) in H2. apply (band_type F RT) in H2. tauto.
        * intros [X|[H1 H2]]; [discriminate X|]. split; [intros _; exact H1|]. intros _. destruct (blank [c]) eqn:BC.
          -- apply (band_type F RT). split; [discriminate|]. split; [apply Nat.leb_le; vm_compute; reflexivity|vm_compute; reflexivity].
          -- rewrite (SC eq_refl). apply (band_type F RT). destruct H2 as [X|H2]; [discriminate X|]. split; [discriminate|]. split; [cbn; lia|exact H2].
  Qed.
  Lemma ref_ok : ok "ref" <-> ~ In "|"%char (cols 73 77 l).
  Proof.
    assert (type_name G $"ref" = $"RefType") as Y by (vm_compute; reflexivity). rewrite Y. change (T $"ref") with rf.
    unfold reference in RF. rewrite (s_ref _ _ _ _ _ _ _ _ _ _ _ S), (skip1 l len80) in RF.
    assert (length (cols 73 77 l) = 5) as L5 by (rewrite cols_length; rewrite ?len80; lia). rewrite <- (ref_fine F _ rf RT L5 RF). unfold given. change (T $"ref") with rf.
    destruct (strip rf); split; intros H X; try discriminate X.
    - now elim X.
    - now apply H.
    - apply H. discriminate.
  Qed.
  Lemma note_here : exists c, cols 14 14 l = [c] /\ In c (if has_programs d then validProgramCodes else validNotes).
  Proof. destruct AC as (_ & (c & E & I) & _). exists c. split; [exact E|]. unfold has_programs. now rewrite (s_stn _ _ _ _ _ _ _ _ _ _ _ S). Qed.
  Lemma notes_ok : ok "notes" /\ ok "prog".
  Proof.
    destruct note_here as (c & E & I).
    assert (type_name G $"notes" = $"NotesType" /\ type_name G $"prog" = $"ProgType") as (Y1 & Y2) by (vm_compute; repeat split). rewrite Y1, Y2.
    unfold given. change (T $"notes") with (if has_programs d then [] else text_of d $"notes"). change (T $"prog") with pg.
    pose proof PG as PG'. unfold program in PG'. rewrite (s_notes _ _ _ _ _ _ _ _ _ _ _ S), E in *.
    destruct (has_programs d); cbn [andb] in PG'.
    - split; [intro X; discriminate X|]. destruct (streqb [c] $" "); cbn [negb] in PG'; [injection PG' as <-; intro X; discriminate X|].
      assert (forallb (fun c => match packProgID [c] with Ok p => streqb (strip p) p && forallb alnum_ p && Nat.leb (length p) 2 && negb (Nat.eqb (length p) 0) | Err _ => true end) allascii = true) as Q by (vm_compute; reflexivity).
      pose proof (forall_ascii _ Q c) as Qc. cbv beta in Qc. rewrite PG' in Qc. apply andb_prop in Qc as [Qc Q4]. apply andb_prop in Qc as [Qc Q3]. apply andb_prop in Qc as [Q1 Q2].
      apply streqb_eq in Q1. rewrite Q1. intros _. apply (prog_type F RT). apply Nat.leb_le in Q3. split; [intros ->; discriminate Q4|]. auto.
    - injection PG' as <-. split; [|intro X; discriminate X].
      assert (forallb (fun c => implb (cmem c validNotes) (blank [c] || streqb (strip [c]) [c] && alnum_ c)) allascii = true) as Q by (vm_compute; reflexivity).
      pose proof (forall_ascii _ Q c) as Qc. cbv beta in Qc. assert (cmem c validNotes = true) as M by now apply cmem_in. rewrite M in Qc. cbn [implb] in Qc. unfold blank in Qc.
      destruct (strip [c]) as [|x w] eqn:X; [intro K; discriminate K|]. intros _. cbn [orb] in Qc. apply andb_prop in Qc as [Q1 Q2]. apply streqb_eq in Q1. rewrite Q1.
      apply (notes_type F RT). split; [discriminate|]. split; [cbn; lia|]. cbn [forallb]. now rewrite Q2.
  Qed.
  Lemma rest_ok : ok "disc" /\ ok "subFrm" /\ ok "subFmt" /\ ok "deprecated".
  Proof.
    assert (type_name G $"disc" = $"DiscType" /\ type_name G $"subFrm" = $"SubFrmType" /\ type_name G $"subFmt" = $"SubFmtType" /\ type_name G $"deprecated" = $"DeprecatedType") as (Y1 & Y2 & Y3 & Y4) by (vm_compute; repeat split).
    rewrite Y1, Y2, Y3, Y4. unfold given. change (T $"subFrm") with (if is_kind "A" d then $"B1950.0" else []). change (T $"deprecated") with (if is_kind "X" d then $"X" else []).
    rewrite (same_lit "disc" ltac:(vm_compute; reflexivity)), (same_lit "subFmt" ltac:(vm_compute; reflexivity)), SF, (s_disc _ _ _ _ _ _ _ _ _ _ _ S).
    split; [|split; [|split]].
    - pose proof LO as L. apply laid_out_fitp in L. assert (forallb (one_of $" *+") (cols 13 13 l) = true) as K by fclass L. destruct (nth_cols 12 l) as (c & _ & C); [rewrite len80; lia|]. rewrite C in *. cbn [forallb] in K. rewrite andb_true_r in K.
      assert (forallb (fun c => implb (one_of $" *+" c) (blank [c] || smem (strip [c]) [$"*"; $"+"])) allascii = true) as Q by (vm_compute; reflexivity).
      pose proof (forall_ascii _ Q c) as Qc. cbv beta in Qc. rewrite K in Qc. cbn [implb] in Qc. unfold blank in Qc. destruct (strip [c]) as [|x w]; [intro X; discriminate X|]. intros _. cbn [orb] in Qc.
      apply (disc_type F RT). now apply RecordProofs1.smem_iff.
    - destruct (is_kind "A" d); [|intro X; discriminate X]. intros _. exact (frame_type F RT).
    - intros _. apply (fmt_type F RT). split; [discriminate|]. split; [apply Nat.leb_le; vm_compute; reflexivity|vm_compute; reflexivity].
    - destruct (is_kind "X" d); [|intro X; discriminate X]. intros _. apply (deprecated_type F RT). now left.
  Qed.
  Definition place_fine : Prop := location (given (text_of d)) = true /\ forall x, In x place_fields -> given (text_of d) x = true -> simple F G (type_name G x) (strip (text_of d x)).
  Lemma optical_fine : fields_fine F G $"optical" optical_fields T <-> takes l /\ place_fine.
  Proof.
    destruct kind_ok as (K1 & K2). destruct time_ok as (T1 & T2 & T3 & T4). destruct ra_ok as (R1 & R2 & R3 & R4). destruct dec_ok as (D1 & D2 & D3 & D4). destruct cat_ok as (C1 & C2).
    destruct band_mag as (B1 & B2). destruct notes_ok as (N1 & N2). destruct rest_ok as (Z1 & Z2 & Z3 & Z4).
    assert (forall x, texty (T x) -> given T x = true) as TG by (intros x H; exact (proj1 (given_texty T x _ eq_refl H))).
    assert (forall x, In x place_fields -> given T x = given (text_of d) x /\ T x = text_of d x) as PL.
    { intros x I. assert (T x = text_of d x) as E by (apply same_text; apply in_or_app; right; apply in_or_app; now left). split; [unfold given; now rewrite E|exact E]. }
    assert (location (given T) = location (given (text_of d))) as LC.
    { assert (forall x, smem $x place_fields || smem $x other_fields = true -> given T $x = given (text_of d) $x) as Q.
      { intros x I. apply orb_prop in I as [I|I]; [apply PL; now apply RecordProofs1.smem_iff|]. apply RecordProofs1.smem_iff in I. rewrite (other_none _ I). symmetry. apply given_none. now apply OT. }
      unfold location, group, none, every, g. cbn [app forallb]. unfold g. rewrite !Q by (vm_compute; reflexivity). reflexivity. }
    unfold fields_fine. assert (complete $"optical" (given T) = object (given T) && given T $"stn" && location (given (text_of d))) as CO.
    { change (complete $"optical" (given T)) with (complete_optical (given T)). unfold complete_optical. rewrite B1, LC.
      assert (none (given T) residual_fields = true) as ->.
      { unfold none, residual_fields, position_residual, position_extra, magnitude_residual, magnitude_extra, g. cbn [app forallb].
        repeat rewrite other_lit by (vm_compute; reflexivity). reflexivity. }
      assert (precision (given T) = true) as -> by (unfold precision, group, none, every, g; cbn [app forallb]; unfold g; rewrite (TG _ T3), (TG _ R3), (TG _ D3); reflexivity).
      unfold every, g. cbn [forallb]. rewrite (TG _ K1), (TG _ T1), (TG _ R1), (TG _ D1), C1. cbn [orb andb]. rewrite !andb_true_r.
      destruct (object (given T)), (given T $"stn"), (location (given (text_of d))); reflexivity. }
    rewrite CO. clear CO. split.
    - intros [C A]. apply andb_prop in C as [C LCt]. apply andb_prop in C as [Cob Cst].
      assert (forall x : string, smem $x optical_fields = true -> ok x) as OK by (intros x I; apply A; now apply RecordProofs1.smem_iff).
      split; [constructor|].
      + apply id_ok. split; [|split]; apply OK; vm_compute; reflexivity.
      + apply stn_ok. split; [exact Cst|]. apply OK. vm_compute. reflexivity.
      + apply R2, (OK "ra"%string); [vm_compute; reflexivity|now apply TG].
      + apply D2, (OK "dec"%string); [vm_compute; reflexivity|now apply TG].
      + apply B2. split; apply OK; vm_compute; reflexivity.
      + apply ref_ok, OK. vm_compute. reflexivity.
      + apply C2, OK. vm_compute. reflexivity.
      + split; [exact LCt|]. intros x I Gx. destruct (PL x I) as [P1 P2]. rewrite <- P2. apply A; [|now rewrite P1].
        assert (forallb (fun x => smem x optical_fields) place_fields = true) as Q by (vm_compute; reflexivity). rewrite forallb_forall in Q. now apply RecordProofs1.smem_iff, Q.
    - intros ([H1 H2 H3 H4 H5 H6 H7] & LCt & PF). rewrite (object_ok H1), LCt. destruct (proj2 stn_ok H2) as [Gs Os]. rewrite Gs. split; [reflexivity|].
      destruct (proj2 id_ok H1) as (I1 & I2 & I3). destruct (proj2 B2 H5) as [M1 M2].
      intros x I Gx. destruct (fields_cases x I) as [J|[J|J]].
      + destruct J as [<-|[<-|[<-|[<-|[<-|[<-|[<-|[<-|[<-|[<-|[<-|[<-|[<-|[<-|[<-|[<-|[<-|[<-|[<-|[<-|[<-|[]]]]]]]]]]]]]]]]]]]]]];
          [exact (I1 Gx)|exact (I2 Gx)|exact (I3 Gx)|exact K2|exact (Os Gx)|exact (N2 Gx)|exact T2|exact (proj2 R2 H3)|exact (proj2 D2 H4)|exact (proj2 C2 H7 Gx)|exact (M1 Gx)|exact (M2 Gx)|
           exact (proj2 ref_ok H6 Gx)|exact (Z1 Gx)|exact (Z2 Gx)|exact (Z3 Gx)|exact T4|exact R4|exact D4|exact (N1 Gx)|exact (Z4 Gx)].
      + destruct (PL x J) as [P1 P2]. rewrite P2. apply PF; [exact J|now rewrite <- P1].
      + rewrite (other_none x J) in Gx. discriminate Gx.
  Qed.
End Fine.
