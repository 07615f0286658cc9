(** Lemmas about ValueSpec, part 11: optical observations of one and two lines. *)
From Verif Require Import PyStrProofs PackUtil Codes JsonProofs2 Back80Proofs2 Back80Proofs3 Back80Proofs6 Back80Proofs7 Back80Proofs8.
From Verif Require Import Mpc80 Mpc80Spec Mpc80Proofs1 Mpc80Proofs4 Back80Spec DocSpec DocProofs6 ValidSpec RecordSpec.
From Verif Require Import Back80Proofs7.
From Verif Require Import IdSpec IdProofs3 IdProofs4 IdProofs5 ValueSpec XsdFiles ValueProofs1 ValueProofs2 ValueProofs3 ValueProofs8 ValueProofs9 ValueProofs10.
From Verif Require RecordProofs1 PropsMpc80.
From Verif Require Import PropsDoc.
Local Open Scope nat_scope.

Definition line_keys : list str := Eval vm_compute in map fst (optical_dict [] [] (PInt 0) None None None [] (PInt 0) [] (PInt 0)).
Lemma line_keys_ok l t p perm prov trk ra pra de pde : map fst (optical_dict l t p perm prov trk ra pra de pde) = line_keys.
Proof. reflexivity. Qed.
Lemma dget_none {V} (k : str) (d : list (str * V)) : ~ In k (map fst d) -> dget k d = None.
Proof.
  induction d as [|[a v] d IH]; intro N; [reflexivity|]. cbn [dget]. cbn [map fst] in N.
  destruct (streqb k a) eqn:E; [apply streqb_eq in E; subst; elim N; now left|]. apply IH. intro I. apply N. now right.
Qed.
Lemma line_others l t p perm prov trk ra pra de pde x : In x (other_fields ++ place_fields) -> text_of (optical_dict l t p perm prov trk ra pra de pde) x = [].
Proof.
  intro I. assert (forallb (fun x => negb (smem x line_keys)) (other_fields ++ place_fields) = true) as Q by (vm_compute; reflexivity).
  rewrite forallb_forall in Q. specialize (Q x I). unfold text_of. rewrite dget_none; [reflexivity|]. rewrite line_keys_ok. intro J. apply RecordProofs1.smem_iff in J. rewrite J in Q. discriminate Q.
Qed.
Lemma pair_others l t p perm prov trk ra pra de pde kvs x : forallb (fun kv => smem (fst kv) place_fields) kvs = true -> In x other_fields ->
  text_of (updated kvs (optical_dict l t p perm prov trk ra pra de pde)) x = [].
Proof.
  intros H I. rewrite text_updated; [apply line_others; apply in_or_app; now left|].
  apply Bool.not_true_is_false. intro Q. apply existsb_exists in Q as (kv & J & Q). apply streqb_eq in Q. rewrite forallb_forall in H. specialize (H kv J).
  assert (forallb (fun x => negb (smem x place_fields)) other_fields = true) as N by (vm_compute; reflexivity). rewrite forallb_forall in N. specialize (N x I). rewrite Q, H in N. discriminate N.
Qed.
Lemma one_of_kinds c : In c $"A PeCBTMcEOHNnX" -> In c $"A PeCBTMcEOHNnSVX".
Proof. intro I. apply cmem_in. apply (proj2 (cmem_in _ _)) in I. revert c I. apply (impl_ascii (fun c => cmem c $"A PeCBTMcEOHNnX") (fun c => cmem c $"A PeCBTMcEOHNnSVX")). vm_compute. reflexivity. Qed.
Lemma two_of_kinds c : In c $"SV" -> In c $"A PeCBTMcEOHNnSVX".
Proof. intro I. apply cmem_in. apply (proj2 (cmem_in _ _)) in I. revert c I. apply (impl_ascii (fun c => cmem c $"SV") (fun c => cmem c $"A PeCBTMcEOHNnSVX")). vm_compute. reflexivity. Qed.
Section Obs.
  Variable F : derivation -> str -> Prop.
  Hypothesis RT : reads_texts F.
  Hypothesis RD : reads_decimals F.
  Hypothesis RI : reads_integers F.
  Hypothesis RM : reads_times F.
  Lemma not_x c : In c $"A PeCBTMcEOHNnSVX" -> streqb [c] $"x" = false.
  Proof. intro I. apply Bool.not_true_is_false. intro E. apply streqb_eq in E. injection E as ->. apply (proj2 (cmem_in _ _)) in I. discriminate I. Qed.
  Lemma line_values l d c pg rf : ~ In nl l -> decode80 l = Ok d -> is_kind "0" d = false -> cols 15 15 l = [c] -> In c $"A PeCBTMcEOHNnX" ->
    program d = Ok pg -> reference d = Ok rf ->
    (fields_fine F G $"optical" optical_fields (optical_text pg rf d) <-> takes l).
  Proof.
    intros NL D H0 C I PG RF. apply (PropsMpc80.C26_decode l d NL) in D.
    assert (In c $"A PeCBTMcEOHNnSVX") as I' by now apply one_of_kinds.
    destruct (decodes_optical l d c D H0 C I') as (NH & LO & t & p & perm & prov & trk & ra & pra & de & pde & AC & RA & DE & E). subst d.
    assert (is_kind "x" (optical_dict l t p perm prov trk ra pra de pde) = false) as NX by (unfold is_kind; change (text_of _ _) with (cols 15 15 l); rewrite C; now apply not_x).
    rewrite (optical_fine F RT RD RM l _ t p perm prov trk ra pra de pde pg rf (source_line l t p perm prov trk ra pra de pde) eq_refl
      (fun x J => line_others l t p perm prov trk ra pra de pde x (in_or_app _ _ _ (or_introl J))) NL LO AC RA DE NX PG RF).
    split; [tauto|]. intro T. split; [exact T|]. apply no_place; intros x J; apply line_others; apply in_or_app; [now left|now right].
  Qed.
  Lemma two_lines l a c kvs pg rf P : ~ In nl l -> decode80 l = Ok a -> is_kind "0" a = false -> cols 15 15 l = [c] -> In c $"SV" ->
    forallb (fun kv => smem (fst kv) place_fields) kvs = true ->
    (place_fine F (updated kvs a) <-> P) ->
    program (updated kvs a) = Ok pg -> reference (updated kvs a) = Ok rf ->
    (fields_fine F G $"optical" optical_fields (optical_text pg rf (updated kvs a)) <-> takes l /\ P).
  Proof.
    intros NL D H0 C I K PF PG RF. apply (PropsMpc80.C26_decode l a NL) in D.
    assert (In c $"A PeCBTMcEOHNnSVX") as I' by now apply two_of_kinds.
    destruct (decodes_optical l a c D H0 C I') as (NH & LO & t & p & perm & prov & trk & ra & pra & de & pde & AC & RA & DE & E). subst a.
    assert (forall k, smem k place_fields = false -> text_of (updated kvs (optical_dict l t p perm prov trk ra pra de pde)) k = text_of (optical_dict l t p perm prov trk ra pra de pde) k) as TU.
    { intros k Hk. apply text_updated. apply Bool.not_true_is_false. intros Q. apply existsb_exists in Q as (kv & J & Q). apply streqb_eq in Q. subst k.
      rewrite forallb_forall in K. rewrite (K kv J) in Hk. discriminate Hk. }
    assert (is_kind "x" (updated kvs (optical_dict l t p perm prov trk ra pra de pde)) = false) as NX by (unfold is_kind; rewrite TU by (vm_compute; reflexivity); change (text_of _ _) with (cols 15 15 l); rewrite C; now apply not_x).
    assert (text_of (updated kvs (optical_dict l t p perm prov trk ra pra de pde)) $"subFmt" = $"M92") as SF by (rewrite TU by (vm_compute; reflexivity); reflexivity).
    rewrite (optical_fine F RT RD RM l _ t p perm prov trk ra pra de pde pg rf (source_updated _ _ _ _ _ _ _ _ _ _ _ kvs (source_line l t p perm prov trk ra pra de pde) K) SF
      (fun x J => pair_others l t p perm prov trk ra pra de pde kvs x K J) NL LO AC RA DE NX PG RF), PF. reflexivity.
  Qed.

  Lemma satellite_values l m a b pg rf : ~ In nl l -> ~ In nl m -> decode80 l = Ok a -> decode80 m = Ok b -> is_kind "0" a = false -> is_kind "0" b = false ->
    cols 15 15 l = $"S" -> cols 15 15 m = $"s" -> program (joined a b) = Ok pg -> reference (joined a b) = Ok rf ->
    (fields_fine F G $"optical" optical_fields (optical_text pg rf (joined a b)) <-> takes l /\ takes_satellite m).
  Proof.
    intros NL NM HA HB ZA ZB KL KM PG RF. pose proof HB as HB'. apply (PropsMpc80.C26_decode m b NM) in HB'.
    assert (is_kind "s" b = true) as KB.
    { destruct HB'; try discriminate ZB; unfold is_kind; try (change (text_of _ $"code") with (cols 15 15 m); rewrite KM; reflexivity). rewrite H in KM. discriminate KM. }
    destruct (decodes_s m b HB' KB) as (G0 & t' & p' & perm' & prov' & trk' & x & y & z & dp & sys & _ & SY & P1 & P2 & P3 & EB).
    apply laid_out_fitp in G0. assert (length m = 80) as M by now apply lay80 in G0.
    pose proof HA as HA'. apply (PropsMpc80.C26_decode l a NL) in HA'.
    destruct (decodes_optical l a "S" HA' ZA KL ltac:(vm_compute; tauto)) as (_ & _ & t & p & perm & prov & trk & ra & pra & de & pde & _ & _ & _ & EA).
    set (kvs := [($"sys", sys); ($"ctr", $"399"); ($"pos1", x); ($"pos2", y); ($"pos3", z)]).
    assert (joined a b = updated kvs a) as ED.
    { unfold joined. assert (is_kind "R" a = false) as ->.
      { rewrite EA. unfold is_kind. change (text_of _ $"code") with (cols 15 15 l). rewrite KL. reflexivity. }
      rewrite EB. reflexivity. }
    rewrite ED in *.
    destruct (first_col 35 45 m satellite_layout $"+-" M G0 ltac:(lia) ltac:(lia) ltac:(lia) eq_refl) as (c1 & S1 & E1 & _).
    destruct (first_col 47 57 m satellite_layout $"+-" M G0 ltac:(lia) ltac:(lia) ltac:(lia) eq_refl) as (c2 & S2 & E2 & _).
    destruct (first_col 59 69 m satellite_layout $"+-" M G0 ltac:(lia) ltac:(lia) ltac:(lia) eq_refl) as (c3 & S3 & E3 & _).
    assert (forall c w v, one_of $"+-" c = true -> position dp (c :: w) v -> v = c :: strip w /\ strip v = v) as PV.
    { intros c w v C P. destruct (position_texty _ _ _ _ C P) as [[X _] _]. split; [|exact X]. destruct P as [P _]. rewrite signed_ok in P.
      assert (ceqb c " " = false) as B. { revert c C P. intros c C _. revert c C. apply implf_ascii. vm_compute. reflexivity. }
      rewrite B in P. now injection P as <-. }
    pose proof P1 as Q1. pose proof P2 as Q2. pose proof P3 as Q3. rewrite E1 in Q1. rewrite E2 in Q2. rewrite E3 in Q3.
    destruct (PV _ _ _ S1 Q1) as [X1 U1]. destruct (PV _ _ _ S2 Q2) as [X2 U2]. destruct (PV _ _ _ S3 Q3) as [X3 U3].
    assert (forall c i j, 1 <= i -> i <= j -> j <= 80 -> j - i <= 9 -> length (c :: strip (cols i j m)) <= 13) as LN.
    { intros c i j A B C D. cbn [length]. pose proof (strip_len (cols i j m)) as H. rewrite (cols_length i j m) in H by lia. lia. }
    assert (In sys [$"WGS84"; $"ICRF_AU"; $"ICRF_KM"]) as IS.
    { destruct (streqb (cols 33 33 m) $"1"); apply (f_equal snd) in SY; cbn [snd] in SY; rewrite SY; [right; right; now left|right; now left]. }
    assert (text_of (updated kvs a) $"sys" = sys /\ text_of (updated kvs a) $"ctr" = $"399" /\ text_of (updated kvs a) $"pos1" = x /\ text_of (updated kvs a) $"pos2" = y /\ text_of (updated kvs a) $"pos3" = z) as (T0 & T4 & T1 & T2 & T3).
    { rewrite EA. repeat split; reflexivity. }
    refine (iff_trans (two_lines l a "S" kvs pg rf _ NL HA ZA KL (or_introl eq_refl) eq_refl (a_place F RT RD RI (updated kvs a) _ sys x y z T0 IS T4 T1 T2 T3 _ _ _) PG RF) _).
    - intros k J. rewrite EA. apply pair_others; [reflexivity|exact J].
    - rewrite X1. apply LN; lia.
    - rewrite X2. apply LN; lia.
    - rewrite X3. apply LN; lia.
    - unfold takes_satellite, signed_number. rewrite E1, E2, E3. split.
      + intros [T A]. split; [exact T|]. split; [|split].
        * destruct (A x (or_introl eq_refl)) as (q & Q). rewrite U1, X1 in Q. eauto.
        * destruct (A y (or_intror (or_introl eq_refl))) as (q & Q). rewrite U2, X2 in Q. eauto.
        * destruct (A z (or_intror (or_intror (or_introl eq_refl)))) as (q & Q). rewrite U3, X3 in Q. eauto.
      + intros [T ((a1 & b1 & q1 & W1 & N1) & (a2 & b2 & q2 & W2 & N2) & (a3 & b3 & q3 & W3 & N3))]. split; [exact T|].
        injection W1 as <- <-. injection W2 as <- <-. injection W3 as <- <-.
        intros w [<-|[<-|[<-|[]]]]; [rewrite U1, X1|rewrite U2, X2|rewrite U3, X3]; eauto.
  Qed.

  Lemma rover_values l m a b pg rf : ~ In nl l -> ~ In nl m -> decode80 l = Ok a -> decode80 m = Ok b -> is_kind "0" a = false -> is_kind "0" b = false ->
    cols 15 15 l = $"V" -> cols 15 15 m = $"v" -> program (joined a b) = Ok pg -> reference (joined a b) = Ok rf ->
    (fields_fine F G $"optical" optical_fields (optical_text pg rf (joined a b)) <-> takes l /\ takes_rover m).
  Proof.
    intros NL NM HA HB ZA ZB KL KM PG RF. pose proof HB as HB'. apply (PropsMpc80.C26_decode m b NM) in HB'.
    assert (is_kind "v" b = true) as KB.
    { destruct HB'; try discriminate ZB; unfold is_kind; try (change (text_of _ $"code") with (cols 15 15 m); rewrite KM; reflexivity). rewrite H in KM. discriminate KM. }
    destruct (decodes_v m b HB' KB) as (G0 & t' & p' & perm' & prov' & trk' & _ & EB).
    apply laid_out_fitp in G0. assert (length m = 80) as M by now apply lay80 in G0.
    pose proof HA as HA'. apply (PropsMpc80.C26_decode l a NL) in HA'.
    destruct (decodes_optical l a "V" HA' ZA KL ltac:(vm_compute; tauto)) as (_ & _ & t & p & perm & prov & trk & ra & pra & de & pde & _ & _ & _ & EA).
    set (kvs := [($"sys", $"WGS84"); ($"ctr", $"399"); ($"pos1", cols 35 44 m); ($"pos2", cols 46 55 m); ($"pos3", cols 57 61 m)]).
    assert (joined a b = updated kvs a) as ED.
    { unfold joined. assert (is_kind "R" a = false) as ->.
      { rewrite EA. unfold is_kind. change (text_of _ $"code") with (cols 15 15 l). rewrite KL. reflexivity. }
      rewrite EB. reflexivity. }
    rewrite ED in *.
    assert (text_of (updated kvs a) $"sys" = $"WGS84" /\ text_of (updated kvs a) $"ctr" = $"399" /\ text_of (updated kvs a) $"pos1" = cols 35 44 m /\ text_of (updated kvs a) $"pos2" = cols 46 55 m /\ text_of (updated kvs a) $"pos3" = cols 57 61 m) as (T0 & T4 & T1 & T2 & T3).
    { rewrite EA. repeat split; reflexivity. }
    refine (two_lines l a "V" kvs pg rf _ NL HA ZA KL (or_intror (or_introl eq_refl)) eq_refl (a_place F RT RD RI (updated kvs a) _ $"WGS84" _ _ _ T0 (or_introl eq_refl) T4 T1 T2 T3 _ _ _) PG RF).
    - intros k J. rewrite EA. apply pair_others; [reflexivity|exact J].
    - rewrite cols_length; lia.
    - rewrite cols_length; lia.
    - rewrite cols_length; lia.
  Qed.
End Obs.
