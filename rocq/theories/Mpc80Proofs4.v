From Verif Require Import FmtRe PyStrProofs PackProofs13 PackProofs14.
From Verif Require Import Mpc80.
From Verif Require Export Mpc80Proofs3.
Local Open Scope nat_scope.

Lemma signed_ok c w : packSigned (c :: w) = Ok (if ceqb c " " then strip w else c :: strip w).
Proof. reflexivity. Qed.
Lemma pack_cols a b l : 1 <= a -> a <= b -> b <= length l -> exists v, packSigned (cols a b l) = Ok v.
Proof.
  intros. pose proof (cols_length a b l) as L. destruct (cols a b l) as [|c w]; [cbn in L; lia|].
  eexists. apply signed_ok.
Qed.
Definition unit_of (l : str) : Z * str := if streqb (cols 33 33 l) $"1" then (7%Z, $"ICRF_KM") else (3%Z, $"ICRF_AU").
Lemma satellite_eq l D : length l = 80 ->
  (decode_satellite (capsf satelliteSecondLineRegex l []) = Ok D <->
   exists x y z, position (fst (unit_of l)) (cols 35 45 l) x /\ position (fst (unit_of l)) (cols 47 57 l) y /\
     position (fst (unit_of l)) (cols 59 69 l) z /\ D = satellite_dict l x y z (snd (unit_of l))).
Proof.
  intros L. rewrite caps_satellite. unfold decode_satellite. dictfun.
  destruct (pack_cols 35 45 l) as (x & X); try lia. destruct (pack_cols 47 57 l) as (y & Y); try lia.
  destruct (pack_cols 59 69 l) as (z & Z0); try lia. rewrite X, Y, Z0. cbn [rbind].
  unfold position. rewrite X, Y, Z0. unfold unit_of.
  set (dp := (if streqb (cols 33 33 l) $"1" then 7 else 3)%Z).
  replace (fst (if streqb (cols 33 33 l) $"1" then (7%Z, $"ICRF_KM") else (3%Z, $"ICRF_AU"))) with dp
    by (subst dp; destruct (streqb (cols 33 33 l) $"1"); reflexivity).
  replace (snd (if streqb (cols 33 33 l) $"1" then (7%Z, $"ICRF_KM") else (3%Z, $"ICRF_AU")))
    with (if streqb (cols 33 33 l) $"1" then $"ICRF_KM" else $"ICRF_AU")
    by (destruct (streqb (cols 33 33 l) $"1"); reflexivity).
  clearbody dp. set (sys := if streqb (cols 33 33 l) $"1" then $"ICRF_KM" else $"ICRF_AU"). clearbody sys.
  split.
  - intros H. exists x, y, z.
    destruct (misplaced (cols 35 45 l) x dp) as [[|]|e] eqn:M1; cbn [rbind] in H; try discriminate H.
    destruct (misplaced (cols 47 57 l) y dp) as [[|]|e] eqn:M2; cbn [rbind] in H; try discriminate H.
    destruct (misplaced (cols 59 69 l) z dp) as [[|]|e] eqn:M3; cbn [rbind] in H; try discriminate H.
    apply misplaced_true in M1, M2, M3.
    assert (D = satellite_dict l x y z sys) as -> by (injection H as <-; reflexivity). auto.
  - intros (x' & y' & z' & [X' M1] & [Y' M2] & [Z' M3] & ->).
    injection X' as <-. injection Y' as <-. injection Z' as <-.
    apply misplaced_true in M1, M2, M3. rewrite M1. cbn [rbind]. rewrite M2. cbn [rbind]. rewrite M3. cbn [rbind].
    reflexivity.
Qed.

Lemma Ok_inj' {A} (a b : A) : Ok a = Ok b -> a = b.
Proof. now injection 1. Qed.
(** * decode80 *)
Lemma tail_checks_ok l D d : length l = 80 ->
  (tail_checks l D = Ok d <-> note_ok (cols 78 80 l) (cols 14 14 l) /\
     exists perm prov trk, unpackPackedID (cols 1 12 l) = Ok (perm, prov, trk) /\
       d = iapp D (iapp (texts [($"astCat", cols 72 72 l)]) (designation perm prov trk))).
Proof.
  intros L. unfold tail_checks. destruct (nth_cols 13 l) as (c & N & C); [lia|]. rewrite C, sin1.
  unfold note_ok.
  assert ((exists c0, [c] = [c0] /\ In c0 (if smem (cols 78 80 l) programCodeSites then validProgramCodes else validNotes)) <->
          cmem c (if smem (cols 78 80 l) programCodeSites then validProgramCodes else validNotes) = true) as NI.
  { rewrite cmem_in. split; [intros (c0 & E & I); injection E as ->; exact I|intros I; exists c; split; [reflexivity|exact I]]. }
  rewrite NI. clear NI. destruct (cmem c _); cbn [negb].
  - destruct (unpackPackedID (cols 1 12 l)) as [[[perm prov] trk]|e]; cbn [rbind].
    + split.
      * intros H. split; auto. exists perm, prov, trk. split; auto. congruence.
      * intros (_ & a & b & e & H & ->). congruence.
    + split; [discriminate|]. intros (_ & a & b & e' & H & _). discriminate.
  - split; [discriminate|]. intros (H & _). discriminate.
Qed.

Lemma decode80_long l : 80 < length l -> decode80 l = Err RuntimeError.
Proof.
  intros L. unfold decode80. destruct l as [|c l]; [cbn in L; lia|].
  apply Nat.ltb_lt in L. now rewrite L.
Qed.
Lemma decode80_header l : ~ In nl l -> length l <= 80 -> is_header l = true ->
  decode80 l = Ok (texts [($"headerKeyword", firstn 3 l); ($"headerValue", skipn 4 l); ($"code", $"0")]).
Proof.
  intros NL L H. unfold decode80. destruct l as [|c l]; [discriminate H|].
  apply Nat.ltb_ge in L. rewrite L, match_header, H by auto. reflexivity.
Qed.
Lemma decode80_short l : ~ In nl l -> l <> [] -> length l <> 80 -> is_header l = false -> decode80 l = Err RuntimeError.
Proof.
  intros NL NE L H. unfold decode80. destruct l as [|c l]; [congruence|].
  destruct (80 <? length (c :: l)); auto. rewrite match_header, H by auto.
  apply Nat.eqb_neq in L. now rewrite L.
Qed.
Lemma decode80_data l : ~ In nl l -> length l = 80 -> is_header l = false ->
  decode80 l = do ret <- decode_data l; decode_checks ret.
Proof.
  intros NL L H. unfold decode80. destruct l as [|c l]; [discriminate L|].
  rewrite match_header, H by auto. rewrite L. reflexivity.
Qed.
Lemma data_optical l : length l = 80 -> fitp (flat optical_layout) l = true -> decode_data l = decode_normal (capsf normalLineRegex l []).
Proof. intros L F. unfold decode_data. now rewrite m_normal, F by auto. Qed.
Lemma data_radar1 l : length l = 80 -> fitp (flat radar1_layout) l = true -> decode_data l = decode_radar1 (capsf radarFirstLineRegex l []).
Proof.
  intros L F. unfold decode_data. rewrite m_normal, m_radar1, F by auto.
  replace (fitp (flat optical_layout) l) with false by (symmetry; apart). reflexivity.
Qed.
Lemma data_radar2 l : length l = 80 -> fitp (flat radar2_layout) l = true -> decode_data l = decode_radar2 (capsf radarSecondLineRegex l []).
Proof.
  intros L F. unfold decode_data. rewrite m_normal, m_radar1, m_radar2, F by auto.
  replace (fitp (flat optical_layout) l) with false by (symmetry; apart).
  replace (fitp (flat radar1_layout) l) with false by (symmetry; apart). reflexivity.
Qed.
Lemma data_satellite l : length l = 80 -> fitp (flat satellite_layout) l = true -> decode_data l = decode_satellite (capsf satelliteSecondLineRegex l []).
Proof.
  intros L F. unfold decode_data. rewrite m_normal, m_radar1, m_radar2, m_satellite, F by auto.
  replace (fitp (flat optical_layout) l) with false by (symmetry; apart).
  replace (fitp (flat radar1_layout) l) with false by (symmetry; apart).
  replace (fitp (flat radar2_layout) l) with false by (symmetry; apart). reflexivity.
Qed.
Lemma data_rover l : length l = 80 -> fitp (flat rover_layout) l = true -> decode_data l = decode_rover (capsf roverSecondLineRegex l []).
Proof.
  intros L F. unfold decode_data. rewrite m_normal, m_radar1, m_radar2, m_satellite, m_rover, F by auto.
  replace (fitp (flat optical_layout) l) with false by (symmetry; apart).
  replace (fitp (flat radar1_layout) l) with false by (symmetry; apart).
  replace (fitp (flat radar2_layout) l) with false by (symmetry; apart).
  replace (fitp (flat satellite_layout) l) with false by (symmetry; apart). reflexivity.
Qed.
Lemma data_none l : length l = 80 -> fitp (flat optical_layout) l = false -> fitp (flat radar1_layout) l = false ->
  fitp (flat radar2_layout) l = false -> fitp (flat satellite_layout) l = false -> fitp (flat rover_layout) l = false ->
  decode_data l = Err RuntimeError.
Proof.
  intros L F1 F2 F3 F4 F5. unfold decode_data. now rewrite m_normal, m_radar1, m_radar2, m_satellite, m_rover, F1, F2, F3, F4, F5 by auto.
Qed.

Lemma lay80 f l : fitp (flat f) l = true -> length (flat f) = 80 -> length l = 80.
Proof. intros F L. rewrite (fitp_length _ _ F). exact L. Qed.

Lemma codeok_of f kinds l : fitp (flat f) l = true -> length (flat f) = 80 -> nth_error (flat f) 14 = Some (one_of kinds) ->
  forallb (fun c => implb (cmem c kinds) (cmem c validCodes)) allascii = true -> sin (cols 15 15 l) validCodes = true.
Proof. intros F L N A. eapply code_ok; eauto. now apply lay80 in F. Qed.

Theorem decode_iff l d : ~ In nl l -> (decode80 l = Ok d <-> decodes l d).
Proof.
  intros NL. split.
  - intros H. destruct (le_lt_dec (length l) 80) as [Le|Gt]; [|rewrite decode80_long in H by auto; discriminate].
    destruct l as [|c0 l0]; [injection H as <-; now constructor|].
    destruct (is_header (c0 :: l0)) eqn:HD.
    { rewrite decode80_header in H by auto. apply is_header_iff in HD as (k & v & I & E).
      destruct (header_fields k v I) as [H1 H2]. rewrite E in H, NL |- *. rewrite H1, H2 in H.
      assert (d = texts [($"headerKeyword", k); ($"headerValue", v); ($"code", $"0")]) as -> by (symmetry; exact (Ok_inj' _ _ H)).
      apply dec_header; auto. rewrite <- E. exact Le. }
    assert (~ header_line (c0 :: l0)) as NH by (rewrite <- is_header_iff; congruence).
    destruct (Nat.eq_dec (length (c0 :: l0)) 80) as [L|L]; [|rewrite decode80_short in H by (auto; discriminate); discriminate].
    set (l := c0 :: l0) in *. clearbody l. rewrite decode80_data in H by auto.
    destruct (fitp (flat optical_layout) l) eqn:F1.
    { rewrite data_optical, normal_eq in H by auto.
      destruct (checkDate (cols 16 32 l) false) as [[t p]|e] eqn:D; cbn [rbind] in H; [|discriminate].
      destruct (checkRa (cols 33 44 l)) as [[ra pra]|e] eqn:R; cbn [rbind] in H; [|discriminate].
      destruct (checkDec (cols 45 56 l)) as [[de pde]|e] eqn:DE; cbn [rbind] in H; [|discriminate].
      rewrite optical_checks in H; auto; [|eapply codeok_of; [exact F1|reflexivity..]].
      apply tail_checks_ok in H as (NO & perm & prov & trk & U & ->); auto.
      apply (dec_optical l t p perm prov trk ra pra de pde); auto; [now apply laid_out_fitp|repeat split; auto]. }
    destruct (fitp (flat radar1_layout) l) eqn:F2.
    { rewrite data_radar1 in H by auto. destruct (radar1_eq l L F2) as (shift & S & E). rewrite E in H. cbn [rbind] in H.
      rewrite radar1_checks in H; auto; [|eapply codeok_of; [exact F2|reflexivity..]].
      destruct (checkDate (cols 16 32 l) true) as [[t p]|e] eqn:D; cbn [rbind] in H; [|discriminate].
      apply tail_checks_ok in H as (NO & perm & prov & trk & U & ->); auto.
      apply (dec_radar1 l t p perm prov trk shift); auto; [now apply laid_out_fitp|repeat split; auto]. }
    destruct (fitp (flat radar2_layout) l) eqn:F3.
    { rewrite data_radar2, radar2_eq in H by auto. cbn [rbind] in H.
      rewrite radar2_checks in H; auto; [|eapply codeok_of; [exact F3|reflexivity..]].
      destruct (checkDate (cols 16 32 l) true) as [[t p]|e] eqn:D; cbn [rbind] in H; [|discriminate].
      apply tail_checks_ok in H as (NO & perm & prov & trk & U & ->); auto.
      apply (dec_radar2 l t p perm prov trk); auto; [now apply laid_out_fitp|repeat split; auto]. }
    destruct (fitp (flat satellite_layout) l) eqn:F4.
    { rewrite data_satellite in H by auto.
      destruct (decode_satellite (capsf satelliteSecondLineRegex l [])) as [D0|e] eqn:E; cbn [rbind] in H; [|discriminate].
      apply (proj1 (satellite_eq l D0 L)) in E as (x & y & z & P1 & P2 & P3 & ->).
      rewrite satellite_checks in H; auto; [|eapply codeok_of; [exact F4|reflexivity..]].
      destruct (checkDate (cols 16 32 l) false) as [[t p]|e] eqn:D; cbn [rbind] in H; [|discriminate].
      apply tail_checks_ok in H as (NO & perm & prov & trk & U & ->); auto.
      apply (dec_satellite l t p perm prov trk x y z (fst (unit_of l)) (snd (unit_of l))); auto; [now apply laid_out_fitp|repeat split; auto|].
      unfold unit_of. destruct (streqb (cols 33 33 l) $"1"); reflexivity. }
    destruct (fitp (flat rover_layout) l) eqn:F5.
    { rewrite data_rover, rover_eq in H by auto. cbn [rbind] in H.
      rewrite rover_checks in H; auto; [|eapply codeok_of; [exact F5|reflexivity..]].
      destruct (checkDate (cols 16 32 l) false) as [[t p]|e] eqn:D; cbn [rbind] in H; [|discriminate].
      apply tail_checks_ok in H as (NO & perm & prov & trk & U & ->); auto.
      apply (dec_rover l t p perm prov trk); auto; [now apply laid_out_fitp|repeat split; auto]. }
    rewrite data_none in H by auto. discriminate.
  - intros H. destruct H as [k v Le I E|t p perm prov trk ra pra de pde NH F (D & NO & U) R DE
                            |t p perm prov trk shift NH F (D & NO & U) S|t p perm prov trk NH F (D & NO & U)
                            |t p perm prov trk x y z dp sys NH F (D & NO & U) SY P1 P2 P3|t p perm prov trk NH F (D & NO & U)|E].
    + rewrite decode80_header; auto; [|apply is_header_iff; exists k, v; auto].
      rewrite E. destruct (header_fields k v I) as [H1 H2]. rewrite H1, H2. reflexivity.
    + apply laid_out_fitp in F. assert (length l = 80) as L by (now apply lay80 in F).
      assert (is_header l = false) as HD by (destruct (is_header l) eqn:X; auto; apply is_header_iff in X; contradiction).
      rewrite decode80_data, data_optical, normal_eq, D by auto. cbn [rbind]. rewrite R. cbn [rbind]. rewrite DE. cbn [rbind].
      rewrite optical_checks; auto; [|eapply codeok_of; [exact F|reflexivity..]].
      apply tail_checks_ok; auto. split; auto. exists perm, prov, trk. split; auto.
    + apply laid_out_fitp in F. assert (length l = 80) as L by (now apply lay80 in F).
      assert (is_header l = false) as HD by (destruct (is_header l) eqn:X; auto; apply is_header_iff in X; contradiction).
      rewrite decode80_data, data_radar1 by auto. destruct (radar1_eq l L F) as (shift' & S' & E). rewrite E. cbn [rbind].
      assert (shift' = shift) as ->.
      { unfold shift_of in S, S'. destruct (streqb (cols 48 62 l) (spaces 15)); congruence. }
      rewrite radar1_checks; auto; [|eapply codeok_of; [exact F|reflexivity..]]. rewrite D. cbn [rbind].
      apply tail_checks_ok; auto. split; auto. exists perm, prov, trk. split; auto.
    + apply laid_out_fitp in F. assert (length l = 80) as L by (now apply lay80 in F).
      assert (is_header l = false) as HD by (destruct (is_header l) eqn:X; auto; apply is_header_iff in X; contradiction).
      rewrite decode80_data, data_radar2, radar2_eq by auto. cbn [rbind].
      rewrite radar2_checks; auto; [|eapply codeok_of; [exact F|reflexivity..]]. rewrite D. cbn [rbind].
      apply tail_checks_ok; auto. split; auto. exists perm, prov, trk. split; auto.
    + apply laid_out_fitp in F. assert (length l = 80) as L by (now apply lay80 in F).
      assert (is_header l = false) as HD by (destruct (is_header l) eqn:X; auto; apply is_header_iff in X; contradiction).
      rewrite decode80_data, data_satellite by auto.
      assert (unit_of l = (dp, sys)) as UO by (unfold unit_of; destruct (streqb (cols 33 33 l) $"1"); auto).
      rewrite (proj2 (satellite_eq l (satellite_dict l x y z sys) L)) by (rewrite UO; exists x, y, z; auto). cbn [rbind].
      rewrite satellite_checks; auto; [|eapply codeok_of; [exact F|reflexivity..]]. rewrite D. cbn [rbind].
      apply tail_checks_ok; auto. split; auto. exists perm, prov, trk. split; auto.
    + apply laid_out_fitp in F. assert (length l = 80) as L by (now apply lay80 in F).
      assert (is_header l = false) as HD by (destruct (is_header l) eqn:X; auto; apply is_header_iff in X; contradiction).
      rewrite decode80_data, data_rover, rover_eq by auto. cbn [rbind].
      rewrite rover_checks; auto; [|eapply codeok_of; [exact F|reflexivity..]]. rewrite D. cbn [rbind].
      apply tail_checks_ok; auto. split; auto. exists perm, prov, trk. split; auto.
    + subst. reflexivity.
Qed.
