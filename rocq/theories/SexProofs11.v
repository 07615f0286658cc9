(** Declination complete. *)
From Verif Require Import PyStrProofs PyFloat PyFloatProofs SexVals SexSpec SexProofs1 SexProofs2 SexProofs3 SexProofs4 SexProofs5 SexProofs6 SexProofs7 SexProofs8 SexProofs9 SexProofs10.
From Coq Require Import Lqa.
Open Scope Z_scope.

Definition dec_ok (neg : bool) (w : str) (X : Q) (pr : prec) (u : Q) : Prop :=
  exists d V, (1 <= d)%nat /\ 0 <= V /\ checkDec w = Ok (decimal_text neg d V, pr) /\
    degDeclToSexDecl (decimal_text neg d V) (prec_fl pr) = Ok w /\ close X (1 # 3600) u d V.
Lemma padr_sgn neg s : padr 12 (sgn neg ++ s) = sgn neg ++ padr 11 s.
Proof. destruct neg; reflexivity. Qed.
Lemma dec_ok_sec neg p pr h m N r : checkSexagesimal (padr 11 (sec_text p h m N)) = Ok r -> sec_fields r p pr h m N -> m < 60 -> N < 60 * 10 ^ Z.of_nat p ->
  dec_ok neg (padr 12 (sgn neg ++ sec_text p h m N)) (inject_Z (3600 * h + 60 * m) + inject_Z N / inject_Z (10 ^ Z.of_nat p)) pr (/ inject_Z (10 ^ Z.of_nat p)).
Proof.
  intros HR HF Hm HN. destruct (dec_fwd_sec neg _ _ _ _ _ _ _ HR HF) as (V & Ev & PV & BV & RT). destruct HF as [Hp Hpr Hh Hm0 HN0 _].
  pose proof (p10_pos p) as PP. set (P := 10 ^ Z.of_nat p) in *.
  pose proof (dec_back_sec neg p pr _ V Hp Hpr RT PV BV) as B. fold P in B. cbv zeta in B.
  destruct (norm_sec P h m N PP ltac:(lia) ltac:(lia)) as (E1 & E2 & E3). rewrite E1, E2, E3, (Z.mod_small h 100) in B by lia.
  exists (p + 4)%nat, V. split; [lia|]. split; [exact PV|]. split; [|split; [exact B|]].
  - unfold checkDec. rewrite padr_sgn at 1. rewrite Ev. cbn [rbind]. rewrite B. cbn [rbind]. now rewrite streqb_refl.
  - pose proof (injZ_lt _ _ PP) as PQ. change (inject_Z 0) with 0%Q in PQ.
    eapply close_of; [exact BV| |].
    + rewrite inj10_add. fold P. change (inject_Z (10 ^ Z.of_nat 4)) with 10000%Q. rewrite (inject_Z_plus _ N), (inject_Z_mult _ P). field. lra.
    + rewrite inj10_add. fold P. change (inject_Z (10 ^ Z.of_nat 4)) with 10000%Q.
      setoid_replace (/ inject_Z P * (1 # 3600) * (inject_Z P * 10000))%Q with (10000 # 3600)%Q by (field; lra). lra.
Qed.
Lemma dec_ok_min neg q pr h N r : checkSexagesimal (padr 11 (min_text q h N)) = Ok r -> min_fields r q pr h N -> N < 60 * 10 ^ Z.of_nat q ->
  dec_ok neg (padr 12 (sgn neg ++ min_text q h N)) (inject_Z (3600 * h) + inject_Z N * (60 / inject_Z (10 ^ Z.of_nat q))) pr (60 / inject_Z (10 ^ Z.of_nat q)).
Proof.
  intros HR HF HN. destruct (dec_fwd_min neg _ _ _ _ _ _ HR HF) as (V & Ev & PV & BV & RT). destruct HF as [Hpr Hh HN0 _].
  pose proof (p10_pos q) as PP. set (P := 10 ^ Z.of_nat q) in *.
  pose proof (dec_back_min neg q pr _ V Hpr RT PV BV) as B. fold P in B. cbv zeta in B.
  destruct (norm_min P h N PP ltac:(lia)) as (E1 & E2). rewrite E1, E2, (Z.mod_small h 100) in B by lia.
  exists (q + 2)%nat, V. split; [lia|]. split; [exact PV|]. split; [|split; [exact B|]].
  - unfold checkDec. rewrite padr_sgn at 1. rewrite Ev. cbn [rbind]. rewrite B. cbn [rbind]. now rewrite streqb_refl.
  - pose proof (injZ_lt _ _ PP) as PQ. change (inject_Z 0) with 0%Q in PQ.
    eapply close_of; [exact BV| |].
    + rewrite inj10_add. fold P. change (inject_Z (10 ^ Z.of_nat 2)) with 100%Q. rewrite (inject_Z_plus _ N), (inject_Z_mult _ P), (inject_Z_mult 3600), (inject_Z_mult 60).
      change (inject_Z 3600) with 3600%Q. change (inject_Z 60) with 60%Q. field. lra.
    + rewrite inj10_add. fold P. change (inject_Z (10 ^ Z.of_nat 2)) with 100%Q.
      setoid_replace (60 / inject_Z P * (1 # 3600) * (inject_Z P * 100))%Q with (6000 # 3600)%Q by (field; lra). lra.
Qed.
Lemma dec_ok_comp neg w X X' pr u u' : (X == X')%Q -> (u == u')%Q -> dec_ok neg w X pr u -> dec_ok neg w X' pr u'.
Proof.
  intros E1 E2 (d & V & A & B & C & D & E). exists d, V. split; [exact A|]. split; [exact B|]. split; [exact C|]. split; [exact D|].
  unfold close in *. rewrite <- E1, <- E2. exact E.
Qed.
Lemma dec_canonical neg s X pr u : sexagesimal s X pr u -> (length s <= 11)%nat -> dec_ok neg (padr 12 (sgn neg ++ s)) X pr u.
Proof.
  intros H L. destruct H.
  - pose proof (p10_pos p) as PP. rewrite sec_text_length in L by lia. assert (p <= 3)%nat by (destruct p; lia).
    destruct (parse_sec p h m N (11 - length (sec_text p h m N)) ltac:(lia) ltac:(lia) ltac:(lia) ltac:(lia)) as (r & HR & HF).
    now apply (dec_ok_sec neg p (PTen p) h m N r HR HF).
  - destruct (parse_isec h m s (11 - length (sec_text 0 h m s)) ltac:(lia) ltac:(lia) ltac:(lia)) as (r & HR & HF).
    assert (B : s < 60 * 10 ^ Z.of_nat 0) by (change (60 * 10 ^ Z.of_nat 0) with 60; lia).
    eapply dec_ok_comp; [| |apply (dec_ok_sec neg 0 (PInt 1) h m s r HR HF); [lia|exact B]].
    + change (inject_Z (10 ^ Z.of_nat 0)) with 1%Q. rewrite (inject_Z_plus (3600 * h + 60 * m) s). field.
    + reflexivity.
  - destruct (parse_min 2 PHund h N (11 - length (min_text 2 h N)) ltac:(left; auto) ltac:(lia) ltac:(lia)) as (r & HR & HF).
    assert (B : N < 60 * 10 ^ Z.of_nat 2) by (change (60 * 10 ^ Z.of_nat 2) with 6000; lia).
    eapply dec_ok_comp; [| |apply (dec_ok_min neg 2 PHund h N r HR HF); exact B].
    + change (inject_Z (10 ^ Z.of_nat 2)) with 100%Q. field.
    + reflexivity.
  - destruct (parse_min 1 (PInt 6) h N (11 - length (min_text 1 h N)) ltac:(right; left; auto) ltac:(lia) ltac:(lia)) as (r & HR & HF).
    assert (B : N < 60 * 10 ^ Z.of_nat 1) by (change (60 * 10 ^ Z.of_nat 1) with 600; lia).
    eapply dec_ok_comp; [| |apply (dec_ok_min neg 1 (PInt 6) h N r HR HF); exact B].
    + change (inject_Z (10 ^ Z.of_nat 1)) with 10%Q. field.
    + reflexivity.
  - destruct (parse_min 0 (PInt 60) h m (11 - length (min_text 0 h m)) ltac:(right; right; auto) ltac:(lia) ltac:(change (100 * 10 ^ Z.of_nat 0) with 100; lia)) as (r & HR & HF).
    assert (B : m < 60 * 10 ^ Z.of_nat 0) by (change (60 * 10 ^ Z.of_nat 0) with 60; lia).
    eapply dec_ok_comp; [| |apply (dec_ok_min neg 0 (PInt 60) h m r HR HF); exact B].
    + change (inject_Z (10 ^ Z.of_nat 0)) with 1%Q. rewrite (inject_Z_plus (3600 * h)), (inject_Z_mult 60). change (inject_Z 60) with 60%Q. field.
    + reflexivity.
Qed.
Lemma dec_complete w : length w = 12%nat ->
  checkDec w = Err RuntimeError \/ exists neg s X pr u, sexagesimal s X pr u /\ w = padr 12 (sgn neg ++ s).
Proof.
  intros L. destruct w as [|c w]; [discriminate|]. injection L as L.
  destruct (ceqb c "+" || ceqb c "-") eqn:Es.
  2: { left. unfold checkDec, sexDeclToDecDecl. rewrite Es. reflexivity. }
  assert (exists neg, c :: w = sgn neg ++ w) as (neg & ->).
  { apply orb_prop in Es as [E|E]; apply ceqb_eq in E; subst c; [exists false|exists true]; reflexivity. }
  destruct (check_inv w ltac:(lia)) as [E|(r & HR & HF)].
  { left. unfold checkDec. rewrite sexDecl_eq, E. reflexivity. }
  destruct HF as [(p & pr & h & m & N & HF)|(q & pr & h & N & HF)].
  - destruct (dec_fwd_sec neg _ _ _ _ _ _ _ HR HF) as (V & Ev & PV & BV & RT).
    unfold checkDec. rewrite Ev. cbn [rbind]. destruct HF as [Hp Hpr Hh Hm HN HFr].
    rewrite (dec_back_sec neg p pr _ V Hp Hpr RT PV BV). cbn [rbind].
    set (P := 10 ^ Z.of_nat p) in *. set (T := (3600 * h + 60 * m) * P + N) in *. set (k := T / (60 * P)). cbv zeta.
    pose proof (p10_pos p) as PP. fold P in PP.
    assert (A1 : 0 <= k / 60 mod 100 < 100) by (apply Z.mod_pos_bound; lia).
    assert (A2 : 0 <= k mod 60 < 60) by (apply Z.mod_pos_bound; lia).
    assert (A3 : 0 <= T mod (60 * P) < 60 * P) by (apply Z.mod_pos_bound; lia).
    set (h' := k / 60 mod 100) in *. set (m' := k mod 60) in *. set (N' := T mod (60 * P)) in *. clearbody h' m' N'.
    destruct (streqb (padr 12 (sgn neg ++ sec_text p h' m' N')) (sgn neg ++ w)) eqn:E; [|now left]. apply streqb_eq in E. right.
    destruct p as [|p].
    + exists neg, (sec_text 0 h' m' N'). do 3 eexists. split; [|symmetry; exact E]. apply sx_isec; auto.
    + exists neg, (sec_text (S p) h' m' N'). do 3 eexists. split; [|symmetry; exact E]. apply sx_sec; auto. lia.
  - destruct (dec_fwd_min neg _ _ _ _ _ _ HR HF) as (V & Ev & PV & BV & RT).
    unfold checkDec. rewrite Ev. cbn [rbind]. destruct HF as [Hpr Hh HN HFr].
    rewrite (dec_back_min neg q pr _ V Hpr RT PV BV). cbn [rbind].
    set (P := 10 ^ Z.of_nat q) in *. set (T := 60 * h * P + N) in *. cbv zeta.
    pose proof (p10_pos q) as PP. fold P in PP. set (k := T / (60 * P)).
    assert (A1 : 0 <= k mod 100 < 100) by (apply Z.mod_pos_bound; lia).
    assert (A3 : 0 <= T mod (60 * P) < 60 * P) by (apply Z.mod_pos_bound; lia).
    set (h' := k mod 100) in *. set (N' := T mod (60 * P)) in *. clearbody h' N'.
    destruct (streqb (padr 12 (sgn neg ++ min_text q h' N')) (sgn neg ++ w)) eqn:E; [|now left]. apply streqb_eq in E. right.
    exists neg, (min_text q h' N'). destruct Hpr as [[-> ->]|[[-> ->]|[-> ->]]]; do 3 eexists; (split; [|symmetry; exact E]).
    + now apply sx_hund.
    + now apply sx_tenth.
    + apply sx_imin; auto.
Qed.

(** the precision as written in the XML and read back by the other converter *)
Lemma prec_text s X pr u : sexagesimal s X pr u -> (length s <= 12)%nat -> exists f, pyfloat (prec_str pr) = Ok f /\ fneg f = fneg (prec_fl pr) /\ fmag f = fmag (prec_fl pr).
Proof.
  intros H L. destruct H; try (eexists; split; [reflexivity|split; vm_compute; reflexivity]).
  assert (Hl : (p <= 3)%nat) by (rewrite sec_text_length in L by (try lia; pose proof (p10_pos p); lia); destruct p; lia).
  assert (Hc : (p = 1 \/ p = 2 \/ p = 3)%nat) by lia.
  destruct Hc as [-> | [-> | ->]]; (eexists; split; [reflexivity|split; vm_compute; reflexivity]).
Qed.
