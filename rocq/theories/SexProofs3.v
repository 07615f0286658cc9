(** Right ascension: there and back, on the parsed fields. *)
From Verif Require Import PyStrProofs PyFloat PyFloatProofs SexVals SexSpec SexProofs1 SexProofs2.
From Coq Require Import Lqa.
Open Scope Z_scope.

Definition e15 : Q := 1 # 1000000000000000.
Definition e14 : Q := 1 # 100000000000000.
Definition near (e y x : Q) : Prop := (x * (1 - e) <= y <= x * (1 + e))%Q.
Ltac nears := unfold near, e14, e15 in *.
Lemma near_rnd x : (0 <= x)%Q -> near e15 (rnd x) x.
Proof. intros H. pose proof (rnd_e x H) as [A B]. nears. split; lra. Qed.
Lemma near_rnd2 y x : (0 <= y)%Q -> (x == y)%Q -> near e15 (rnd x) y.
Proof. intros H E. pose proof (near_rnd x ltac:(lra)) as [A B]. split; nears; lra. Qed.
Lemma isp_Zn z : 0 <= z <= 2 ^ 53 -> isp (of_Z z) (inject_Z z).
Proof. apply isp_Z. Qed.
Lemma injZ_le a b : a <= b -> (inject_Z a <= inject_Z b)%Q.
Proof. now rewrite <- Zle_Qle. Qed.
Lemma injZ_lt a b : a < b -> (inject_Z a < inject_Z b)%Q.
Proof. now rewrite <- Zlt_Qlt. Qed.
Lemma isp_rnd_Z f x z : isp f (rnd x) -> (x == inject_Z z)%Q -> 0 <= z <= 2 ^ 53 -> isp f (inject_Z z).
Proof. intros I E H. eapply isp_comp; [exact I|]. rewrite (rnd_comp _ _ E). now apply rnd_Z. Qed.

Definition ra_float (h : Z) (mi se : fl) : fl :=
  fmul (fadd (fadd (fmul (of_Z h) (of_Z 3600)) (fmul mi (of_Z 60))) se) secToDegrees.
Definition s2d_q : Q := Eval vm_compute in fmag secToDegrees.
Lemma isp_s2d : isp secToDegrees s2d_q.
Proof. split; reflexivity. Qed.
Lemma s2d_val : near (1 # 1000000000000000) s2d_q (1 # 240).
Proof. split; unfold Qle; vm_compute; congruence. Qed.
Lemma ra_value h mi se y1 y2 M S : 0 <= h < 100 -> isp mi y1 -> isp se y2 -> near e15 y1 M -> near e15 y2 S ->
  (0 <= M)%Q -> (0 <= S)%Q ->
  exists y, isp (ra_float h mi se) y /\ near e14 y ((inject_Z (3600 * h) + 60 * M + S) * (1 # 240)).
Proof.
  intros Hh I1 I2 N1 N2 PM PS. unfold ra_float.
  assert (A : isp (fmul (of_Z h) (of_Z 3600)) (inject_Z (3600 * h))).
  { eapply isp_rnd_Z; [apply isp_mul; apply isp_Z; lia| |lia]. rewrite <- inject_Z_mult. now rewrite Z.mul_comm. }
  pose proof (isp_mul _ _ _ _ I1 (isp_Z 60 ltac:(lia))) as B. change (inject_Z 60) with 60%Q in B.
  assert (Py1 : (0 <= y1)%Q) by (nears; lra). assert (Py2 : (0 <= y2)%Q) by (nears; lra).
  pose proof (near_rnd (y1 * 60) ltac:(lra)) as NB. set (b := rnd (y1 * 60)) in *. clearbody b.
  assert (PH : (0 <= inject_Z (3600 * h))%Q) by (change 0%Q with (inject_Z 0); apply injZ_le; lia).
  set (H := inject_Z (3600 * h)) in *. clearbody H.
  assert (Pb : (0 <= b)%Q) by (nears; lra).
  pose proof (isp_add _ _ _ _ A B PH Pb) as C.
  pose proof (near_rnd (H + b) ltac:(lra)) as NC. set (c := rnd (H + b)) in *. clearbody c.
  assert (Pc : (0 <= c)%Q) by (nears; lra).
  pose proof (isp_add _ _ _ _ C I2 Pc Py2) as D.
  pose proof (near_rnd (c + y2) ltac:(lra)) as ND. set (d := rnd (c + y2)) in *. clearbody d.
  assert (Pd : (0 <= d)%Q) by (nears; lra).
  pose proof (isp_mul _ _ _ _ D isp_s2d) as E.
  exists (rnd (d * s2d_q)). split; [exact E|].
  pose proof (near_rnd (d * s2d_q)) as NE. change s2d_q with (4803839602528529 # 1152921504606846976)%Q in *.
  specialize (NE ltac:(lra)). set (f := rnd (d * (4803839602528529 # 1152921504606846976))) in *. clearbody f. clear - NB NC ND NE N1 N2 PM PS PH Pb Pc Pd Py1 Py2.
  nears. split; lra.
Qed.

(** a value printed with d digits *)
Lemma print_near y W D Z : isp Z y -> (0 < D)%Q -> near e14 (y * D) W -> (0 <= W)%Q -> (W <= 1600000000000)%Q ->
  (Qabs (inject_Z (rheQ (fmag Z * D)) - W) <= 52 # 100)%Q.
Proof.
  intros [A B] PD N P U. rewrite (rheQ_comp (fmag Z * D) (y * D)) by now rewrite B.
  pose proof (rheQ_near (y * D)) as [N1 N2]. apply Qabs_Qle_condition. nears. split; lra.
Qed.
Lemma near_scale e y x D : near e y x -> (0 < D)%Q -> near e (y * D) (x * D).
Proof. intros [A B] P. unfold near in *. split; set (a := (1 - e)%Q) in *; set (b := (1 + e)%Q) in *; clearbody a b; nra. Qed.
Lemma near_eq e y x x' : (x == x')%Q -> near e y x -> near e y x'.
Proof. intros E [A B]. split; [rewrite <- E|rewrite <- E]; auto. Qed.
Lemma near_eq2 e y y' x : (y == y')%Q -> near e y x -> near e y' x.
Proof. intros E [A B]. split; [rewrite <- E|rewrite <- E]; auto. Qed.

(** * splitting seconds of time into hours, minutes, seconds *)
Definition at_or_inside (t base x u : Q) : Prop :=
  (x == 0 /\ t == base)%Q \/ (u <= x /\ Qabs (t - (base + x)) <= (14 # 100) * u)%Q.
Lemma split_sec h m x u t : 0 <= h <= 150 -> 0 <= m < 60 -> (1 # 1000000 <= u <= 1)%Q -> (0 <= x <= 60 - u)%Q ->
  at_or_inside t (inject_Z (3600 * h + 60 * m)) x u ->
  exists s, (s == rnd (t - inject_Z (3600 * h)) /\ inject_Z (3600 * h) <= t /\
    inject_Z (60 * m) <= s /\ 0 <= t)%Q /\
    Qfloor (rnd (t / 3600)) = h /\ Qfloor (rnd (s / 60)) = m /\
    (Qabs (rnd (100 + rnd (s - inject_Z (60 * m))) - (100 + x)) <= (2 # 10) * u)%Q.
Proof.
  intros Hh Hm [U1 U2] [X1 X2] C. exists (rnd (t - inject_Z (3600 * h))).
  assert (Ebase : (inject_Z (3600 * h + 60 * m) == inject_Z (3600 * h) + inject_Z (60 * m))%Q) by (rewrite inject_Z_plus; reflexivity).
  assert (E3 : (inject_Z (3600 * h) == 3600 * inject_Z h)%Q) by (rewrite inject_Z_mult; reflexivity).
  assert (E4 : (inject_Z (60 * m) == 60 * inject_Z m)%Q) by (rewrite inject_Z_mult; reflexivity).
  assert (E1h : (inject_Z (h + 1) == inject_Z h + 1)%Q) by (rewrite inject_Z_plus; reflexivity).
  assert (E1m : (inject_Z (m + 1) == inject_Z m + 1)%Q) by (rewrite inject_Z_plus; reflexivity).
  assert (BH : (0 <= inject_Z h <= 150)%Q) by (split; [apply (injZ_le 0)|apply (injZ_le h 150)]; lia).
  assert (BM : (0 <= inject_Z m <= 59)%Q) by (split; [apply (injZ_le 0)|apply (injZ_le m 59)]; lia).
  assert (EMz : m = 0 \/ 1 <= m) by lia.
  destruct C as [[X0 T]|[XU T]].
  - assert (Es : (rnd (t - inject_Z (3600 * h)) == inject_Z (60 * m))%Q).
    { rewrite (rnd_comp _ (inject_Z (60 * m))) by lra. apply rnd_Z. lia. }
    split; [repeat split; lra|]. split; [|split].
    + assert (Hr : near e15 (rnd (t / 3600)) (inject_Z h + inject_Z m * (1 # 60))) by (apply near_rnd2; [|unfold Qdiv; change (/ 3600)%Q with (1 # 3600)%Q]; lra).
      destruct EMz as [-> | M1].
      * assert (E : (rnd (t / 3600) == inject_Z h)%Q).
        { rewrite (rnd_comp _ (inject_Z h)); [apply rnd_Z; lia|]. change (inject_Z (60 * 0)) with 0%Q in *. unfold Qdiv; change (/ 3600)%Q with (1 # 3600)%Q. lra. }
        apply floor_is; lra.
      * apply (injZ_le 1) in M1. change (inject_Z 1) with 1%Q in M1. clear - Hr BH BM M1 E1h. nears. apply floor_is; lra.
    + assert (E : (rnd (rnd (t - inject_Z (3600 * h)) / 60) == inject_Z m)%Q).
      { rewrite (rnd_comp _ (inject_Z m)); [apply rnd_Z; lia|]. rewrite Es, E4. field. }
      apply floor_is; lra.
    + assert (E : (rnd (rnd (t - inject_Z (3600 * h)) - inject_Z (60 * m)) == 0)%Q) by (rewrite rnd_0; lra).
      rewrite (rnd_comp _ (inject_Z 100)) by (rewrite E; reflexivity). rewrite rnd_Z by lia. apply Qabs_Qle_condition. change (inject_Z 100) with 100%Q. split; lra.
  - apply Qabs_Qle_condition in T. rewrite Ebase in T.
    assert (NS : near e15 (rnd (t - inject_Z (3600 * h))) (t - inject_Z (3600 * h))) by (apply near_rnd; lra).
    set (s := rnd (t - inject_Z (3600 * h))) in *. clearbody s.
    assert (S2 : (inject_Z (60 * m) <= s)%Q) by (clear - NS T E3 E4 BH BM U1 U2 X1 X2 XU; nears; lra).
    split; [repeat split; lra|]. split; [|split].
    + assert (Hr : near e15 (rnd (t / 3600)) (t * (1 # 3600))) by (apply near_rnd2; [lra|field]).
      clear - Hr T E3 E4 E1h BH BM U1 U2 X1 X2 XU. nears. apply floor_is; lra.
    + assert (Hr : near e15 (rnd (s / 60)) (s * (1 # 60))) by (apply near_rnd2; [lra|field]).
      clear - NS Hr T E3 E4 E1m BH BM U1 U2 X1 X2 XU. nears. apply floor_is; lra.
    + assert (Hr : near e15 (rnd (s - inject_Z (60 * m))) (s - inject_Z (60 * m))) by (apply near_rnd; lra).
      set (w := rnd (s - inject_Z (60 * m))) in *. clearbody w.
      assert (Pw : (0 <= w)%Q) by (clear - Hr S2; nears; lra).
      pose proof (near_rnd (100 + w) ltac:(lra)) as Hw. set (z := rnd (100 + w)) in *. clearbody z.
      clear - Hw Hr NS T E3 E4 BH BM U1 U2 X1 X2 XU Pw. nears. apply Qabs_Qle_condition. split; lra.
Qed.
(** hours and minutes *)
Lemma split_min h x u t : 0 <= h <= 150 -> (6 # 10 <= u <= 60)%Q -> (0 <= x <= 3600 - u)%Q ->
  ((x == 0 /\ t == inject_Z (3600 * h)) \/ (u <= x /\ Qabs (t - (inject_Z (3600 * h) + x)) <= (24 # 100) * u))%Q ->
  exists s, (s == rnd (t - inject_Z (3600 * h)) /\ inject_Z (3600 * h) <= t /\ 0 <= s /\ 0 <= t)%Q /\
    Qfloor (rnd (t / 3600)) = h /\
    (Qabs (rnd (100 + rnd (s / 60)) * 60 - (6000 + x)) <= (3 # 10) * u)%Q.
Proof.
  intros Hh [U1 U2] [X1 X2] C. exists (rnd (t - inject_Z (3600 * h))).
  assert (E3 : (inject_Z (3600 * h) == 3600 * inject_Z h)%Q) by (rewrite inject_Z_mult; reflexivity).
  assert (E1h : (inject_Z (h + 1) == inject_Z h + 1)%Q) by (rewrite inject_Z_plus; reflexivity).
  assert (BH : (0 <= inject_Z h <= 150)%Q) by (split; [apply (injZ_le 0)|apply (injZ_le h 150)]; lia).
  destruct C as [[X0 T]|[XU T]].
  - assert (Es : (rnd (t - inject_Z (3600 * h)) == 0)%Q) by (rewrite rnd_0; lra).
    split; [repeat split; lra|]. split.
    + assert (E : (rnd (t / 3600) == inject_Z h)%Q).
      { rewrite (rnd_comp _ (inject_Z h)); [apply rnd_Z; lia|]. unfold Qdiv; change (/ 3600)%Q with (1 # 3600)%Q. lra. }
      apply floor_is; lra.
    + assert (E : (rnd (rnd (t - inject_Z (3600 * h)) / 60) == 0)%Q) by (rewrite rnd_0; [reflexivity|]; rewrite Es; reflexivity).
      rewrite (rnd_comp _ (inject_Z 100)) by (rewrite E; reflexivity). rewrite rnd_Z by lia. apply Qabs_Qle_condition. change (inject_Z 100) with 100%Q. split; lra.
  - apply Qabs_Qle_condition in T.
    assert (NS : near e15 (rnd (t - inject_Z (3600 * h))) (t - inject_Z (3600 * h))) by (apply near_rnd; lra).
    set (s := rnd (t - inject_Z (3600 * h))) in *. clearbody s.
    assert (S2 : (0 <= s)%Q) by (clear - NS T E3 BH U1 U2 X1 X2 XU; nears; lra).
    split; [repeat split; lra|]. split.
    + assert (Hr : near e15 (rnd (t / 3600)) (t * (1 # 3600))) by (apply near_rnd2; [lra|field]).
      clear - Hr T E3 E1h BH U1 U2 X1 X2 XU. nears. apply floor_is; lra.
    + assert (Hr : near e15 (rnd (s / 60)) (s * (1 # 60))) by (apply near_rnd2; [lra|field]).
      set (w := rnd (s / 60)) in *. clearbody w. assert (Pw : (0 <= w)%Q) by (clear - Hr S2; nears; lra).
      pose proof (near_rnd (100 + w) ltac:(lra)) as Hw. set (z := rnd (100 + w)) in *. clearbody z.
      clear - Hw Hr NS T E3 BH U1 U2 X1 X2 XU Pw. nears. apply Qabs_Qle_condition. split; lra.
Qed.
