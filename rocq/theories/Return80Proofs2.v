(** Lemmas of C50, part 2: lines as a whole; dates and angles that are read again. *)
From Verif Require Import PyStrProofs JustSpec JustProofs Mpc80 Mpc80Spec Mpc80Proofs1 Mpc80Proofs11 Line80Spec LineProofs1 IdProofs5 Return80Proofs1.
From Verif Require Import Back80Proofs2 ValueProofs4.
From Verif Require Import SexVals SexSpec SexProofs1 SexProofs7 SexProofs13 SexProofs15 PropsSex ValueSpec Submit80Spec Return80Spec.
From Verif Require Import Return80Proofs1.
From Coq Require Import Lqa.
Local Open Scope nat_scope.

Lemma skip_skip {A} (l : list A) : forall m n, skipn m (skipn n l) = skipn (n + m) l.
Proof. induction l as [|x l IH]; intros m n; [now rewrite !skipn_nil|]. destruct n; [reflexivity|]. apply IH. Qed.
Lemma fill_from fs : forall a l, 1 <= a -> Forall (fun wv => 1 <= fst wv) fs -> fill a l fs -> skipn (a - 1) l = concat (map snd fs).
Proof.
  induction fs as [|[w v] fs IH]; intros a l A P H; cbn [fill map concat snd] in *.
  - apply skipn_all2. lia.
  - destruct H as (C & L & H). assert (1 <= w) as W by exact (Forall_inv P). apply IH in H; [|lia|exact (Forall_inv_tail P)]. unfold cols in C. replace (a + w - 1 - a + 1) with w in C by lia.
    rewrite <- H, <- C. rewrite <- (firstn_skipn w (skipn (a - 1) l)) at 1. f_equal. rewrite skip_skip. f_equal. lia.
Qed.
Lemma fill_all fs l : Forall (fun wv => 1 <= fst wv) fs -> fill 1 l fs -> l = concat (map snd fs).
Proof. intros P H. exact (fill_from fs 1 l (Nat.le_refl 1) P H). Qed.
Lemma laid_app f g : forall a b, laid_out f a -> laid_out g b -> laid_out (f ++ g) (a ++ b).
Proof.
  induction f as [|[n p] f IH]; intros a b A B; cbn [laid_out app] in *; [now subst a|]. destruct A as (L & P & A).
  rewrite app_length, firstn_app, skipn_app. replace (n - length a) with 0 by lia. cbn [firstn skipn]. rewrite app_nil_r. split; [lia|]. split; [exact P|]. now apply IH.
Qed.
Lemma laid_one p s n : length s = n -> forallb p s = true -> laid_out [(n, p)] s.
Proof. intros <- H. cbn [laid_out]. rewrite firstn_all, skipn_all. auto. Qed.
Lemma laid_cons n p f a b : length a = n -> forallb p a = true -> laid_out f b -> laid_out ((n, p) :: f) (a ++ b).
Proof. intros L P B. exact (laid_app [(n, p)] f a b (laid_one p a n L P) B). Qed.

(** * Digits *)
Lemma dig_num : forall c, isdig c = true -> numeric c = true. Proof. apply imp_ascii. vm_compute. reflexivity. Qed.
Lemma num_dig k N : 1 <= k -> (0 <= N < 10 ^ Z.of_nat k)%Z -> forallb isdig (num k N) = true /\ length (num k N) = k.
Proof. intros K H. destruct (num_spec k N K H) as (L & A & _). split; [exact A|exact L]. Qed.
Lemma digs_numeric s : forallb isdig s = true -> forallb numeric s = true.
Proof. rewrite !forallb_forall. intros H c I. apply dig_num, H, I. Qed.
Lemma spaces_numeric n : forallb numeric (spaces n) = true.
Proof. unfold spaces. induction n; [reflexivity|]. cbn [repeat forallb]. rewrite IHn. reflexivity. Qed.
Lemma numeric_app a b : forallb numeric a = true -> forallb numeric b = true -> forallb numeric (a ++ b) = true.
Proof. rewrite forallb_app. intros -> ->. reflexivity. Qed.
Lemma p10 k : (0 < 10 ^ Z.of_nat k)%Z. Proof. apply Z.pow_pos_nonneg; lia. Qed.
Lemma fixed_numeric p N : (0 <= N < 100 * 10 ^ Z.of_nat p)%Z -> forallb numeric (fixed p N) = true.
Proof.
  intro H. pose proof (p10 p) as P. assert (0 <= N / 10 ^ Z.of_nat p < 100)%Z as D by (split; [apply Z.div_pos; lia|apply Z.div_lt_upper_bound; lia]).
  unfold fixed. apply numeric_app; [apply digs_numeric, (num_dig 2); [lia|exact D]|]. destruct p; [reflexivity|]. apply numeric_app; [reflexivity|].
  apply digs_numeric, num_dig; [lia|]. apply Z.mod_pos_bound. exact P.
Qed.
Lemma sec_numeric p h m N : (0 <= h < 100)%Z -> (0 <= m < 100)%Z -> (0 <= N < 100 * 10 ^ Z.of_nat p)%Z -> forallb numeric (sec_text p h m N) = true.
Proof.
  intros H M S. unfold sec_text. apply numeric_app; [apply digs_numeric, (num_dig 2); [lia|exact H]|]. apply numeric_app; [reflexivity|].
  apply numeric_app; [apply digs_numeric, (num_dig 2); [lia|exact M]|]. apply numeric_app; [reflexivity|]. now apply fixed_numeric.
Qed.
Lemma num2 n : (0 <= n < 100)%Z -> length (num 2 n) = 2.
Proof. intro H. apply (num_dig 2); [lia|exact H]. Qed.

(** * Right ascensions *)
Lemma take8 a b c r : length a = 2 -> length b = 2 -> length c = 2 -> firstn 2 (skipn 6 (a ++ $" " ++ b ++ $" " ++ c ++ r)) = c.
Proof. intros A B C. destruct a as [|? [|? [|? ?]]]; try discriminate A. destruct b as [|? [|? [|? ?]]]; try discriminate B. destruct c as [|? [|? [|? ?]]]; try discriminate C. reflexivity. Qed.
Lemma take6 a b r : length a = 2 -> length b = 2 -> firstn 2 (skipn 3 (a ++ $" " ++ b ++ r)) = b.
Proof. intros A B. destruct a as [|? [|? [|? ?]]]; try discriminate A. destruct b as [|? [|? [|? ?]]]; try discriminate B. reflexivity. Qed.
Lemma char6 a b c r : length a = 2 -> length b = 2 -> firstn 1 (skipn 5 (a ++ $" " ++ b ++ c :: r)) = [c].
Proof. intros A B. destruct a as [|? [|? [|? ?]]]; try discriminate A. destruct b as [|? [|? [|? ?]]]; try discriminate B. reflexivity. Qed.
Lemma secs_at p h m N w : (0 <= h < 100)%Z -> (0 <= m < 100)%Z -> (0 <= N < 100 * 10 ^ Z.of_nat p)%Z -> w = padr 12 (sec_text p h m N) ->
  firstn 2 (skipn 3 w) = num 2 m /\ firstn 1 (skipn 5 w) = $" " /\ firstn 2 (skipn 6 w) = num 2 (N / 10 ^ Z.of_nat p).
Proof.
  intros H M S ->. pose proof (p10 p) as P. assert (0 <= N / 10 ^ Z.of_nat p < 100)%Z as D by (split; [apply Z.div_pos; lia|apply Z.div_lt_upper_bound; lia]).
  unfold padr, sec_text, fixed. rewrite <- !app_assoc. split; [apply take6; now apply num2|]. split; [apply (char6 _ _ " "%char); now apply num2|]. apply take8; now apply num2.
Qed.
Lemma num_60 n : (0 <= n <= 60)%Z -> (num 2 n = $"60" <-> n = 60%Z).
Proof. intro H. split; [|intros ->; reflexivity]. intro E. apply (num_inj 2 n 60); [lia|cbn; lia|cbn; lia|exact E]. Qed.
(** the first eight characters of a sexagesimal text *)
Lemma sexagesimal_at s X pr u w : sexagesimal s X pr u -> w = padr 12 s -> length s <= 12 ->
  (exists m, (0 <= m < 60)%Z /\ firstn 2 (skipn 3 w) = num 2 m) /\
  (firstn 1 (skipn 5 w) = $" " -> firstn 2 (skipn 6 w) <> $"60").
Proof.
  intros H E L.
  assert (forall p h m N, (0 <= h < 100)%Z -> (0 <= m < 60)%Z -> (0 <= N < 60 * 10 ^ Z.of_nat p)%Z -> s = sec_text p h m N ->
    (exists m, (0 <= m < 60)%Z /\ firstn 2 (skipn 3 w) = num 2 m) /\ (firstn 1 (skipn 5 w) = $" " -> firstn 2 (skipn 6 w) <> $"60")) as A.
  { intros p h m N Hh Hm HN Es. subst s. pose proof (p10 p) as P. destruct (secs_at p h m N w) as (A & _ & B); try lia; [exact E|]. split; [exists m; split; [exact Hm|exact A]|].
    intros _ Q. rewrite B in Q. assert (N / 10 ^ Z.of_nat p < 60)%Z as D by (apply Z.div_lt_upper_bound; lia). assert (0 <= N / 10 ^ Z.of_nat p)%Z as D0 by (apply Z.div_pos; lia).
    apply num_60 in Q; lia. }
  assert (forall q h N, (0 <= h < 100)%Z -> (0 <= N < 60 * 10 ^ Z.of_nat q)%Z -> s = min_text q h N ->
    (exists m, (0 <= m < 60)%Z /\ firstn 2 (skipn 3 w) = num 2 m) /\ (firstn 1 (skipn 5 w) = $" " -> firstn 2 (skipn 6 w) <> $"60")) as B.
  { intros q h N Hh HN Es. pose proof (p10 q) as P. assert (N / 10 ^ Z.of_nat q < 60)%Z as D by (apply Z.div_lt_upper_bound; lia). assert (0 <= N / 10 ^ Z.of_nat q)%Z as D0 by (apply Z.div_pos; lia).
    split.
    - exists (N / 10 ^ Z.of_nat q)%Z. split; [lia|]. subst w s. unfold padr, min_text, fixed. rewrite <- !app_assoc. apply take6; apply num2; lia.
    - subst w s. unfold padr, min_text, fixed. destruct q.
      + intros _. rewrite app_nil_r, <- !app_assoc. intro Q. assert (length (num 2 h) = 2) as L1 by (apply num2; lia). assert (length (num 2 (N / 10 ^ Z.of_nat 0)) = 2) as L2 by (apply num2; lia).
        destruct (num 2 h) as [|? [|? [|? ?]]]; try discriminate L1. destruct (num 2 (N / 10 ^ Z.of_nat 0)) as [|? [|? [|? ?]]]; try discriminate L2. cbn in Q. discriminate Q.
      + rewrite <- !app_assoc. change ($"." ++ num (S q) (N mod 10 ^ Z.of_nat (S q))) with ("."%char :: num (S q) (N mod 10 ^ Z.of_nat (S q))). intro Q. exfalso.
        assert (length (num 2 h) = 2) as L1 by (apply num2; lia). assert (length (num 2 (N / 10 ^ Z.of_nat (S q))) = 2) as L2 by (apply num2; lia).
        destruct (num 2 h) as [|? [|? [|? ?]]]; try discriminate L1. destruct (num 2 (N / 10 ^ Z.of_nat (S q))) as [|? [|? [|? ?]]]; try discriminate L2. cbn in Q. discriminate Q. }
  destruct H as [p h m N Hp Hh Hm HN|h m s Hh Hm Hs|h N Hh HN|h N Hh HN|h m Hh Hm].
  - exact (A p h m N Hh Hm HN eq_refl).
  - apply (A 0%nat h m s Hh Hm); [|reflexivity]. change (10 ^ Z.of_nat 0)%Z with 1%Z. lia.
  - apply (B 2%nat h N Hh); [|reflexivity]. change (10 ^ Z.of_nat 2)%Z with 100%Z. lia.
  - apply (B 1%nat h N Hh); [|reflexivity]. change (10 ^ Z.of_nat 1)%Z with 10%Z. lia.
  - apply (B 0%nat h m Hh); [|reflexivity]. change (10 ^ Z.of_nat 0)%Z with 1%Z. lia.
Qed.
Lemma num_fine k N : 1 <= k -> (0 <= N < 10 ^ Z.of_nat k)%Z -> fine (num k N).
Proof. intros K H. apply (fine_imp isdig); [exact dig_ok|]. now apply num_dig. Qed.
Lemma decimal_fine neg d V : 1 <= d -> (0 <= V)%Z -> fine (decimal_text neg d V).
Proof.
  intros D H. unfold decimal_text. apply fine_app; [destruct neg; reflexivity|]. apply fine_app; [apply dec_fine|]. apply fine_app; [reflexivity|]. apply num_fine; [exact D|]. apply Z.mod_pos_bound, p10.
Qed.
(** * Angles that are read again *)
Lemma Qscale x y u c : (0 < c)%Q -> (Qabs (x - c * y) <= u)%Q -> (Qabs (x * / c - y) <= u * / c)%Q.
Proof.
  intros C H. assert (x * / c - y == (x - c * y) * / c)%Q as -> by (field; lra). rewrite Qabs_Qmult, (Qabs_pos (/ c)) by (apply Qlt_le_weak, Qinv_lt_0_compat; exact C).
  apply Qmult_le_compat_r; [exact H|apply Qlt_le_weak, Qinv_lt_0_compat; exact C].
Qed.
Lemma angle_near p c X q d V : In p [1; 2; 3] -> In c [240; 3600]%Q -> (Qabs (X - c * q) <= (52 # 100) / inject_Z (10 ^ Z.of_nat p))%Q ->
  close X (/ c) (/ inject_Z (10 ^ Z.of_nat p)) d V ->
  (Qabs (inject_Z V / inject_Z (10 ^ Z.of_nat d) - q) <= (86 # 100) / inject_Z (10 ^ Z.of_nat p) * / c)%Q.
Proof.
  intros P C A [_ B]. set (v := (inject_Z V / inject_Z (10 ^ Z.of_nat d))%Q) in *.
  assert (0 < c)%Q as Cp by (destruct C as [<-|[<-|[]]]; reflexivity).
  apply (Qscale _ _ _ c Cp) in A. assert (v - q == (v - X * / c) + (X * / c - q))%Q as -> by ring. eapply Qle_trans; [apply Qabs_triangle|].
  apply (Qplus_le_compat _ _ _ _ B) in A. eapply Qle_trans; [exact A|]. destruct P as [<-|[<-|[<-|[]]]]; destruct C as [<-|[<-|[]]]; vm_compute; intro Q; discriminate Q.
Qed.
Lemma ra_again p w q : In p [1; 2; 3] -> shows_ra p w q ->
  (length w = 12 /\ forallb numeric w = true) /\
  (firstn 2 (skipn 6 w) = $"60" -> checkRa w = Err RuntimeError) /\
  (firstn 2 (skipn 6 w) <> $"60" -> exists t q', checkRa w = Ok (t, PTen p) /\ strip t = t /\ t <> [] /\ fine t /\ decimal_value t q' /\ (Qabs (q' - q) <= (86 # 100) / inject_Z (10 ^ Z.of_nat p) * (1 # 240))%Q).
Proof.
  intros P (h & m & N & Ew & Hh & Hm & HN & A). pose proof (p10 p) as P0.
  assert (length (sec_text p h m N) = 9 + p) as L by (rewrite sec_text_length by lia; destruct p; [destruct P as [X|[X|[X|[]]]]; discriminate X|reflexivity]).
  assert (length (sec_text p h m N) <= 12) as L12 by (rewrite L; destruct P as [<-|[<-|[<-|[]]]]; lia).
  destruct (secs_at p h m N w) as (A1 & A2 & A3); try lia; [exact Ew|].
  split. { rewrite Ew. unfold padr. split; [rewrite app_length, spaces_length; lia|]. apply numeric_app; [apply sec_numeric; lia|apply spaces_numeric]. }
  assert (0 <= N / 10 ^ Z.of_nat p <= 60)%Z as D by (split; [apply Z.div_pos; lia|apply Z.div_le_upper_bound; lia]).
  split.
  - intro Q. destruct (C30_only w) as [E|(s & X & pr & u & Sx & Es)]; [rewrite Ew; unfold padr; rewrite app_length, spaces_length; lia|exact E|].
    assert (length s <= 12) as Ls. { assert (length w = 12) as Lw by (rewrite Ew; unfold padr; rewrite app_length, spaces_length; lia). rewrite Es in Lw. unfold padr in Lw. rewrite app_length in Lw. lia. }
    destruct (sexagesimal_at s X pr u w Sx Es Ls) as (_ & K). exfalso. exact (K A2 Q).
  - intro Q. rewrite A3 in Q. assert (N / 10 ^ Z.of_nat p < 60)%Z as D2. { destruct (Z.eq_dec (N / 10 ^ Z.of_nat p) 60) as [E|E]; [rewrite E in Q; destruct Q; reflexivity|lia]. }
    assert (N < 60 * 10 ^ Z.of_nat p)%Z as HN2. { pose proof (Z.mul_succ_div_gt N _ P0). nia. }
    assert (1 <= p) as P1 by (destruct P as [<-|[<-|[<-|[]]]]; lia).
    destruct (C30_round_trip _ _ _ _ (sx_sec p h m N P1 ltac:(lia) ltac:(lia) ltac:(lia)) L12) as (d & V & Hd & HV & E & _ & Cl). rewrite <- Ew in E.
    exists (decimal_text false d V), (text_value false d V). split; [exact E|]. destruct (decimal_texty false d V Hd HV) as [T1 T2]. split; [exact T1|]. split; [exact T2|].
    split; [apply decimal_fine; assumption|]. split; [now apply text_decimal|].
    assert (text_value false d V == inject_Z V / inject_Z (10 ^ Z.of_nat d))%Q as -> by (unfold text_value; ring).
    apply (angle_near p 240 _ q d V P ltac:(left; reflexivity) A Cl).
Qed.
Lemma dec_again p w q : In p [1; 2] -> shows_dec p w q ->
  (length w = 12 /\ laid_out [(1, one_of $"+- "); (11, numeric)] w) /\
  (firstn 2 (skipn 4 w) = $"60" -> checkDec w = Err RuntimeError) /\
  (firstn 2 (skipn 4 w) <> $"60" -> exists t q', checkDec w = Ok (t, PTen p) /\ strip t = t /\ t <> [] /\ fine t /\ decimal_value t q' /\ (Qabs (q' - q) <= (86 # 100) / inject_Z (10 ^ Z.of_nat p) * (1 # 3600))%Q).
Proof.
  intros P (neg & h & m & N & Ew & Hh & Hm & HN & S1 & S2 & A). pose proof (p10 p) as P0.
  assert (In p [1; 2; 3]) as P3 by (destruct P as [<-|[<-|[]]]; cbn [In]; tauto).
  assert (length (sec_text p h m N) = 9 + p) as L by (rewrite sec_text_length by lia; destruct p; [destruct P as [X|[X|[]]]; discriminate X|reflexivity]).
  assert (length (sec_text p h m N) <= 11) as L11 by (rewrite L; destruct P as [<-|[<-|[]]]; lia).
  assert (exists c, sgn neg = [c] /\ one_of $"+- " c = true) as (c & Ec & Oc) by (destruct neg; [exists "-"%char|exists "+"%char]; split; reflexivity).
  assert (forall s, length s <= 11 -> padr 12 (sgn neg ++ s) = c :: padr 11 s) as Pc by (intros s Hs; rewrite Ec; reflexivity).
  assert (firstn 2 (skipn 4 w) = num 2 m) as A1.
  { rewrite Ew, (Pc _ L11). cbn [skipn]. unfold padr, sec_text. rewrite <- !app_assoc. apply take6; apply num2; lia. }
  assert (length w = 12) as Lw by (rewrite Ew, (Pc _ L11); cbn [length]; unfold padr; rewrite app_length, spaces_length; lia).
  split. { split; [exact Lw|]. rewrite Ew, (Pc _ L11). change (c :: padr 11 (sec_text p h m N)) with ([c] ++ padr 11 (sec_text p h m N)). apply laid_cons; [reflexivity|cbn [forallb]; rewrite Oc; reflexivity|].
    apply laid_one; [unfold padr; rewrite app_length, spaces_length; lia|]. apply numeric_app; [apply sec_numeric; lia|apply spaces_numeric]. }
  split.
  - intro Q. destruct (C31_only w Lw) as [E|(ng & s & X & pr & u & Sx & Es)]; [exact E|]. exfalso.
    assert (exists c', sgn ng = [c']) as (c' & Ec') by (destruct ng; eexists; reflexivity).
    assert (length s <= 11) as Ls. { rewrite Es in Lw. unfold padr in Lw. rewrite !app_length, Ec' in Lw. cbn [length] in Lw. lia. }
    assert (w = c' :: padr 11 s) as Es' by (rewrite Es, Ec'; reflexivity).
    assert (exists k, padr 12 s = padr 11 s ++ k) as (k & Ek). { exists $" ". unfold padr. rewrite <- app_assoc. f_equal. unfold spaces. replace (12 - length s) with (11 - length s + 1) by lia. rewrite repeat_app. reflexivity. }
    assert (length (padr 11 s) = 11) as L1 by (unfold padr; rewrite app_length, spaces_length; lia).
    destruct (sexagesimal_at s X pr u (padr 12 s) Sx eq_refl ltac:(lia)) as ((m' & Hm' & K) & _). rewrite Es' in Q. cbn [skipn] in Q. rewrite Ek in K.
    destruct (padr 11 s) as [|x0 [|x1 [|x2 [|x3 [|x4 r]]]]]; try discriminate L1. cbn [skipn app firstn] in K, Q. rewrite Q in K. symmetry in K. apply num_60 in K; lia.
  - intro Q. rewrite A1 in Q. assert (m < 60)%Z as D2. { destruct (Z.eq_dec m 60) as [E|E]; [rewrite E in Q; destruct Q; reflexivity|lia]. }
    assert (1 <= p) as P1 by (destruct P as [<-|[<-|[]]]; lia).
    destruct (C31_round_trip neg _ _ _ _ (sx_sec p h m N P1 ltac:(lia) ltac:(lia) ltac:(lia)) L11) as (d & V & Hd & HV & E & _ & Cl). rewrite <- Ew in E.
    exists (decimal_text neg d V), (text_value neg d V). split; [exact E|]. destruct (decimal_texty neg d V Hd HV) as [T1 T2]. split; [exact T1|]. split; [exact T2|].
    split; [apply decimal_fine; assumption|]. split; [now apply text_decimal|].
    pose proof (angle_near p 3600 _ (Qabs q) d V P3 ltac:(right; left; reflexivity) A Cl) as B. unfold text_value. destruct neg.
    + specialize (S1 eq_refl). rewrite (Qabs_neg q S1) in B. 
      assert (-1 * (inject_Z V / inject_Z (10 ^ Z.of_nat d)) - q == - (inject_Z V / inject_Z (10 ^ Z.of_nat d) - - q))%Q as -> by ring. rewrite Qabs_opp. exact B.
    + specialize (S2 eq_refl). rewrite (Qabs_pos q S2) in B. rewrite Qmult_1_l. exact B.
Qed.
(** * Times *)
Lemma day_numeric y m d k N : calendar y m d -> 1 <= k <= 6 -> (0 <= N < 10 ^ Z.of_nat k)%Z ->
  length (date_text y m d k N) = 17 /\ laid_out [(4, isdig); (1, one_of $" abcde"); (12, numeric)] (date_text y m d k N) /\ firstn 6 (skipn 11 (date_text y m d k N)) = padr 6 (num k N).
Proof.
  intros (Y & M & D) K H. pose proof (proj2 (month_days_le y m)) as MD.
  assert (length (dec y) = 4 /\ forallb isdig (dec y) = true) as [Ly Dy].
  { assert (dec y = num 4 y) as -> by (symmetry; apply (num_dec 3); change (10 ^ Z.of_nat 3)%Z with 1000%Z; change (10 ^ Z.of_nat 4)%Z with 10000%Z; lia). destruct (num_dig 4 y) as [A B]; [lia|change (10 ^ Z.of_nat 4)%Z with 10000%Z; lia|]. split; [exact B|exact A]. }
  destruct (num_dig 2 m) as [Dm Lm]; [lia|change (10 ^ Z.of_nat 2)%Z with 100%Z; lia|]. destruct (num_dig 2 d) as [Dd Ld]; [lia|change (10 ^ Z.of_nat 2)%Z with 100%Z; lia|]. destruct (num_dig k N) as [Dk Lk]; [lia|exact H|].
  assert (length (padr 6 (num k N)) = 6) as Lp by (unfold padr; rewrite app_length, spaces_length; lia).
  split. { unfold date_text. rewrite !app_length, Ly, Lm, Ld, Lp. reflexivity. }
  split.
  - unfold date_text. apply laid_cons; [exact Ly|exact Dy|]. apply laid_cons; [reflexivity|reflexivity|]. apply laid_one; [rewrite !app_length, Lm, Ld, Lp; reflexivity|].
    apply numeric_app; [now apply digs_numeric|]. apply numeric_app; [reflexivity|]. apply numeric_app; [now apply digs_numeric|]. apply numeric_app; [reflexivity|].
    apply numeric_app; [now apply digs_numeric|apply spaces_numeric].
  - unfold date_text. destruct (dec y) as [|? [|? [|? [|? [|? ?]]]]]; try discriminate Ly. destruct (num 2 m) as [|? [|? [|? ?]]]; try discriminate Lm. destruct (num 2 d) as [|? [|? [|? ?]]]; try discriminate Ld.
    cbn [app skipn]. change (skipn 11 _) with (padr 6 (num k N)). now apply firstn_all2; rewrite Lp.
Qed.

Lemma iso_fine y m d q f : calendar y m d -> (0 <= q < 86400)%Z -> forallb isdig f = true -> fine (iso_time y m d q f).
Proof.
  intros (Y & M & D) Q F. pose proof (proj2 (month_days_le y m)) as MD. unfold iso_time, iso_day_time.
  assert (forall n, (0 <= n < 100)%Z -> fine (num 2 n)) as N2 by (intros n Hn; apply (num_fine 2); [lia|exact Hn]).
  assert (0 <= q / 3600 < 100)%Z by (split; [apply Z.div_pos; lia|apply Z.div_lt_upper_bound; lia]).
  assert (0 <= q / 60 mod 60 < 60)%Z by (apply Z.mod_pos_bound; lia). assert (0 <= q mod 60 < 60)%Z by (apply Z.mod_pos_bound; lia).
  assert (0 <= q mod 3600 / 60 < 100)%Z by (assert (0 <= q mod 3600 < 3600)%Z by (apply Z.mod_pos_bound; lia); split; [apply Z.div_pos; lia|apply Z.div_lt_upper_bound; lia]).
  assert (forall a b c, (0 <= a < 100)%Z -> (0 <= b < 100)%Z -> fine c -> fine (num 2 a ++ $":" ++ num 2 b ++ $":" ++ c)) as Clock.
  { intros a b c Ha Hb Hc. apply fine_app; [now apply N2|]. apply fine_app; [reflexivity|]. apply fine_app; [now apply N2|]. apply fine_app; [reflexivity|exact Hc]. }
  apply fine_app. { apply fine_app; [apply dec_fine|]. apply fine_app; [reflexivity|]. apply fine_app; [apply N2; lia|]. apply fine_app; [reflexivity|]. apply fine_app; [apply N2; lia|]. apply fine_app; [reflexivity|]. apply Clock; [lia|lia|apply N2; lia]. }
  apply fine_app; [|reflexivity].
  destruct f as [|c f']; [reflexivity|]. apply fine_app; [reflexivity|]. now apply (fine_imp isdig); [exact dig_ok|].
Qed.
Lemma time_again k w s : In k [5; 6] -> shows_time k w s ->
  (length w = 17 /\ laid_out [(4, isdig); (1, one_of $" abcde"); (12, numeric)] w) /\
  (forall j, In j short_by_rounding -> firstn 6 (skipn 11 w) = num 6 (625 * j) -> checkDate w false = Err RuntimeError) /\
  ((forall j, In j short_by_rounding -> firstn 6 (skipn 11 w) <> num 6 (625 * j)) ->
   exists t, checkDate w false = Ok (t, PInt (10 ^ (6 - Z.of_nat k))) /\ strip t = t /\ t <> [] /\ fine t /\ near_time k s t).
Proof.
  intros Kk (y & m & d & sec & f & V & Es & C & Hs & HV & HA & Ew). pose proof (p10 k) as P0.
  assert (1 <= k <= 6) as K by (destruct Kk as [<-|[<-|[]]]; lia).
  set (N := if (V =? 10 ^ Z.of_nat k)%Z then 0%Z else V) in *.
  assert (0 <= N < 10 ^ Z.of_nat k)%Z as HN by (unfold N; destruct (Z.eqb_spec V (10 ^ Z.of_nat k)); lia).
  destruct (day_numeric y m d k N C K HN) as (L & La & Fr). rewrite <- Ew in L, La, Fr. split; [split; assumption|]. rewrite Fr.
  assert (forall j, In j short_by_rounding -> (0 <= 625 * j < 10 ^ Z.of_nat 6)%Z) as Hj.
  { intros j I. change (10 ^ Z.of_nat 6)%Z with 1000000%Z. assert (forallb (fun j => (0 <=? 625 * j) && (625 * j <? 1000000))%Z short_by_rounding = true) as A by (vm_compute; reflexivity).
    rewrite forallb_forall in A. specialize (A j I). apply andb_true_iff in A as [A B]. apply Z.leb_le in A. apply Z.ltb_lt in B. split; assumption. }
  assert (forall j, In j short_by_rounding -> padr 6 (num k N) = num 6 (625 * j) -> k = 6 /\ N = (625 * j)%Z) as J.
  { intros j I E. destruct Kk as [<-|[<-|[]]].
    - exfalso. destruct (num_dig 6 (625 * j)) as [D _]; [lia|now apply Hj|]. rewrite <- E in D. unfold padr in D. destruct (num_dig 5 N) as [_ L5]; [lia|exact HN|]. rewrite L5 in D. rewrite forallb_app in D. apply andb_true_iff in D as [_ D]. discriminate D.
    - split; [reflexivity|]. destruct (num_dig 6 N) as [_ L6]; [lia|exact HN|]. unfold padr in E. rewrite L6 in E. change (spaces (6 - 6)) with (@nil ascii) in E. rewrite app_nil_r in E. apply (num_inj 6); [lia|exact HN|now apply Hj|exact E]. }
  split.
  - intros j I E. destruct (J j I E) as [-> En]. rewrite Ew. destruct (C29_whole_seconds_refuted y m d 6 N j C K HN) as [_ R]; [rewrite En; apply Z.mul_1_r|exact I|]. exact R.
  - intro Q.
    set (n := (N * 10 ^ (6 - Z.of_nat k))%Z).
    assert (0 <= n < 1000000)%Z as Hn. { unfold n. destruct Kk as [<-|[<-|[]]]; [change (10 ^ (6 - Z.of_nat 5))%Z with 10%Z|change (10 ^ (6 - Z.of_nat 6))%Z with 1%Z]; [change (10 ^ Z.of_nat 5)%Z with 100000%Z in HN|change (10 ^ Z.of_nat 6)%Z with 1000000%Z in HN]; lia. }
    (* the moment that the columns show *)
    assert (forall q' f', (0 <= q' < 86400)%Z -> forallb isdig f' = true -> 3 <= length f' <= 4 ->
      (Z.abs (microseconds q' f' - 86400 * n) <= if Nat.eqb k 6 then 500 else 100000)%Z -> (n = 0%Z -> microseconds q' f' = 0%Z) -> near_time k s (iso_time y m d q' f')) as Near.
    { intros q' f' Hq Df Lf B Z0. exists y, m, d, sec, f, q', f'. split; [exact Es|]. split; [reflexivity|]. split; [exact C|]. split; [exact Hq|]. split; [exact Df|]. split; [exact Lf|]. cbv zeta.
      unfold N in n. destruct (Z.eqb_spec V (10 ^ Z.of_nat k)) as [EV|NV].
      - right. split; [apply Z0; reflexivity|]. rewrite EV in HA.
        destruct Kk as [<-|[<-|[]]]; [change (10 ^ Z.of_nat 5)%Z with 100000%Z in HA; change (10 ^ (6 - Z.of_nat 5))%Z with 10%Z|change (10 ^ Z.of_nat 6)%Z with 1000000%Z in HA; change (10 ^ (6 - Z.of_nat 6))%Z with 1%Z]; lia.
      - left. unfold n in B. destruct Kk as [<-|[<-|[]]];
          [change (10 ^ Z.of_nat 5)%Z with 100000%Z in HA; change (10 ^ (6 - Z.of_nat 5))%Z with 10%Z in *; cbn [Nat.eqb] in *|change (10 ^ Z.of_nat 6)%Z with 1000000%Z in HA; change (10 ^ (6 - Z.of_nat 6))%Z with 1%Z in *; change (Nat.eqb 6 6) with true in *; cbv iota in *]; lia. }
    assert (forall q' f', (0 <= q' < 86400)%Z -> forallb isdig f' = true -> 3 <= length f' <= 4 -> checkDate w false = Ok (iso_time y m d q' f', PInt (10 ^ (6 - Z.of_nat k))) ->
      (Z.abs (microseconds q' f' - 86400 * n) <= if Nat.eqb k 6 then 500 else 100000)%Z -> (n = 0%Z -> microseconds q' f' = 0%Z) ->
      exists t, checkDate w false = Ok (t, PInt (10 ^ (6 - Z.of_nat k))) /\ strip t = t /\ t <> [] /\ fine t /\ near_time k s t) as Fin.
    { intros q' f' Hq Df Lf E B Z0. exists (iso_time y m d q' f'). split; [exact E|]. destruct (date_back w false _ _ L E) as [[T1 T2] _]. split; [exact T1|]. split; [exact T2|].
      split; [now apply iso_fine|]. now apply Near. }
    destruct (in_dec Z.eq_dec n (map (Z.mul 625) short_by_rounding)) as [I|I].
    + apply in_map_iff in I as (j & Ej & I). assert (k = 5) as ->.
      { destruct Kk as [<-|[<-|[]]]; [reflexivity|]. exfalso. apply (Q j I). unfold n in Ej. change (10 ^ (6 - Z.of_nat 6))%Z with 1%Z in Ej. rewrite Z.mul_1_r in Ej. rewrite Ej. destruct (num_dig 6 N) as [_ L6]; [lia|exact HN|]. unfold padr. rewrite L6. apply app_nil_r. }
      destruct (C29_whole_seconds_refuted y m d 5 N j C K HN (eq_sym Ej) I) as [_ R]. rewrite <- Ew in R. cbn [Nat.eqb] in R. specialize (Hj j I). change (10 ^ Z.of_nat 6)%Z with 1000000%Z in Hj.
      apply (Fin (54 * j)%Z $"1000"); [lia|reflexivity|cbn; lia|exact R| |].
      * unfold microseconds. change (decval $"1000" * 10 ^ (6 - Z.of_nat (length $"1000")))%Z with 100000%Z. cbn [Nat.eqb]. lia.
      * intro Z0. exfalso. assert (j = 0%Z) by lia. subst j. revert I. clear. intro I. repeat (destruct I as [I|I]; [discriminate I|]). exact I.
    + destruct (C29_round_trip y m d k N C K HN I) as [R _]. rewrite <- Ew in R. fold n in R.
      set (q' := (864 * n / 10000)%Z) in *. set (u := (864 * n mod 10000)%Z) in *.
      assert (0 <= u < 10000)%Z as Hu by (apply Z.mod_pos_bound; lia). pose proof (Z.div_mod (864 * n) 10000 ltac:(lia)) as DM. fold q' u in DM.
      assert (16 * (u / 16) = u)%Z as U16. { unfold u. assert ((864 * n) mod 10000 = 16 * ((54 * n) mod 625))%Z as -> by (rewrite <- (Z.mul_mod_distr_l _ _ 16) by lia; f_equal; lia). rewrite Z.mul_comm at 1. rewrite (Z.mul_comm 16), Z.div_mul by lia. lia. }
      assert (u <= 9984)%Z as Hu2. { assert (u / 16 < 625)%Z by (apply Z.div_lt_upper_bound; lia). lia. }
      assert (0 <= (u + 5) / 10 < 1000)%Z as Hv by (split; [apply Z.div_pos; lia|apply Z.div_lt_upper_bound; lia]).
      pose proof (Z.div_mod (u + 5) 10 ltac:(lia)) as DM2. pose proof (Z.mod_pos_bound (u + 5) 10 ltac:(lia)) as MB2.
      destruct (num_spec 3 ((u + 5) / 10)) as (S1 & S2 & S3); [lia|exact Hv|].
      assert (microseconds q' (num 3 ((u + 5) / 10)) = q' * 1000000 + (u + 5) / 10 * 1000)%Z as Ms. { unfold microseconds. rewrite S1, S3. reflexivity. }
      apply (Fin q' (num 3 ((u + 5) / 10))); [unfold q'; split; [apply Z.div_pos; lia|apply Z.div_lt_upper_bound; lia]|exact S2|rewrite S1; lia| | |].
      * unfold iso_time. destruct (num 3 ((u + 5) / 10)) as [|c f'] eqn:En; [discriminate S1|]. rewrite <- app_assoc. exact R.
      * rewrite Ms. destruct (Nat.eqb k 6); lia.
      * intro Z0. rewrite Ms. unfold q', u. rewrite Z0. reflexivity.
Qed.
