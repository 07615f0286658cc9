(** C01, C13, C14: base 62, program codes, references; satellites of asteroids (C07). *)
From Verif Require Import PyStr PyRe PyStrProofs PyReProofs PackUtil PackSpec PackProofs PackProofs2 PackProofs4 PackProofs5 PyReInv PackProofs6 PackProofs8.

(** ** C01 *)
Lemma c01_word n : exists w x y z a b c d, radix62_4 n = ["~"%char; w; x; y; z] /\
  digit62 w = Some a /\ digit62 x = Some b /\ digit62 y = Some c /\ digit62 z = Some d /\
  ((a * 62 + b) * 62 + c) * 62 + d = n mod 62 ^ 4.
Proof.
  rewrite radix62_4_eq. do 8 eexists. split; [reflexivity|].
  do 4 (split; [apply letter_digit62, mod62|]). apply val62_digits.
Qed.
Lemma c01_read w x y z a b c d :
  digit62 w = Some a -> digit62 x = Some b -> digit62 y = Some c -> digit62 z = Some d ->
  unRadix62_4 ["~"%char; w; x; y; z] = Ok (((a * 62 + b) * 62 + c) * 62 + d) /\
  radix62_4 (((a * 62 + b) * 62 + c) * 62 + d) = ["~"%char; w; x; y; z].
Proof.
  intros A B C D. split; [now apply unRadix_digits|].
  pose proof (digit62_range _ _ A). pose proof (digit62_range _ _ B).
  pose proof (digit62_range _ _ C). pose proof (digit62_range _ _ D).
  pose proof (radix_val62 a b c d) as R. unfold val62 in R. rewrite R by assumption.
  now rewrite <- (digit62_letter _ _ A), <- (digit62_letter _ _ B), <- (digit62_letter _ _ C), <- (digit62_letter _ _ D).
Qed.
Lemma c01_inv n : 0 <= n < 62 ^ 4 -> unRadix62_4 (radix62_4 n) = Ok n.
Proof. intro. rewrite unRadix_radix. now rewrite Z.mod_small. Qed.
Lemma unRadix_bad s : unRadix62_4 s = Err KeyError \/ unRadix62_4 s = Err IndexError \/
  exists p w x y z t a b c d, s = p :: w :: x :: y :: z :: t /\ digit62 w = Some a /\ digit62 x = Some b /\ digit62 y = Some c /\ digit62 z = Some d.
Proof.
  unfold unRadix62_4, chat.
  destruct s as [|p s]; [right; left; reflexivity|].
  destruct s as [|w s]; [right; left; reflexivity|]. cbn [nth_error rbind].
  destruct (digit62 w) as [a|] eqn:A; [rewrite (unpackLetter_digit62 _ _ A)|rewrite (unpackLetter_none _ A); left; reflexivity].
  destruct s as [|x s]; [right; left; reflexivity|]. cbn [nth_error rbind].
  destruct (digit62 x) as [b|] eqn:B; [rewrite (unpackLetter_digit62 _ _ B)|rewrite (unpackLetter_none _ B); left; reflexivity].
  destruct s as [|y s]; [right; left; reflexivity|]. cbn [nth_error rbind].
  destruct (digit62 y) as [c|] eqn:C; [rewrite (unpackLetter_digit62 _ _ C)|rewrite (unpackLetter_none _ C); left; reflexivity].
  destruct s as [|z s]; [right; left; reflexivity|]. cbn [nth_error rbind].
  destruct (digit62 z) as [d|] eqn:D; [rewrite (unpackLetter_digit62 _ _ D)|rewrite (unpackLetter_none _ D); left; reflexivity].
  right. right. repeat eexists; eassumption.
Qed.

(** ** C07: satellites of minor planets *)
Lemma c07_astsat s prov trk : packTupleID (Some ("("%char :: s), prov, trk) = Err RuntimeError.
Proof.
  apply pack_perm_err. cbn [pack_perm].
  assert (forall st, perm_minor ("("%char :: s) st = Ok st) as ->. { intro. unfold perm_minor. now rewrite (eq_refl : re_match minorplanetPermIDRegex ("("%char :: s) = None). }
  assert (forall st, perm_comet ("("%char :: s) st = Ok st) as E. { intro. unfold perm_comet. now rewrite (eq_refl : re_match cometPermIDRegex ("("%char :: s) = None). }
  cbn [rbind]. rewrite E.
  assert (forall st, perm_cometfrag ("("%char :: s) st = Ok st) as E2. { intro. unfold perm_cometfrag. now rewrite (eq_refl : re_match cometfragmentPermIDRegex ("("%char :: s) = None). }
  cbn [rbind]. rewrite E2.
  assert (forall st, perm_sat ("("%char :: s) st = Ok st) as E3. { intro. unfold perm_sat. now rewrite (eq_refl : re_match satellitePermIDRegex ("("%char :: s) = None). }
  cbn [rbind]. rewrite E3. cbn [rbind]. unfold perm_astsat. destruct re_match; reflexivity.
Qed.

Lemma sfind1 c s : sfind [c] s = cfind c s.
Proof.
  induction s as [|x s IH]; cbn; [reflexivity|]. rewrite IH. unfold ceqb. rewrite (Ascii.eqb_sym c x).
  destruct (Ascii.eqb x c); reflexivity.
Qed.
Lemma c13_pack_unpack c p : packProgID [c] = Ok p -> length p = 2%nat /\ unpackProgID p = Ok [c].
Proof.
  assert (forall c, match packProgID [c] with
     | Ok p => Nat.eqb (length p) 2 && match unpackProgID p with Ok [d] => ceqb d c | _ => false end
     | Err _ => true end = true) as S by (apply forall_ascii; vm_compute; reflexivity).
  intro H. specialize (S c). rewrite H in S. apply andb_prop in S as [S1 S2].
  split; [now apply Nat.eqb_eq|]. destruct (unpackProgID p) as [[|d [|]]|]; try discriminate. now apply ceqb_eq in S2 as ->.
Qed.
Lemma c13_domain c : (exists p, packProgID [c] = Ok p) <-> prog_ok c = true.
Proof.
  assert (forall c, match packProgID [c] with Ok _ => prog_ok c | Err RuntimeError => negb (prog_ok c) | _ => false end = true) as S
    by (apply forall_ascii; vm_compute; reflexivity).
  specialize (S c). destruct (packProgID [c]) as [p|e].
  - split; eauto.
  - split; [intros [? ?]; discriminate|]. intro H. rewrite H in S. destruct e; discriminate.
Qed.
Lemma c13_reject c : prog_ok c = false -> packProgID [c] = Err RuntimeError.
Proof.
  assert (forall c, match packProgID [c] with Ok _ => prog_ok c | Err RuntimeError => negb (prog_ok c) | _ => false end = true) as S
    by (apply forall_ascii; vm_compute; reflexivity).
  specialize (S c). intro H. rewrite H in S. destruct (packProgID [c]) as [p|[]]; try discriminate. reflexivity.
Qed.
Lemma c13_inj a b p : packProgID [a] = Ok p -> packProgID [b] = Ok p -> a = b.
Proof. intros A B. apply c13_pack_unpack in A as [_ A], B as [_ B]. congruence. Qed.
Lemma index_prog k : 0 <= k <= 93 -> exists c, pyindex programCodesArray k = Ok c.
Proof.
  intro H. unfold pyindex. destruct (Z.ltb_spec k 0); [lia|]. destruct (Z.ltb_spec k 0); [lia|].
  destruct (nth_error programCodesArray (Z.to_nat k)) eqn:E; [eauto|].
  apply nth_error_None in E. change (length programCodesArray) with 94%nat in E. lia.
Qed.
Lemma c13_unpack_pack a b u v c : digit62 a = Some u -> digit62 b = Some v -> 62 * u + v <= 93 ->
  unpackProgID [a; b] = Ok [c] -> packProgID [c] = Ok [a; b].
Proof.
  intros A B H E.
  assert (forall b, match digit62 b with Some v => forallb (fun a => match digit62 a with Some u => implb (62 * u + v <=? 93)
     match unpackProgID [a; b] with Ok [c] => match packProgID [c] with Ok [x; y] => ceqb x a && ceqb y b | _ => false end | _ => false end
     | None => true end) ["0"; "1"]%char | None => true end = true) as S by (apply forall_ascii; vm_compute; reflexivity).
  specialize (S b). rewrite B in S.
  assert (u = 0 \/ u = 1) as U. { pose proof (digit62_range _ _ A). pose proof (digit62_range _ _ B). lia. }
  assert (In a ["0"; "1"]%char) as I.
  { apply digit62_letter in A. destruct U as [-> | ->]; [left|right; left]; rewrite A; reflexivity. }
  rewrite forallb_forall in S. specialize (S a I). rewrite A, E in S.
  apply Z.leb_le in H. rewrite H in S. cbn [implb] in S.
  destruct (packProgID [c]) as [[|x [|y [|]]]|]; try discriminate. apply andb_prop in S as [S1 S2].
  apply ceqb_eq in S1 as ->. now apply ceqb_eq in S2 as ->.
Qed.
Lemma c13_blank a b t u v : digit62 a = Some u -> digit62 b = Some v -> 93 < 62 * u + v -> unpackProgID (a :: b :: t) = Ok $" ".
Proof.
  intros A B H. unfold unpackProgID, chat. cbn [nth_error rbind].
  rewrite (unpackLetter_digit62 _ _ A), (unpackLetter_digit62 _ _ B). cbn [rbind].
  destruct (Z.leb_spec (v + 62 * u) 93); [lia|reflexivity].
Qed.
Lemma c13_bad s : match s with a :: b :: _ => digit62 a = None \/ digit62 b = None | _ => True end -> unpackProgID s = Err RuntimeError.
Proof.
  intro H. unfold unpackProgID, chat. destruct s as [|a [|b s]]; [reflexivity|reflexivity|]. cbn [nth_error rbind].
  destruct (digit62 b) as [v|] eqn:B; [rewrite (unpackLetter_digit62 _ _ B)|now rewrite (unpackLetter_none _ B)].
  destruct H as [A|A]; [|discriminate]. cbn [rbind]. now rewrite (unpackLetter_none _ A).
Qed.
Lemma c13_total s e : unpackProgID s = Err e -> e = RuntimeError.
Proof. unfold unpackProgID. destruct (do c1 <- _; _); intro H; congruence. Qed.

(** ** C14 *)

Lemma split_word w : forall s cur, forallb (fun c => negb (pyspace c)) w = true ->
  split_ws_aux (w ++ s) cur = split_ws_aux s (rev w ++ cur).
Proof.
  induction w as [|c w IH]; intros s cur H; [reflexivity|]. cbn in H. apply andb_prop in H as [H1 H2].
  cbn [app split_ws_aux]. apply negb_true_iff in H1. rewrite H1, IH by assumption. cbn [rev]. now rewrite <- app_assoc.
Qed.
Lemma split_space sp : forall s, forallb pyspace sp = true -> split_ws_aux (sp ++ s) [] = split_ws_aux s [].
Proof. induction sp as [|c sp IH]; intros s H; [reflexivity|]. cbn in H |- *. apply andb_prop in H as [-> H]. now apply IH. Qed.
Lemma split_two pub sp w : forallb (fun c => negb (pyspace c)) pub = true -> pub <> [] -> sp <> [] -> forallb pyspace sp = true ->
  forallb (fun c => negb (pyspace c)) w = true -> w <> [] -> split_ws (pub ++ sp ++ w) = [pub; w].
Proof.
  intros P Pn Sn S W Wn. unfold split_ws. rewrite split_word by assumption. rewrite app_nil_r.
  destruct sp as [|x sp]; [congruence|]. cbn in S. apply andb_prop in S as [Sx S]. cbn [app split_ws_aux]. rewrite Sx.
  destruct (rev pub) as [|y r] eqn:R. { apply (f_equal (@rev _)) in R. rewrite rev_involutive in R. elim Pn. exact R. }
  rewrite <- R, rev_involutive. f_equal. rewrite split_space by assumption.
  rewrite <- (app_nil_r w) at 1. rewrite split_word by assumption. rewrite app_nil_r. cbn.
  destruct (rev w) as [|y' r'] eqn:R'. { apply (f_equal (@rev _)) in R'. rewrite rev_involutive in R'. elim Wn. exact R'. }
  now rewrite <- R', rev_involutive.
Qed.
Lemma dig_nospaces w : alldig w = true -> forallb (fun c => negb (pyspace c)) w = true.
Proof.
  intro H. apply forallb_forall. intros c I. unfold alldig in H. rewrite forallb_forall in H.
  now rewrite (isdig_nospace c (H c I)).
Qed.
Lemma ref_num_names pub n ref : (pub = $"MPC" \/ pub = $"MPS") -> 0 <= n -> names_ref pub n ref ->
  ref_num ref = Ok n /\ slice 0 3 ref = pub.
Proof.
  intros P N (sp & Sn & S & ->). split.
  - unfold ref_num. rewrite split_two; auto using dig_nospaces, dec_alldig, dec_ne.
    + cbn [nth_error]. now apply py_int_dec.
    + destruct P as [-> | ->]; reflexivity.
    + destruct P as [-> | ->]; discriminate.
  - destruct P as [-> | ->]; reflexivity.
Qed.

(** the number that the packed form of MPC n / MPS n stands for *)
Definition mpc_back (n : Z) : Z :=
  if n <? 110000 then n
  else if n <? 190000 then 100000 + n mod 10000
  else if n <? 200000 then n - 190000
  else 110000 + (n - 110000) mod 62 ^ 4.
Definition mps_back (n : Z) : Z :=
  if n <? 259999 then n else 260000 + (n - 260000) mod 62 ^ 4.

Lemma slice03 a b c t : slice 0 3 (a :: b :: c :: t) = [a; b; c]. Proof. reflexivity. Qed.
Lemma pad_keep w : length w = 5%nat -> padr 5 (lastn 5 w) = w.
Proof. destruct w as [|a[|b[|c[|d[|e[|]]]]]]; try discriminate. reflexivity. Qed.
Lemma dig_in c : isdig c = true -> cmem c $"0123456789" = true.
Proof. revert c. apply (impl_ascii isdig (fun c => cmem c $"0123456789")). vm_compute. reflexivity. Qed.
Lemma names_pub2 pub n : names_ref pub n (pub ++ $"  " ++ dec n).
Proof. exists $"  ". repeat split. discriminate. Qed.
Lemma unpack_five w : alldig w = true -> length w = 5%nat -> unpackRef w = Ok ($"MPC  " ++ dec (decval w)).
Proof.
  intros D L. destruct w as [|c w]; [discriminate|]. cbn [unpackRef].
  pose proof D as D'. apply alldig_cons in D' as [D1 D2]. rewrite (dig_in c D1).
  rewrite py_int_digits by (auto; discriminate). reflexivity.
Qed.
Lemma pad5 n : 0 <= n < 100000 -> exists w, dec (n + 100000) = "1"%char :: w /\ length w = 5%nat /\ alldig w = true /\ decval w = n.
Proof. intro. apply (pad_digits 5). cbn. lia. Qed.
Lemma pad4 n : 0 <= n < 10000 -> exists w, dec (n + 10000) = "1"%char :: w /\ length w = 4%nat /\ alldig w = true /\ decval w = n.
Proof. intro. apply (pad_digits 4). cbn. lia. Qed.

Lemma mpc_pack n ref : 0 <= n -> names_ref $"MPC" n ref ->
  packRef ref = Ok (padr 5 (lastn 5 (if n <? 100000 then from 1 (dec (n + 100000))
       else if n <? 200000 then $"@" ++ from 1 (dec (n - 100000 + 10000)) else $"#" ++ from 1 (radix62_4 (n - 110000))))).
Proof.
  intros N R. apply ref_num_names in R as [R1 R2]; auto. unfold packRef. rewrite R2. cbn [streqb]. change (streqb $"MPC" $"MPC") with true.
  cbn [rbind]. rewrite R1. cbn [rbind].
  destruct (n <? 100000); [reflexivity|]. destruct (n <? 200000); reflexivity.
Qed.
Lemma five_digits_mid n : 10000 <= n < 100000 -> exists c w, dec n = c :: w /\ length w = 4%nat /\ alldig w = true /\ decval w = n mod 10000.
Proof.
  intro H. pose proof (dec_length n 4 ltac:(cbn; lia)) as L. pose proof (dec_alldig n ltac:(lia)) as D.
  pose proof (dec_val n ltac:(lia)) as V. destruct (dec n) as [|c w]; [discriminate|]. exists c, w.
  cbn in L. apply alldig_cons in D as [D1 D2]. assert (length w = 4%nat) as L4 by lia. repeat split; auto.
  rewrite decval_cons, L4 in V. change (10 ^ Z.of_nat 4) with 10000 in V. pose proof (decval_bound w D2) as B. rewrite L4 in B.
  change (10 ^ Z.of_nat 4) with 10000 in B.
  rewrite <- V. rewrite Z.add_comm, Z.mod_add by lia. now rewrite Z.mod_small.
Qed.
Lemma c14_mpc n ref : 0 <= n -> names_ref $"MPC" n ref ->
  exists p ref', packRef ref = Ok p /\ length p = 5%nat /\ unpackRef p = Ok ref' /\ names_ref $"MPC" (mpc_back n) ref'.
Proof.
  intros N R. rewrite (mpc_pack n ref N R). unfold mpc_back. clear R ref.
  destruct (Z.ltb_spec n 100000).
  { destruct (pad5 n ltac:(lia)) as (w & -> & L & D & V). exists w. eexists. cbn [from skipn]. rewrite pad_keep by assumption.
    split; [reflexivity|]. split; [assumption|]. split; [now apply unpack_five|].
    rewrite V. destruct (Z.ltb_spec n 110000); [|lia]. apply names_pub2. }
  assert (forall w, length w = 4%nat -> alldig w = true -> unpackRef ("@"%char :: w) = Ok ($"MPC  " ++ dec (100000 + decval w))) as UA.
  { intros w L D. cbn [unpackRef]. change (cmem "@" $"0123456789") with false. change (ceqb "@" "@") with true. cbn iota.
    rewrite py_int_digits; [reflexivity|assumption|intros ->; discriminate]. }
  destruct (Z.ltb_spec n 200000).
  { destruct (Z.ltb_spec n 110000).
    { destruct (pad4 (n - 100000) ltac:(lia)) as (w & -> & L & D & V). exists ("@"%char :: w). eexists. cbn [from skipn app lit list_ascii_of_string].
      rewrite pad_keep by (cbn; lia). split; [reflexivity|]. split; [cbn; lia|]. split; [now apply UA|].
      rewrite V. replace (100000 + (n - 100000)) with n by lia. apply names_pub2. }
    destruct (Z.ltb_spec n 190000).
    { destruct (five_digits_mid (n - 100000 + 10000) ltac:(lia)) as (c & w & -> & L & D & V). exists ("@"%char :: w). eexists.
      cbn [from skipn app lit list_ascii_of_string]. rewrite pad_keep by (cbn; lia). split; [reflexivity|]. split; [cbn; lia|].
      split; [now apply UA|]. rewrite V. replace ((n - 100000 + 10000) mod 10000) with (n mod 10000).
      2: { replace (n - 100000 + 10000) with (n + (-9) * 10000) by lia. now rewrite Z.mod_add. }
      apply names_pub2. }
    destruct (pad5 (n - 190000) ltac:(lia)) as (w & E & L & D & V). replace (n - 100000 + 10000) with (n - 190000 + 100000) by lia.
    rewrite E. exists w. eexists. cbn [from skipn]. 
    assert (lastn 5 ($"@" ++ w) = w) as ->. { destruct w as [|a[|b[|c[|d[|e[|]]]]]]; try discriminate. reflexivity. }
    rewrite <- (pad_keep w L) at 2. assert (lastn 5 w = w) as EL. { destruct w as [|a[|b[|c[|d[|e[|]]]]]]; try discriminate. reflexivity. }
    rewrite EL. split; [reflexivity|]. split; [assumption|]. split; [now apply unpack_five|]. rewrite V. apply names_pub2. }
  destruct (Z.ltb_spec n 110000); [lia|]. destruct (Z.ltb_spec n 190000); [lia|].
  destruct (c01_word (n - 110000)) as (w & x & y & z & a & b & c & d & E & A & B & C & D & V). rewrite E.
  exists ["#"%char; w; x; y; z]. eexists. split; [reflexivity|]. split; [reflexivity|]. split.
  - cbn [unpackRef]. change (cmem "#" $"0123456789") with false. change (ceqb "#" "@") with false. change (ceqb "#" "#") with true. cbn iota.
    rewrite (unRadix_digits _ _ _ _ _ _ _ _ _ A B C D). cbn [rbind]. reflexivity.
  - unfold val62. rewrite V. apply names_pub2.
Qed.
Lemma mps_pack n ref : 0 <= n -> names_ref $"MPS" n ref ->
  packRef ref = (do w <- (if n <? 259999 then do c <- pyindex smalls (Z.quot n 10000); Ok ([c] ++ from 1 (dec (n mod 10000 + 10000)))
       else Ok (radix62_4 (n - 260000))); Ok (padr 5 (lastn 5 w))).
Proof.
  intros N R. apply ref_num_names in R as [R1 R2]; auto. unfold packRef. rewrite R2. change (streqb $"MPS" $"MPC") with false.
  change (streqb $"MPS" $"MPS") with true. cbn [rbind]. rewrite R1. cbn [rbind]. reflexivity.
Qed.
Lemma small_index k : 0 <= k < 26 -> exists c, pyindex smalls k = Ok c /\ cfind c smalls = Some (Z.to_nat k) /\
  cmem c $"0123456789" = false /\ ceqb c "@" = false /\ ceqb c "#" = false.
Proof.
  intro H. 
  assert (forallb (fun j => match pyindex smalls (Z.of_nat j) with Ok c => 
     match cfind c smalls with Some i => Nat.eqb i j | None => false end && negb (cmem c $"0123456789") && negb (ceqb c "@") && negb (ceqb c "#")
     | Err _ => false end) (seq 0 26) = true) as S by (vm_compute; reflexivity).
  rewrite forallb_forall in S. specialize (S (Z.to_nat k) ltac:(apply in_seq; lia)). rewrite Z2Nat.id in S by lia.
  destruct (pyindex smalls k) as [c|]; [|discriminate]. exists c. split; [reflexivity|].
  apply andb_prop in S as [S S4]. apply andb_prop in S as [S S3]. apply andb_prop in S as [S1 S2].
  destruct (cfind c smalls); [|discriminate]. apply Nat.eqb_eq in S1 as ->.
  apply negb_true_iff in S2, S3, S4. auto.
Qed.
Lemma c14_mps n ref : 0 <= n -> names_ref $"MPS" n ref ->
  exists p ref', packRef ref = Ok p /\ length p = 5%nat /\ unpackRef p = Ok ref' /\ names_ref $"MPS" (mps_back n) ref'.
Proof.
  intros N R. rewrite (mps_pack n ref N R). unfold mps_back. clear R ref.
  destruct (Z.ltb_spec n 259999).
  - assert (0 <= n / 10000 < 26) as Q. { split; [apply Z.div_pos; lia|]. apply Z.div_lt_upper_bound; lia. }
    rewrite Z.quot_div_nonneg by lia. destruct (small_index (n / 10000) Q) as (c & -> & F & N1 & N2 & N3).
    cbn [rbind]. destruct (pad4 (n mod 10000) ltac:(apply Z.mod_pos_bound; lia)) as (w & -> & L & D & V).
    exists (c :: w). eexists. cbn [from skipn app]. rewrite pad_keep by (cbn; lia). split; [reflexivity|]. split; [cbn; lia|].
    split.
    + cbn [unpackRef]. rewrite N1, N2, N3, F. rewrite py_int_digits; [|assumption|intros ->; discriminate]. cbn [rbind]. reflexivity.
    + rewrite V, Z2Nat.id by lia. replace (n mod 10000 + 10000 * (n / 10000)) with n by (pose proof (Z.div_mod n 10000); lia). apply names_pub2.
  - cbn [rbind]. destruct (c01_word (n - 260000)) as (w & x & y & z & a & b & c & d & E & A & B & C & D & V). rewrite E.
    exists ["~"%char; w; x; y; z]. eexists. split; [reflexivity|]. split; [reflexivity|]. split.
    + cbn [unpackRef]. change (cmem "~" $"0123456789") with false. change (ceqb "~" "@") with false. change (ceqb "~" "#") with false.
      change (cfind "~" smalls) with (@None nat). change (ceqb "~" "~") with true. cbn iota.
      rewrite (unRadix_digits _ _ _ _ _ _ _ _ _ A B C D). cbn [rbind]. reflexivity.
    + unfold val62. rewrite V. apply names_pub2.
Qed.
Lemma mpc_back_id n : 0 <= n -> (mpc_back n = n <-> (n < 110000 \/ 200000 <= n < 110000 + 62 ^ 4)).
Proof.
  intro N. unfold mpc_back. change (62 ^ 4) with 14776336.
  destruct (Z.ltb_spec n 110000); [intuition|]. destruct (Z.ltb_spec n 190000).
  { pose proof (Z.mod_pos_bound n 10000 ltac:(lia)). lia. }
  destruct (Z.ltb_spec n 200000); [lia|].
  pose proof (Z.mod_pos_bound (n - 110000) 14776336 ltac:(lia)). split; intro K.
  - right. lia.
  - rewrite Z.mod_small by lia. lia.
Qed.
Lemma mps_back_id n : 0 <= n -> (mps_back n = n <-> (n < 259999 \/ 260000 <= n < 260000 + 62 ^ 4)).
Proof.
  intro N. unfold mps_back. change (62 ^ 4) with 14776336.
  destruct (Z.ltb_spec n 259999); [intuition|].
  pose proof (Z.mod_pos_bound (n - 260000) 14776336 ltac:(lia)). split; intro K.
  - right. lia.
  - rewrite Z.mod_small by lia. lia.
Qed.

Lemma alnum62 c : isalnum c = true -> exists d, digit62 c = Some d.
Proof.
  intro H. assert (forall c, implb (isalnum c) (match digit62 c with Some _ => true | None => false end) = true) as S
    by (apply forall_ascii; vm_compute; reflexivity).
  specialize (S c). rewrite H in S. destruct (digit62 c); [eauto|discriminate].
Qed.
Lemma lower_index c : islower c = true -> exists k, cfind c smalls = Some (Z.to_nat k) /\ 0 <= k < 26 /\ pyindex smalls k = Ok c /\
  cmem c $"0123456789" = false /\ ceqb c "@" = false /\ ceqb c "#" = false.
Proof.
  intro H. assert (forall c, implb (islower c) (match cfind c smalls with Some n => Nat.ltb n 26 &&
      match pyindex smalls (Z.of_nat n) with Ok x => ceqb x c | _ => false end | None => false end && 
      negb (cmem c $"0123456789") && negb (ceqb c "@") && negb (ceqb c "#")) = true) as S
    by (apply forall_ascii; vm_compute; reflexivity).
  specialize (S c). rewrite H in S. cbn [implb] in S.
  apply andb_prop in S as [S S4]. apply andb_prop in S as [S S3]. apply andb_prop in S as [S1 S2].
  destruct (cfind c smalls) as [n|]; [|discriminate]. apply andb_prop in S1 as [S1 S5]. apply Nat.ltb_lt in S1.
  exists (Z.of_nat n). rewrite Nat2Z.id. destruct (pyindex smalls (Z.of_nat n)) as [x|]; [|discriminate]. apply ceqb_eq in S5 as ->.
  apply negb_true_iff in S2, S3, S4. repeat split; auto; lia.
Qed.
Lemma names2_mpc n : names_ref $"MPC" n ($"MPC  " ++ dec n). Proof. exists $"  ". repeat split. discriminate. Qed.
Lemma names2_mps n : names_ref $"MPS" n ($"MPS  " ++ dec n). Proof. exists $"  ". repeat split. discriminate. Qed.
Lemma zpad_same k w n : alldig w = true -> length w = k -> decval w = n -> dec (n + 10 ^ Z.of_nat k) = "1"%char :: w.
Proof.
  intros D L V. pose proof (decval_bound w D) as B. rewrite L, V in B. destruct (pad_digits k n B) as (w' & E & L' & D' & V').
  rewrite E. f_equal. apply decval_inj; auto; congruence.
Qed.
Lemma okeq5 (a b : str) P : a = b -> P = false -> (Ok a = Ok b <-> P = false). Proof. intros -> ->. tauto. Qed.
Lemma c14_back p : packed_ref p = true ->
  exists ref, unpackRef p = Ok ref /\ (packRef ref = Ok p <-> ref_lossy p = false).
Proof.
  destruct p as [|a[|b[|c[|d[|e[|]]]]]]; try discriminate. intro H. unfold packed_ref in H.
  apply orb_prop in H as [H|H]; [apply orb_prop in H as [H|H]|]; rewrite !andb_true_iff in H; destruct H as [[[[H H3] H2] H1] H0].
  - (* digits *)
    assert (alldig [a; b; c; d; e] = true) as D by (unfold alldig; cbn [forallb]; rewrite H, H0, H1, H2, H3; reflexivity).
    eexists. split; [now apply unpack_five|].
    pose proof (decval_bound _ D) as B. change (10 ^ Z.of_nat (length [a;b;c;d;e])) with 100000 in B.
    rewrite (mpc_pack (decval [a;b;c;d;e])) by (try apply names2_mpc; lia).
    destruct (Z.ltb_spec (decval [a;b;c;d;e]) 100000); [|lia].
    pose proof (zpad_same 5 [a;b;c;d;e] _ D eq_refl eq_refl) as E. change (10 ^ Z.of_nat 5) with 100000 in E. rewrite E.
    apply okeq5; [reflexivity|]. unfold ref_lossy. 
    assert (ceqb a "#" = false) as ->. { revert H. apply (implf_ascii isdig (fun a => ceqb a "#")). vm_compute. reflexivity. }
    cbn [andb orb]. apply streqb_neq. intro X. injection X as -> _. discriminate H.
  - (* @dddd, letter dddd *)
    assert (alldig [b; c; d; e] = true) as D by (unfold alldig; cbn [forallb]; rewrite H0, H1, H2, H3; reflexivity).
    pose proof (decval_bound _ D) as B. change (10 ^ Z.of_nat (length [b;c;d;e])) with 10000 in B.
    pose proof (zpad_same 4 [b;c;d;e] _ D eq_refl eq_refl) as E. change (10 ^ Z.of_nat 4) with 10000 in E.
    apply orb_prop in H as [H|H].
    + apply ceqb_eq in H as ->. eexists. split.
      { cbn [unpackRef]. change (cmem "@" $"0123456789") with false. change (ceqb "@" "@") with true. cbn iota.
        rewrite py_int_digits by (auto; discriminate). cbn [rbind]. reflexivity. }
      rewrite (mpc_pack (100000 + decval [b;c;d;e])) by (try apply names2_mpc; lia).
      destruct (Z.ltb_spec (100000 + decval [b;c;d;e]) 100000); [lia|]. destruct (Z.ltb_spec (100000 + decval [b;c;d;e]) 200000); [|lia].
      replace (100000 + decval [b; c; d; e] - 100000 + 10000) with (decval [b;c;d;e] + 10000) by lia. rewrite E.
      apply okeq5; reflexivity.
    + destruct (lower_index a H) as (k & F & K & P & N1 & N2 & N3). eexists. split.
      { cbn [unpackRef]. rewrite N1, N2, N3, F. rewrite py_int_digits by (auto; discriminate). cbn [rbind]. reflexivity. }
      rewrite Z2Nat.id by lia.
      rewrite (mps_pack (decval [b;c;d;e] + 10000 * k)) by (try apply names2_mps; lia).
      unfold ref_lossy. rewrite N3. cbn [andb orb].
      destruct (Z.ltb_spec (decval [b;c;d;e] + 10000 * k) 259999).
      * rewrite Z.quot_div_nonneg by lia. replace ((decval [b; c; d; e] + 10000 * k) / 10000) with k.
        2: { rewrite Z.mul_comm, Z.div_add, Z.div_small by lia. lia. }
        rewrite P. cbn [rbind]. replace ((decval [b; c; d; e] + 10000 * k) mod 10000) with (decval [b;c;d;e]).
        2: { rewrite Z.mul_comm, Z.mod_add, Z.mod_small by lia. lia. }
        rewrite E. apply okeq5; [reflexivity|]. apply streqb_neq. intro X. injection X as -> -> -> -> ->.
        change (cfind "z" smalls) with (Some 25%nat) in F. injection F as F. change (decval ["9"; "9"; "9"; "9"]%char) with 9999 in *. lia.
      * cbn [rbind]. assert (k = 25 /\ decval [b;c;d;e] = 9999) as [-> V] by lia.
        assert (a = "z"%char) as ->. { change (pyindex smalls 25) with (Ok "z"%char) in P. congruence. }
        assert ([b;c;d;e] = ["9";"9";"9";"9"]%char) as X. { apply decval_inj; auto. }
        injection X as -> -> -> ->. rewrite V. split; intro X; vm_compute in X; discriminate X.
  - (* base 62 *)
    destruct (alnum62 b) as [x X]; auto. destruct (alnum62 c) as [y Y]; auto. destruct (alnum62 d) as [z Z]; auto. destruct (alnum62 e) as [w W]; auto.
    destruct (c01_read b c d e x y z w X Y Z W) as [_ R].
    pose proof (digit62_range _ _ X). pose proof (digit62_range _ _ Y). pose proof (digit62_range _ _ Z). pose proof (digit62_range _ _ W).
    set (v := ((x * 62 + y) * 62 + z) * 62 + w) in *. assert (0 <= v < 62 ^ 4) as V by (unfold v; change (62 ^ 4) with 14776336; nia).
    apply orb_prop in H as [H|H]; apply ceqb_eq in H as ->.
    + eexists. split.
      { cbn [unpackRef]. change (cmem "#" $"0123456789") with false. change (ceqb "#" "@") with false. change (ceqb "#" "#") with true. cbn iota.
        rewrite (unRadix_digits _ _ _ _ _ _ _ _ _ X Y Z W). cbn [rbind]. reflexivity. }
      change (val62 x y z w) with v.
      rewrite (mpc_pack (110000 + v)) by (try apply names2_mpc; lia).
      destruct (Z.ltb_spec (110000 + v) 100000); [lia|]. 
      unfold ref_lossy. rewrite X, Y, Z, W. change (ceqb "#" "#") with true. cbn [andb].
      change (((x * 62 + y) * 62 + z) * 62 + w) with v.
      change (streqb ["#"%char; b; c; d; e] $"z9999") with false. rewrite orb_false_r.
      destruct (Z.ltb_spec (110000 + v) 200000).
      * destruct (Z.ltb_spec v 90000); [|lia]. split; [|discriminate]. intro K. exfalso.
        destruct (Z.ltb_spec (110000 + v) 190000).
        -- destruct (five_digits_mid (110000 + v - 100000 + 10000) ltac:(lia)) as (c' & w' & E & L & _). rewrite E in K. cbn [from skipn app lit list_ascii_of_string] in K.
           rewrite pad_keep in K by (cbn; lia). discriminate K.
        -- destruct (pad5 (v - 80000) ltac:(lia)) as (w' & E & L & D' & _). replace (110000 + v - 100000 + 10000) with (v - 80000 + 100000) in K by lia.
           rewrite E in K. cbn [from skipn] in K. destruct w' as [|q1[|q2[|q3[|q4[|q5[|]]]]]]; try discriminate L.
           cbn in K. injection K as -> _. discriminate D'.
      * destruct (Z.ltb_spec v 90000); [lia|]. replace (110000 + v - 110000) with v by lia. rewrite R. apply okeq5; reflexivity.
    + eexists. split.
      { cbn [unpackRef]. change (cmem "~" $"0123456789") with false. change (ceqb "~" "@") with false. change (ceqb "~" "#") with false.
        change (cfind "~" smalls) with (@None nat). change (ceqb "~" "~") with true. cbn iota.
        rewrite (unRadix_digits _ _ _ _ _ _ _ _ _ X Y Z W). cbn [rbind]. reflexivity. }
      change (val62 x y z w) with v.
      rewrite (mps_pack (260000 + v)) by (try apply names2_mps; lia).
      destruct (Z.ltb_spec (260000 + v) 259999); [lia|]. replace (260000 + v - 260000) with v by lia. rewrite R. apply okeq5; reflexivity.
Qed.
