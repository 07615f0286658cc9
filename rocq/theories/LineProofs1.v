(** C33: the columns of the lines printed. *)
From Verif Require Import PyStrProofs JustSpec JustProofs PackProofs13.
From Verif Require Import XmlToMpc80 Mpc80 Mpc80Spec Mpc80Proofs1 Mpc80Proofs11 Line80Spec.
Local Open Scope nat_scope.

Lemma fill_concat fs : forall l a, Forall (fun wv => length (snd wv) = fst wv) fs -> Forall (fun wv => 1 <= fst wv) fs -> a = length l ->
  fill (S a) (l ++ concat (map snd fs)) fs.
Proof.
  induction fs as [|[w v] fs IH]; intros l a F P E; cbn [map concat fill].
  - rewrite app_nil_r. lia.
  - inversion F as [|? ? F1 F2]; inversion P as [|? ? P1 P2]; subst. cbn [fst snd] in *. subst w.
    split; [|split; [reflexivity|]].
    + rewrite cols_right by lia. rewrite cols_left by lia. unfold cols.
      replace (S (length l) - length l - 1) with 0 by lia. cbn [skipn]. rewrite firstn_all2; [reflexivity|lia].
    + rewrite app_assoc. replace (S (length l) + length v) with (S (length (l ++ v))) by (rewrite app_length; lia). apply IH; auto.
Qed.
Lemma fill_line fs l : l = concat (map snd fs) -> Forall (fun wv => length (snd wv) = fst wv) fs -> Forall (fun wv => 1 <= fst wv) fs -> fill 1 l fs.
Proof. intros -> A B. exact (fill_concat fs [] 0 A B eq_refl). Qed.
Lemma fill_length fs : forall a l, fill a l fs -> length l + 1 = a + fold_right (fun wv n => fst wv + n) 0 fs.
Proof.
  induction fs as [|[w v] fs IH]; intros a l; cbn [fill fold_right fst]; intros H; [lia|]. destruct H as (_ & _ & H). apply IH in H. lia.
Qed.

Lemma padD_len s l p r : padD s l p = Ok r -> aligned s l p r /\ (l <= Z.of_nat (length r))%Z.
Proof.
  unfold padD. destruct (applyPaddingAndJustification s l $"D" p) as [[[r' w] q]|e] eqn:E; [|discriminate]. cbn [rbind]. intros H. injection H as <-.
  split; [exists w, q; exact E|]. change (just_decimal s l p = Ok (r', w, q)) in E. apply just_D in E as (_ & _ & a & b & _ & Ew & _ & _ & E2). unfold wid in *. lia.
Qed.
Lemma signed_len v l p r : unPackSigned v l p = Ok r -> (l <= Z.of_nat (length r))%Z.
Proof.
  destruct v as [|s v]; [discriminate|]. unfold unPackSigned. cbv zeta.
  destruct (if isdig s then _ else _) as [[v1 s1] v2]. destruct (negb (ceqb s1 "+" || ceqb s1 "-")).
  - destruct (applyPaddingAndJustification v1 l $"D" p) as [[[r' w] q]|e] eqn:E; [|discriminate]. cbn [rbind]. intros H. injection H as <-.
    change (just_decimal v1 l p = Ok (r', w, q)) in E. apply just_D in E as (_ & _ & a & b & _ & Ew & _ & _ & E2). unfold wid in *. lia.
  - destruct (applyPaddingAndJustification v2 (l - 1) $"D" (p - 1)) as [[[r' w] q]|e] eqn:E; [|discriminate]. cbn [rbind]. intros H. injection H as <-.
    change (just_decimal v2 (l - 1) (p - 1) = Ok (r', w, q)) in E. apply just_D in E as (_ & _ & a & b & _ & Ew & _ & _ & E2). unfold wid in *. cbn [length]. lia.
Qed.
Lemma packRef_len r p : packRef r = Ok p -> length p = 5.
Proof.
  unfold packRef. destruct (if streqb (slice 0 3 r) _ then _ else _) as [x|e]; [|discriminate]. cbn [rbind]. intros H. injection H as <-.
  unfold padr. rewrite app_length. unfold spaces. rewrite repeat_length. unfold lastn. rewrite skipn_length. lia.
Qed.
Lemma prog_len p n : unpackProgID p = Ok n -> length n = 1.
Proof.
  unfold unpackProgID. cbv zeta. destruct (chat p 1) as [c1|e]; [|discriminate]. cbn [rbind]. destruct (unpackLetter c1) as [u1|e]; [|discriminate]. cbn [rbind].
  destruct (chat p 0) as [c0|e]; [|discriminate]. cbn [rbind]. destruct (unpackLetter c0) as [u0|e]; [|discriminate]. cbn [rbind].
  destruct (_ <=? 93)%Z.
  - destruct (pyindex programCodesArray _); [|discriminate]. cbn [rbind]. intros H. injection H as <-. reflexivity.
  - intros H. injection H as <-. reflexivity.
Qed.

Ltac bnd := match goal with
  | H : rbind ?x ?f = Ok _ |- _ => let v := fresh "v" in let E := fresh "E" in destruct x as [v|] eqn:E; [|discriminate H]; cbn [rbind] in H
  end.
Lemma kget_ok k d v : kget k d = Ok v -> dget k d = Some v.
Proof. unfold kget. destruct (dget k d); [|discriminate]. intros H. now injection H as <-. Qed.
Lemma given_some d k v df : dget k d = Some v -> given d k df = v.
Proof. unfold given. now intros ->. Qed.
Lemma kmem_some k d v : dget k d = Some v -> kmem k d = true.
Proof. unfold kmem. now intros ->. Qed.
Lemma chat0 s c : chat s 0 = Ok c -> firstn 1 s = [c].
Proof. unfold chat. destruct s as [|x s]; [discriminate|]. cbn. intros H. now injection H as <-. Qed.

Lemma OkI {A} (a b : A) : Ok a = Ok b -> a = b.
Proof. congruence. Qed.
Lemma band80_spec b r : b <> [] -> band80 b = Ok r -> r = band_letter b /\ length r = 1.
Proof.
  intros N. unfold band80, band_letter. destruct (dget b bandconv) as [x|] eqn:E.
  - unfold bandconv in E. cbn [dget] in E.
    repeat match type of E with (if ?t then _ else _) = Some _ => destruct t eqn:?; [injection E as <-; match goal with Hs : streqb _ _ = true |- _ => apply streqb_eq in Hs; subst b end; intros HH; apply OkI in HH; subst r; vm_compute; auto|] end. discriminate E.
  - assert (NM : smem b [$"Vj"; $"VR"; $"Rc"; $"Ic"; $"Bj"; $"Uj"; $"Gb"; $"Gr"] = false).
    { destruct (smem b _) eqn:M; [|reflexivity]. exfalso. unfold smem in M. cbn [existsb] in M.
      repeat (apply orb_prop in M as [M|M]; [apply streqb_eq in M; subst b; vm_compute in E; discriminate|]). discriminate. }
    rewrite NM. destruct b as [|x [|y b]]; [easy| |].
    + cbn. intros H. injection H as <-. auto.
    + cbn. intros H. injection H as <-. auto.
Qed.
Lemma rcat_shape c x : dget c rCatCodes = Some x -> strip c = c /\ length x = 1.
Proof.
  intros E. unfold rCatCodes in E. cbn [dget] in E.
  repeat match type of E with (if ?t then _ else _) = Some _ =>
    let B := fresh in destruct t eqn:B; [injection E as <-; apply streqb_eq in B; subst c; vm_compute; auto|clear B] end. discriminate.
Qed.
Lemma smem_dget k (m : list (str * str)) : smem k (map fst m) = true -> exists x, dget k m = Some x.
Proof.
  induction m as [|[a b] m IH]; cbn [map fst smem existsb dget]; [discriminate|]. intros H.
  destruct (streqb k a) eqn:E; [eauto|]. apply IH. exact H.
Qed.
Lemma astCat80_spec c r : astCat80 c = Ok r -> r = catalogue_letter c /\ length r = 1.
Proof.
  unfold astCat80, catalogue_letter. destruct (smem (strip c) (map fst rCatCodes)) eqn:M.
  - destruct (dget c rCatCodes) eqn:E; [|discriminate]. intros H. injection H as <-. split; [reflexivity|]. now apply rcat_shape in E.
  - intros H. injection H as <-. destruct (dget c rCatCodes) eqn:E; [|auto]. exfalso. destruct (rcat_shape _ _ E) as [S _].
    rewrite S in M. clear S. assert (smem c (map fst rCatCodes) = true); [|congruence]. revert E. generalize rCatCodes. clear.
    induction l as [|[a b] l IH]; cbn [dget map fst smem existsb]; [discriminate|]. destruct (streqb c a); [reflexivity|]. intros H. cbn. apply IH, H.
Qed.
Lemma reverse_len m c : dget m reverseCodeDict = Some c -> length c = 1.
Proof.
  intros E. unfold reverseCodeDict in E. cbn [dget] in E.
  repeat match type of E with (if ?t then _ else _) = Some _ => destruct t; [injection E as <-; reflexivity|] end. discriminate.
Qed.
Lemma code80_spec d c : length (given d $"deprecated" []) <= 1 -> code80 d = Ok c -> kind_of_line d c /\ length c = 1.
Proof.
  intros F. unfold code80, kind_of_line. unfold given in F.
  assert (REST : (if kmem $"pos1" d then
        do sys <- kget $"sys" d;
        if streqb sys $"WGS84" then Ok $"V"
        else if streqb sys $"ICRF_AU" then Ok $"S"
        else if streqb sys $"ICRF_KM" then Ok $"S"
        else Err RuntimeError
      else if kmem $"subFrm" d then Ok $"A"
      else do m <- kget $"mode" d;
           match dget m reverseCodeDict with Some c => Ok c | None => Err KeyError end) = Ok c ->
      (if kmem $"pos1" d then
        (dget $"sys" d = Some $"WGS84" /\ c = $"V") \/
        ((dget $"sys" d = Some $"ICRF_AU" \/ dget $"sys" d = Some $"ICRF_KM") /\ c = $"S")
      else if kmem $"subFrm" d then c = $"A"
      else exists m, dget $"mode" d = Some m /\ dget m reverseCodeDict = Some c) /\ length c = 1).
  { destruct (kmem $"pos1" d).
    - intros H. bnd. apply kget_ok in E. destruct (streqb v $"WGS84") eqn:S1.
      { apply streqb_eq in S1. injection H as <-. subst v. auto. }
      destruct (streqb v $"ICRF_AU") eqn:S2. { apply streqb_eq in S2. injection H as <-. subst v. auto. }
      destruct (streqb v $"ICRF_KM") eqn:S3; [|discriminate]. apply streqb_eq in S3. injection H as <-. subst v. auto.
    - destruct (kmem $"subFrm" d). { intros H. injection H as <-. auto. }
      intros H. bnd. apply kget_ok in E. destruct (dget v reverseCodeDict) eqn:R; [|discriminate]. injection H as <-. split; [eauto|]. now apply reverse_len in R. }
  destruct (dget $"deprecated" d) as [[|a x]|] eqn:D; auto.
  intros H. injection H as <-. split; [reflexivity|]. cbn [length] in *. lia.
Qed.
