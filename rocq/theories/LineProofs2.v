(** C33: optical lines. *)
From Verif Require Import PyStrProofs JustSpec JustProofs PackProofs8 PackProofs13.
From Verif Require Import XmlToMpc80 Mpc80 Mpc80Spec Mpc80Proofs1 Mpc80Proofs11 Line80Spec LineProofs1.
Local Open Scope nat_scope.

Lemma note_spec d n0 n : chat (hasKeyOrVal d $"notes" $" ") 0 = Ok n0 ->
  match dget $"prog" d with Some ((_ :: _) as p) => unpackProgID p | _ => Ok [n0] end = Ok n -> note d n /\ length n = 1.
Proof.
  intros H. apply chat0 in H. change (hasKeyOrVal d $"notes" $" ") with (given d $"notes" $" ") in H. unfold note.
  destruct (dget $"prog" d) as [[|a p]|]; intros E.
  - apply OkI in E. subst n. split; [now rewrite H|reflexivity].
  - split; [exact E|]. now apply prog_len in E.
  - apply OkI in E. subst n. split; [now rewrite H|reflexivity].
Qed.
Lemma id_spec d id : length (given d $"artSat" []) <= 12 ->
  match dget $"artSat" d with Some a => Ok (padl 12 a) | None => packTupleID (dget $"permID" d, dget $"provID" d, dget $"trkSub" d) end = Ok id ->
  identification d id /\ length id = 12.
Proof.
  unfold identification, given. destruct (dget $"artSat" d) as [a|].
  - intros L H. apply OkI in H. subst id. split; [reflexivity|]. unfold padl. rewrite app_length. unfold spaces. rewrite repeat_length. lia.
  - intros _ H. split; [exact H|]. now apply c09 in H.
Qed.
Lemma angles_spec d stn (pra pde : fl) ra de : dget $"stn" d = Some stn ->
  (if streqb stn $"275" then
       do r <- kget $"raStar" d; do ra <- decRaToSexRa r pra;
       do e <- kget $"decStar" d; do de <- degDeclToSexDecl e pde; Ok (ra, de)
     else if streqb stn $"244" then
       do r <- kget $"raStar" d; do r' <- kget $"deltaRA" d; do ra <- decRaToSexRa (r ++ r') pra;
       do e <- kget $"decStar" d; do e' <- kget $"deltaDec" d; do de <- degDeclToSexDecl (e ++ e') pde; Ok (ra, de)
     else
       do r <- kget $"ra" d; do ra <- decRaToSexRa r pra;
       do e <- kget $"dec" d; do de <- degDeclToSexDecl e pde; Ok (ra, de)) = Ok (ra, de) ->
  exists tra tde, angle d $"ra" $"raStar" $"deltaRA" tra /\ decRaToSexRa tra pra = Ok ra /\
    angle d $"dec" $"decStar" $"deltaDec" tde /\ degDeclToSexDecl tde pde = Ok de.
Proof.
  intros S. unfold angle. rewrite (given_some _ _ _ _ S). destruct (streqb stn $"275"); [|destruct (streqb stn $"244")]; intros H; repeat bnd;
    apply OkI in H; repeat match goal with E : kget _ _ = Ok _ |- _ => apply kget_ok in E end; injection H as <- <-.
  - eauto 10.
  - do 2 eexists. split; [eauto 10|]. split; [eassumption|]. split; [eauto 10|]. assumption.
  - eauto 10.
Qed.

Lemma fill_app_split {A} (a b : list A) : a ++ b = a ++ b. Proof. reflexivity. Qed.
Ltac widths := repeat (apply Forall_cons; [cbn [fst snd]; try assumption; try lia; try reflexivity; auto|]); apply Forall_nil.
Ltac flat := cbn [map snd concat]; rewrite ?app_nil_r, <- ?app_assoc; reflexivity.

Theorem optical_cols o d ls : fits o d -> printOpticalLine o d = Ok ls -> optical_lines o d ls.
Proof.
  intros F H. unfold printOpticalLine in H.
  destruct (match dget $"artSat" d with Some a => _ | None => _ end) as [id|] eqn:Eid in H; [|discriminate H]. cbn [rbind] in H.
  apply id_spec in Eid as [Iid Lid]; [|apply F]. cbv zeta in H.
  destruct (chat _ 0) as [n0|] eqn:En0 in H; [|discriminate H]. cbn [rbind] in H.
  destruct (pyfloat (hasKeyOrVal d $"precTime" _)) as [pt|] eqn:Ept in H; [|discriminate H]. cbn [rbind] in H.
  destruct (pyfloat (hasKeyOrVal d $"precRA" _)) as [pra|] eqn:Epra in H; [|discriminate H]. cbn [rbind] in H.
  destruct (pyfloat (hasKeyOrVal d $"precDec" _)) as [pde|] eqn:Epde in H; [|discriminate H]. cbn [rbind] in H.
  destruct (kget $"obsTime" d) as [ot|] eqn:Eot in H; [|discriminate H]. cbn [rbind] in H. apply kget_ok in Eot.
  destruct (isoToSexDate ot pt) as [date|] eqn:Edate in H; [|discriminate H]. cbn [rbind] in H.
  destruct (kget $"stn" d) as [stn|] eqn:Estn in H; [|discriminate H]. cbn [rbind] in H. apply kget_ok in Estn.
  destruct (if streqb stn $"275" then _ else _) as [[ra de]|] eqn:Ea in H; [|discriminate H]. cbn [rbind] in H.
  apply angles_spec in Ea as (tra & tde & A1 & R1 & A2 & R2); [|exact Estn].
  destruct (padD _ 5 3) as [mag|] eqn:Emag in H; [|discriminate H]. cbn [rbind] in H. apply padD_len in Emag as [Imag Lmag].
  destruct (band80 _) as [band|] eqn:Eband in H; [|discriminate H]. cbn [rbind] in H. apply band80_spec in Eband as [-> Lband]; [|apply F].
  destruct (kget $"astCat" d) as [cat|] eqn:Ecat in H; [|discriminate H]. cbn [rbind] in H. apply kget_ok in Ecat.
  destruct (astCat80 cat) as [ac|] eqn:Eac in H; [|discriminate H]. cbn [rbind] in H. apply astCat80_spec in Eac as [-> Lac].
  destruct (packRef _) as [ref|] eqn:Eref in H; [|discriminate H]. cbn [rbind] in H. pose proof (packRef_len _ _ Eref) as Lref.
  destruct (match dget $"prog" d with Some _ => _ | None => _ end) as [n|] eqn:En in H; [|discriminate H]. cbn [rbind] in H.
  destruct (note_spec d n0 n En0 En) as [In1 Ln]. clear En En0.
  destruct (code80 d) as [c|] eqn:Ec in H; [|discriminate H]. cbn [rbind] in H.
  assert (DEP : forall x, kmem $"pos1" d = true -> dget $"sys" d = Some x -> streqb x $"WGS84" = false -> streqb x $"ICRF_AU" = false ->
     streqb x $"ICRF_KM" = false -> present d $"deprecated").
  { intros x K1 K2 K3 K4 K5 K. unfold code80 in Ec. rewrite K in Ec. unfold kget in Ec. rewrite K1, K2 in Ec. cbn [rbind] in Ec. rewrite K3, K4, K5 in Ec. discriminate. }
  apply code80_spec in Ec as [Ic Lc]; [|apply F].
  assert (Ldate : length date = 17). { apply (fit_date o d F pt); [exact Ept|]. now rewrite (given_some _ _ _ _ Eot). }
  assert (Lra : length ra = 12) by (exact (fit_ra o d F tra pra ra A1 Epra R1)).
  assert (Lde : length de = 12) by (exact (fit_dec o d F tde pde de A2 Epde R2)).
  assert (Lmag5 : length (firstn 5 mag) = 5) by (rewrite firstn_length; lia).
  pose proof (fit_disc o d F) as Ld. pose proof (fit_stn o d F) as Ls. rewrite (given_some _ _ _ _ Estn) in Ls.
  change (hasKeyOrVal d $"disc" $" ") with (given d $"disc" $" ") in *. change (hasKeyOrVal d $"mag" []) with (given d $"mag" []) in *.
  change (hasKeyOrVal d $"band" $" ") with (given d $"band" $" ") in *. change (hasKeyOrVal d $"ref" $" ") with (given d $"ref" $" ") in *.
  set (disc := given d $"disc" $" ") in *. set (bl := band_letter (given d $"band" $" ")) in *. set (cl := catalogue_letter cat) in *.
  set (l1 := (id ++ disc ++ n) ++ c ++ date ++ ra ++ de ++ $"         " ++ firstn 5 mag ++ bl ++ cl ++ ref ++ stn) in *.
  assert (L1 : optical_line o d l1 id n c date cl ref).
  { exists pt, tra, pra, ra, tde, pde, de, mag. split; [exact Ept|]. split; [now rewrite (given_some _ _ _ _ Eot)|].
    split; [exact A1|]. split; [exact Epra|]. split; [exact R1|]. split; [exact A2|]. split; [exact Epde|]. split; [exact R2|]. split; [exact Imag|].
    rewrite (given_some _ _ _ _ Estn). fold disc bl. apply fill_line.
    - unfold l1. flat.
    - widths.
    - widths. }
  assert (W : exists rest, ls = l1 :: rest /\ if kmem $"pos1" d then
      exists m, rest = [m] /\
        ((dget $"sys" d = Some $"WGS84" /\ rover_line d m id n date cl ref) \/
         (dget $"sys" d = Some $"ICRF_AU" /\ satellite_line d m id n date ref $"2" 3) \/
         (dget $"sys" d = Some $"ICRF_KM" /\ satellite_line d m id n date ref $"1" 7) \/
         (present d $"deprecated" /\ m = l1))
    else rest = []).
  { destruct (kmem $"pos1" d) eqn:K; [|apply OkI in H; subst ls; eauto].
    destruct (kget $"sys" d) as [sys|] eqn:Esys in H; [|discriminate H]. cbn [rbind] in H. apply kget_ok in Esys.
    destruct (streqb sys $"WGS84") eqn:S1; [|destruct (streqb sys $"ICRF_AU") eqn:S2; [|destruct (streqb sys $"ICRF_KM") eqn:S3]].
    - apply streqb_eq in S1. subst sys.
      destruct (kget $"pos1" d) as [p1|] eqn:E1 in H; [|discriminate H]. cbn [rbind] in H. apply kget_ok in E1.
      destruct (padD p1 11 4) as [a|] eqn:E2 in H; [|discriminate H]. cbn [rbind] in H. apply padD_len in E2 as [P1 P2].
      destruct (kget $"pos2" d) as [p2|] eqn:E3 in H; [|discriminate H]. cbn [rbind] in H. apply kget_ok in E3.
      destruct (padD p2 11 4) as [b|] eqn:E4 in H; [|discriminate H]. cbn [rbind] in H. apply padD_len in E4 as [P3 P4].
      destruct (kget $"pos3" d) as [p3|] eqn:E5 in H; [|discriminate H]. cbn [rbind] in H. apply kget_ok in E5.
      apply OkI in H. subst ls. eexists. split; [reflexivity|]. eexists. split; [reflexivity|]. left. split; [exact Esys|].
      exists a, b. rewrite (given_some _ _ _ _ E1), (given_some _ _ _ _ E3), (given_some _ _ _ _ E5), (given_some _ _ _ _ Estn). split; [exact P1|]. split; [exact P3|].
      pose proof (fit_pos3 o d F Esys) as L3. rewrite (given_some _ _ _ _ E5) in L3. fold disc.
      assert (LL3 : length (padl 5 p3) = 5) by (unfold padl; rewrite app_length; unfold spaces; rewrite repeat_length; lia).
      assert (La : length (firstn 11 a) = 11) by (rewrite firstn_length; lia). assert (Lb : length (firstn 11 b) = 11) by (rewrite firstn_length; lia).
      apply fill_line; [|widths|widths]. cbn [map snd concat]. rewrite ?app_nil_r, <- ?app_assoc. reflexivity.
    - apply streqb_eq in S2. subst sys.
      destruct (kget $"pos1" d) as [p1|] eqn:E1 in H; [|discriminate H]. cbn [rbind] in H. apply kget_ok in E1. unfold satpos in H.
      destruct (unPackSigned p1 11 3) as [a|] eqn:E2 in H; [|discriminate H]. cbn [rbind] in H. pose proof (signed_len _ _ _ _ E2) as P1.
      destruct (kget $"pos2" d) as [p2|] eqn:E3 in H; [|discriminate H]. cbn [rbind] in H. apply kget_ok in E3.
      destruct (unPackSigned p2 11 3) as [b|] eqn:E4 in H; [|discriminate H]. cbn [rbind] in H. pose proof (signed_len _ _ _ _ E4) as P2.
      destruct (kget $"pos3" d) as [p3|] eqn:E5 in H; [|discriminate H]. cbn [rbind] in H. apply kget_ok in E5.
      destruct (unPackSigned p3 11 3) as [c3|] eqn:E6 in H; [|discriminate H]. cbn [rbind] in H. pose proof (signed_len _ _ _ _ E6) as P3.
      apply OkI in H. subst ls. eexists. split; [reflexivity|]. eexists. split; [reflexivity|]. right. left. split; [exact Esys|].
      exists a, b, c3. rewrite (given_some _ _ _ _ E1), (given_some _ _ _ _ E3), (given_some _ _ _ _ E5), (given_some _ _ _ _ Estn). split; [exact E2|]. split; [exact E4|]. split; [exact E6|].
      fold disc. assert (La : length (firstn 11 a) = 11) by (rewrite firstn_length; lia). assert (Lb : length (firstn 11 b) = 11) by (rewrite firstn_length; lia).
      assert (Lc3 : length (firstn 11 c3) = 11) by (rewrite firstn_length; lia).
      apply fill_line; [|widths|widths]. cbn [map snd concat]. rewrite ?app_nil_r, <- ?app_assoc. reflexivity.
    - apply streqb_eq in S3. subst sys.
      destruct (kget $"pos1" d) as [p1|] eqn:E1 in H; [|discriminate H]. cbn [rbind] in H. apply kget_ok in E1. unfold satpos in H.
      destruct (unPackSigned p1 11 7) as [a|] eqn:E2 in H; [|discriminate H]. cbn [rbind] in H. pose proof (signed_len _ _ _ _ E2) as P1.
      destruct (kget $"pos2" d) as [p2|] eqn:E3 in H; [|discriminate H]. cbn [rbind] in H. apply kget_ok in E3.
      destruct (unPackSigned p2 11 7) as [b|] eqn:E4 in H; [|discriminate H]. cbn [rbind] in H. pose proof (signed_len _ _ _ _ E4) as P2.
      destruct (kget $"pos3" d) as [p3|] eqn:E5 in H; [|discriminate H]. cbn [rbind] in H. apply kget_ok in E5.
      destruct (unPackSigned p3 11 7) as [c3|] eqn:E6 in H; [|discriminate H]. cbn [rbind] in H. pose proof (signed_len _ _ _ _ E6) as P3.
      apply OkI in H. subst ls. eexists. split; [reflexivity|]. eexists. split; [reflexivity|]. right. right. left. split; [exact Esys|].
      exists a, b, c3. rewrite (given_some _ _ _ _ E1), (given_some _ _ _ _ E3), (given_some _ _ _ _ E5), (given_some _ _ _ _ Estn). split; [exact E2|]. split; [exact E4|]. split; [exact E6|].
      fold disc. assert (La : length (firstn 11 a) = 11) by (rewrite firstn_length; lia). assert (Lb : length (firstn 11 b) = 11) by (rewrite firstn_length; lia).
      assert (Lc3 : length (firstn 11 c3) = 11) by (rewrite firstn_length; lia).
      apply fill_line; [|widths|widths]. cbn [map snd concat]. rewrite ?app_nil_r, <- ?app_assoc. reflexivity.
    - apply OkI in H. subst ls. eexists. split; [reflexivity|]. eexists. split; [reflexivity|]. right. right. right. split; [|reflexivity].
      exact (DEP sys eq_refl Esys S1 S2 S3). }
  destruct W as (rest & -> & W). exists id, n, c, date, cat, ref, l1, rest. fold cl. split; [exact Iid|]. split; [exact In1|]. split; [exact Ic|].
  split; [exact Ecat|]. split; [exact Eref|]. split; [exact L1|]. split; [reflexivity|]. exact W.
Qed.
