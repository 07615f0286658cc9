(** Lemmas about Back80Spec, part 5: optical lines, from the element to the line. *)
From Verif Require Import PyStrProofs JustSpec JustProofs AdesMasterTables.
From Verif Require Import XmlToMpc80 Mpc80 Mpc80Spec Line80Spec LineProofs1 PackSpec DocSpec DocProofs2 Mpc80Proofs1 Mpc80Proofs12.
From Verif Require Import Back80Spec Back80Proofs1 Back80Proofs2 Back80Proofs3 Back80Proofs4.
Local Open Scope nat_scope.

(** the fields of the document made by the converter *)
Definition ofields : list str := match dget $"optical" (allowed ades_tables) with Some l => l | None => [] end.
Definition rfields : list str := match dget $"radar" (allowed ades_tables) with Some l => l | None => [] end.
Definition ocheck : list str := Eval vm_compute in
  [$"permID"; $"provID"; $"artSat"; $"trkSub"; $"mode"; $"stn"; $"sys"; $"pos1"; $"pos2"; $"pos3"; $"prog"; $"obsTime"; $"ra"; $"dec"; $"astCat"; $"mag"; $"band"; $"ref"; $"disc"; $"subFrm"; $"precTime"; $"precRA"; $"precDec"; $"notes"; $"deprecated"].
Lemma ocheck_ok : forallb (fun k => smem k ofields) ocheck = true.
Proof. vm_compute. reflexivity. Qed.
Definition rcheck : list str := Eval vm_compute in
  [$"permID"; $"provID"; $"trkSub"; $"obsTime"; $"doppler"; $"rmsDoppler"; $"delay"; $"rmsDelay"; $"frq"; $"com"; $"trx"; $"ref"; $"rcv"].
Lemma rcheck_ok : forallb (fun k => smem k rfields) rcheck = true /\ smem $"disc" rfields = false /\ smem $"notes" rfields = false.
Proof. vm_compute. auto. Qed.
Lemma oget text k : In k ocheck -> dget k (subDict_of (element $"optical" ofields text)) = shown text k.
Proof. intros I. rewrite element_get. pose proof ocheck_ok as H. rewrite forallb_forall in H. now rewrite (H k I). Qed.
Lemma rget text k : In k rcheck -> dget k (subDict_of (element $"radar" rfields text)) = shown text k.
Proof. intros I. rewrite element_get. pose proof (proj1 rcheck_ok) as H. rewrite forallb_forall in H. now rewrite (H k I). Qed.
Lemma has_shown d k df v : dget k d = v -> hasKeyOrVal d k df = match v with Some x => x | None => df end.
Proof. unfold hasKeyOrVal. now intros ->. Qed.

(** the first line, and what follows it *)
Definition optical_more (d : list (str * str)) (head sexDate line1 astCat packedref stn : str) : res (list str) :=
  if kmem $"pos1" d then
    do sys <- kget $"sys" d;
    if streqb sys $"WGS84" then
      do p1 <- kget $"pos1" d; do p1 <- padD p1 11 4;
      do p2 <- kget $"pos2" d; do p2 <- padD p2 11 4;
      do p3 <- kget $"pos3" d;
      Ok [line1; head ++ $"v" ++ sexDate ++ $"1 " ++ firstn 11 p1 ++ firstn 11 p2 ++ padl 5 p3 ++ $" " ++
                 $"         " ++ astCat ++ packedref ++ stn]
    else if streqb sys $"ICRF_AU" then
      do p1 <- kget $"pos1" d; do p1 <- satpos p1 3;
      do p2 <- kget $"pos2" d; do p2 <- satpos p2 3;
      do p3 <- kget $"pos3" d; do p3 <- satpos p3 3;
      Ok [line1; head ++ $"s" ++ sexDate ++ $"2 " ++ p1 ++ $" " ++ p2 ++ $" " ++ p3 ++ $" " ++ $"  " ++ packedref ++ stn]
    else if streqb sys $"ICRF_KM" then
      do p1 <- kget $"pos1" d; do p1 <- satpos p1 7;
      do p2 <- kget $"pos2" d; do p2 <- satpos p2 7;
      do p3 <- kget $"pos3" d; do p3 <- satpos p3 7;
      Ok [line1; head ++ $"s" ++ sexDate ++ $"1 " ++ p1 ++ $" " ++ p2 ++ $" " ++ p3 ++ $" " ++ $"  " ++ packedref ++ stn]
    else Ok [line1; line1]
  else Ok [line1].
Lemma print_optical o d id dc nt pt pra pde t date stn ra sra de sde mag mag' band cat cat' ref code n0 :
  dget $"artSat" d = None -> packTupleID (dget $"permID" d, dget $"provID" d, dget $"trkSub" d) = Ok id ->
  hasKeyOrVal d $"disc" $" " = dc ->
  chat (hasKeyOrVal d $"notes" $" ") 0 = Ok n0 ->
  match dget $"prog" d with Some ((_ :: _) as p) => unpackProgID p | _ => Ok [n0] end = Ok nt ->
  pyfloat (hasKeyOrVal d $"precTime" (o_precTime o)) = Ok pt -> pyfloat (hasKeyOrVal d $"precRA" (o_precRA o)) = Ok pra ->
  pyfloat (hasKeyOrVal d $"precDec" (o_precDec o)) = Ok pde ->
  dget $"obsTime" d = Some t -> isoToSexDate t pt = Ok date ->
  dget $"stn" d = Some stn -> streqb stn $"275" = false -> streqb stn $"244" = false ->
  dget $"ra" d = Some ra -> decRaToSexRa ra pra = Ok sra -> dget $"dec" d = Some de -> degDeclToSexDecl de pde = Ok sde ->
  padD (hasKeyOrVal d $"mag" []) 5 3 = Ok mag -> firstn 5 mag = mag' -> band80 (hasKeyOrVal d $"band" $" ") = Ok band ->
  dget $"astCat" d = Some cat -> astCat80 cat = Ok cat' -> packRef (hasKeyOrVal d $"ref" $" ") = Ok ref -> code80 d = Ok code ->
  let head := id ++ dc ++ nt in
  let line1 := head ++ code ++ date ++ sra ++ sde ++ $"         " ++ mag' ++ band ++ cat' ++ ref ++ stn in
  printOpticalLine o d = optical_more d head date line1 cat' ref stn.
Proof.
  intros A1 A2 A3 A4 A5 A6 A7 A8 A9 A10 A11 A12 A13 A14 A15 A16 A17 A18 A19 A20 A21 A22 A23 A24 head line1.
  unfold printOpticalLine, kget. rewrite A1, A2. cbn [rbind]. cbv zeta. rewrite A3, A4. cbn [rbind]. rewrite A6. cbn [rbind]. rewrite A7. cbn [rbind]. rewrite A8. cbn [rbind].
  rewrite A9. cbn [rbind]. rewrite A10. cbn [rbind]. rewrite A11. cbn [rbind]. rewrite A12, A13, A14. cbn [rbind]. rewrite A15. cbn [rbind]. rewrite A16. cbn [rbind]. rewrite A17. cbn [rbind].
  rewrite A18. cbn [rbind]. rewrite A20. cbn [rbind]. rewrite A21. cbn [rbind]. rewrite A22. cbn [rbind]. rewrite A23. cbn [rbind]. rewrite A5. cbn [rbind]. rewrite A24. cbn [rbind].
  rewrite A19. unfold optical_more, kget. subst head line1. reflexivity.
Qed.
