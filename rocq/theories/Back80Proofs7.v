(** Lemmas about Back80Spec, part 7: optical records of one and of two lines. *)
From Verif Require Import PyStrProofs JustSpec JustProofs AdesMasterTables.
From Verif Require Import XmlToMpc80 Mpc80 Mpc80Spec Line80Spec LineProofs1 PackSpec DocSpec DocProofs2 DocProofs6 Mpc80Proofs1 Mpc80Proofs4 Mpc80Proofs12.
From Verif Require Import Back80Spec Back80Proofs1 Back80Proofs2 Back80Proofs3 Back80Proofs4 Back80Proofs5 Back80Proofs6.
From Verif Require Import Mpc80 Mpc80Spec.
Local Open Scope nat_scope.

Definition optical_dict (l t : str) (p : prec) (perm prov trk : option str) (ra : str) (pra : prec) (de : str) (pde : prec) : item :=
  texts (common l ++
      [($"raSexagesimal", cols 33 44 l); ($"decSexagesimal", cols 45 56 l); ($"bl1", cols 57 65 l);
       ($"mag", cols 66 70 l); ($"band", cols 71 71 l); ($"packedref", cols 72 77 l); ($"stn", cols 78 80 l)] ++
      time_fields t p ++
      [($"ra", ra); ($"precRA", prec_str pra); ($"dec", de); ($"precDec", prec_str pde);
       ($"astCat", cols 72 72 l)]) ++ designation perm prov trk.
Lemma decodes_optical l d c : decodes l d -> is_kind "0" d = false -> kind_is c l -> In c $"A PeCBTMcEOHNnSVX" ->
  ~ header_line l /\ laid_out optical_layout l /\ exists t p perm prov trk ra pra de pde,
  accepted false l t p perm prov trk /\ checkRa (cols 33 44 l) = Ok (ra, pra) /\ checkDec (cols 45 56 l) = Ok (de, pde) /\
  d = optical_dict l t p perm prov trk ra pra de pde.
Proof.
  intros H N K I. destruct H as [k v Le J E|t p perm prov trk ra pra de pde NH F AC R0 DE
                            |t p perm prov trk shift NH F (D & NO & U) S|t p perm prov trk NH F (D & NO & U)
                            |t p perm prov trk x y z dp sys NH F (D & NO & U) SY P1 P2 P3|t p perm prov trk NH F (D & NO & U)|E].
  1: discriminate N.
  1:{ split; auto. split; auto. exists t, p, perm, prov, trk, ra, pra, de, pde. auto. }
  5:{ rewrite E in K. discriminate K. }
  all: exfalso; eapply kind_char in F as (c' & C & M); [|reflexivity|reflexivity]; rewrite K in C; injection C as <-;
    apply in_kinds in M; destruct M as [<-|[]]; vm_compute in I; intuition discriminate.
Qed.
Lemma source_line l t p perm prov trk ra pra de pde : source l (optical_dict l t p perm prov trk ra pra de pde) t p perm prov trk ra pra de pde.
Proof. constructor; reflexivity. Qed.
Lemma text_updated k kvs d : existsb (fun kv => streqb k (fst kv)) kvs = false -> text_of (updated kvs d) k = text_of d k.
Proof. intros H. unfold text_of. now rewrite updated_get. Qed.
Lemma source_updated l d t p perm prov trk ra pra de pde kvs : source l d t p perm prov trk ra pra de pde ->
  forallb (fun kv => smem (fst kv) [$"sys"; $"ctr"; $"pos1"; $"pos2"; $"pos3"]) kvs = true -> source l (updated kvs d) t p perm prov trk ra pra de pde.
Proof.
  intros S H. assert (forall k, smem k [$"sys"; $"ctr"; $"pos1"; $"pos2"; $"pos3"] = false -> text_of (updated kvs d) k = text_of d k) as E.
  { intros k Hk. apply text_updated. apply Bool.not_true_is_false. intros Q. apply existsb_exists in Q as (kv & I & Q). apply streqb_eq in Q. subst k.
    rewrite forallb_forall in H. rewrite (H kv I) in Hk. discriminate Hk. }
  destruct S. constructor; (rewrite E by reflexivity; assumption).
Qed.
(** column 15 *)
Lemma code_plain pg rf d c : text_of d $"code" = [c] -> In c $"A PeCBTMcEOHNnX" -> text_of d $"pos1" = [] ->
  let D := subDict_of (element $"optical" ofields (optical_text pg rf d)) in
  code80 D = Ok [c] /\ kmem $"pos1" D = false.
Proof.
  intros E I P D. set (X := optical_text pg rf d).
  assert (dget $"pos1" D = None) as G1. { unfold D. rewrite oget by (vm_compute; tauto). unfold shown. change (optical_text pg rf d $"pos1") with (text_of d $"pos1"). now rewrite P. }
  assert (dget $"deprecated" D = shown X $"deprecated" /\ dget $"subFrm" D = shown X $"subFrm" /\ dget $"mode" D = shown X $"mode") as (G2 & G3 & G4).
  { unfold D. rewrite !oget by (vm_compute; tauto). auto. }
  split; [|unfold kmem; now rewrite G1].
  unfold code80, kmem, kget. rewrite G1, G2, G3, G4. unfold shown.
  change (X $"deprecated") with (if is_kind "X" d then $"X" else []). change (X $"subFrm") with (if is_kind "A" d then $"B1950.0" else []).
  change (X $"mode") with (mode_of (text_of d $"code")). unfold is_kind. rewrite E.
  clear - I. vm_compute in I. repeat (destruct I as [<-|I]; [vm_compute; reflexivity|]). destruct I.
Qed.
Lemma code_pair pg rf d c sys : text_of d $"code" = [c] -> text_of d $"sys" = sys -> (c = "V"%char /\ sys = $"WGS84" \/ c = "S"%char /\ (sys = $"ICRF_AU" \/ sys = $"ICRF_KM")) ->
  texty (strip (text_of d $"pos1")) ->
  let D := subDict_of (element $"optical" ofields (optical_text pg rf d)) in
  code80 D = Ok [c] /\ kmem $"pos1" D = true /\ kget $"sys" D = Ok sys.
Proof.
  intros E ES I P D. set (X := optical_text pg rf d).
  assert (dget $"pos1" D = Some (strip (text_of d $"pos1"))) as G1.
  { unfold D. rewrite oget by (vm_compute; tauto). unfold shown. change (optical_text pg rf d $"pos1") with (text_of d $"pos1"). destruct (strip (text_of d $"pos1")); [destruct P; congruence|reflexivity]. }
  assert (dget $"deprecated" D = shown X $"deprecated" /\ dget $"sys" D = shown X $"sys") as (G2 & G3).
  { unfold D. rewrite !oget by (vm_compute; tauto). auto. }
  assert (dget $"sys" D = Some sys) as G4.
  { rewrite G3. unfold shown. change (X $"sys") with (text_of d $"sys"). rewrite ES. destruct I as [[_ ->]|[_ [-> | ->]]]; reflexivity. }
  split; [|unfold kmem, kget; now rewrite G1, G4].
  unfold code80, kmem, kget. rewrite G1, G2, G4. unfold shown.
  change (X $"deprecated") with (if is_kind "X" d then $"X" else []). unfold is_kind. rewrite E. cbn [rbind].
  destruct I as [[-> ->]|[-> [-> | ->]]]; reflexivity.
Qed.

(** * One line *)
Lemma not_left_out d c : text_of d $"code" = [c] -> In c $"A PeCBTMcEOHNnSVX" -> (c = "V"%char -> blank (text_of d $"pos3") = false) ->
  left_out d = false /\ is_kind "R" d = false.
Proof.
  intros E I B. unfold left_out, is_kind. rewrite E. clear E.
  vm_compute in I. repeat (destruct I as [<-|I]; [try (split; reflexivity); rewrite B by reflexivity; split; reflexivity|]). destruct I.
Qed.
Lemma row_optical d xs : left_out d = false -> is_kind "R" d = false -> row ofields rfields d = Some xs ->
  exists pg rf, program d = Ok pg /\ reference d = Ok rf /\ xs = [element $"optical" ofields (optical_text pg rf d)].
Proof.
  intros A B. unfold row. rewrite A, B. destruct (program d) as [pg|]; [|discriminate]. destruct (reference d) as [rf|]; [|discriminate].
  unfold checked. destruct (xml_valid _); [|discriminate]. intros H. injection H as <-. exists pg, rf. auto.
Qed.
Definition prints (o : opts80) (tag : str) (chunk : list str) (d : item) : Prop :=
  forall xs, row ofields rfields d = Some xs -> exists x, xs = [x] /\ xtag x = tag /\ print_record o (xtag x, subDict_of x) = Ok chunk.
Lemma line_prints o l d c : ~ In nl l -> decode80 l = Ok d -> is_kind "0" d = false -> kind_is c l -> In c $"A PeCBTMcEOHNnX" -> optical_kept l -> prints o $"optical" [l] d.
Proof.
  intros NL H Z K I O xs R. apply decode_iff in H; [|exact NL].
  assert (In c $"A PeCBTMcEOHNnSVX") as I' by (vm_compute in I |- *; tauto).
  destruct (decodes_optical l d c H Z K I') as (_ & F & t & p & perm & prov & trk & ra & pra & de & pde & AC & RA & DE & ->).
  set (d := optical_dict l t p perm prov trk ra pra de pde) in *.
  assert (text_of d $"code" = [c]) as CC by exact K.
  assert (c <> "V"%char) as NV. { intros ->. clear - I. vm_compute in I. intuition discriminate. }
  destruct (not_left_out d c CC I' ltac:(congruence)) as [L1 L2].
  destruct (row_optical d xs L1 L2 R) as (pg & rf & PG & RF & ->).
  eexists. split; [reflexivity|]. split; [reflexivity|].
  change (print_record o (xtag (element $"optical" ofields (optical_text pg rf d)), subDict_of (element $"optical" ofields (optical_text pg rf d))))
    with (printOpticalLine o (subDict_of (element $"optical" ofields (optical_text pg rf d)))).
  destruct (code_plain pg rf d c CC I eq_refl) as [C1 C2].
  rewrite (optical_back o l d t p perm prov trk ra pra de pde pg rf (source_line _ _ _ _ _ _ _ _ _ _) NL F AC RA DE O PG RF) by (rewrite C1; now rewrite K).
  unfold optical_more. now rewrite C2.
Qed.
