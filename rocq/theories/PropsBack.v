(** C34: an 80-column file converted to XML (mpc80coltoxml) and back (xmltompc80col). *)
From Verif Require Import PyStrProofs JustSpec AdesMasterTables FileLines PackSpec.
From Verif Require Import XmlToMpc80 Mpc80 Mpc80Spec DocSpec PropsMpc80 PropsDoc.
From Verif Require Import Back80Spec Back80Proofs4 Back80Proofs11 Back80Proofs12.
From Verif Require Import Mpc80 Mpc80Spec Back80Spec.
Local Open Scope nat_scope.

(** A file of records of the kinds [kept] describes (optical lines, satellite, rover
    and radar pairs) that is converted to XML at all comes back from XML unchanged,
    whatever the default precisions. *)
Theorem C34_back nosplit o chunks t :
  Forall kept chunks -> readable (concat chunks) -> whole nosplit (concat chunks) ->
  mpc80coltoxml ades_tables nosplit (file (concat chunks)) = Written t ->
  xmltompc80col ades_tables o t = Ok (file (concat chunks)).
Proof. exact (plain_back nosplit o chunks t). Qed.
(** The same with headers: blocks of headers, comments and records; without
    --noHeader the file comes back unchanged, with it only the records do. *)
Theorem C34_blocks_back nosplit o bs t :
  bs <> [] -> Forall block_kept bs -> readable (flat_map (block_lines false) bs) -> whole nosplit (flat_map (block_lines false) bs) ->
  mpc80coltoxml ades_tables nosplit (file (flat_map (block_lines false) bs)) = Written t ->
  xmltompc80col ades_tables o t = Ok (file (flat_map (block_lines (o_noHeader o)) bs)).
Proof. exact (blocks_back nosplit o bs t). Qed.
(** The code tables alone: every catalogue letter in use, every band, every note and
    every program code is turned back into itself. *)
Theorem C34_catalogue c : In c catalogue_letters -> astCat80 (catalogue [c]) = Ok [c].
Proof. intros I. apply (cat_back c I). Qed.
Theorem C34_band c : band80 [c] = Ok [c].
Proof. exact (band_back c). Qed.
Theorem C34_program c : In c validProgramCodes -> c <> " "%char -> exists p, packProgID [c] = Ok p /\ p <> [] /\ unpackProgID p = Ok [c].
Proof.
  intros I N. apply cmem_in in I.
  assert (forall c, implb (cmem c validProgramCodes && negb (ceqb c " ")) (match packProgID [c] with Ok ((_ :: _) as p) => match unpackProgID p with Ok r => streqb r [c] | Err _ => false end | _ => false end) = true) as K
    by (apply forall_ascii; vm_compute; reflexivity).
  specialize (K c). rewrite I in K. replace (ceqb c " ") with false in K by (symmetry; now apply ceqb_neq). cbn [negb andb implb] in K.
  destruct (packProgID [c]) as [[|a p]|]; [discriminate K| |discriminate K]. exists (a :: p). split; [reflexivity|]. split; [discriminate|].
  destruct (unpackProgID (a :: p)) as [r|]; [|discriminate K]. apply streqb_eq in K. now subst r.
Qed.

(** * What does not come back *)
Definition there_and_back (ls : list str) : option (res (list str)) :=
  match mpc80coltoxml ades_tables true (file ls) with Written t => Some (xmltompc80col_lines ades_tables opts_default t) | _ => None end.
Definition lost (ls : list str) : Prop := exists ls', there_and_back ls = Some (Ok ls') /\ ls' <> ls.
(** put w into the columns from a on *)
Definition over (a : nat) (w l : str) : str := firstn (a - 1) l ++ w ++ skipn (a - 1 + length w) l.
Definition lost_line (l : str) (m : str) : Prop := there_and_back [l] = Some (Ok [m]) /\ m <> l.
Ltac differ := split; [vm_compute; reflexivity|vm_compute; discriminate].

(** a magnitude without band: UNK, which becomes N *)
Theorem C34_blank_band_refuted : exists l, decodable l /\ lost_line l (over 71 $"N" l).
Proof. exists (over 71 $" " ex_opt). split; [eexists; split; vm_compute; reflexivity|]. differ. Qed.
(** a band without magnitude; *)
Theorem C34_band_alone_refuted : exists l, decodable l /\ lost_line l (over 71 $" " l).
Proof. exists (over 66 $"     V" ex_opt). split; [eexists; split; vm_compute; reflexivity|]. differ. Qed.
(** columns 57-65; *)
Theorem C34_columns_57_65_refuted : exists l, decodable l /\ lost_line l (over 57 (spaces 9) l).
Proof. exists (over 57 $"anything!" ex_opt). split; [eexists; split; vm_compute; reflexivity|]. differ. Qed.
(** a letter in column 72 that is not in the table; *)
Theorem C34_catalogue_refuted : exists l, decodable l /\ lost_line l (over 72 $" " l).
Proof. exists (over 72 $"?" ex_opt). split; [eexists; split; vm_compute; reflexivity|]. differ. Qed.
(** columns 34, 46 and 58 of a satellite's second line; *)
Theorem C34_satellite_columns_refuted : exists l m, decodable l /\ decodable m /\ there_and_back [l; m] = Some (Ok [l; over 34 $" " (over 46 $" " (over 58 $" " m))]) /\
  over 34 $" " (over 46 $" " (over 58 $" " m)) <> m.
Proof.
  exists ex_S, (over 34 $"x" (over 46 $"y" (over 58 $"z" ex_s))). split; [eexists; split; vm_compute; reflexivity|].
  split; [eexists; split; vm_compute; reflexivity|]. differ.
Qed.
(** A radar pair without reference is converted to XML, but not back: KeyError. *)
Theorem C34_radar_reference_refuted : exists l m, decodable l /\ decodable m /\ there_and_back [l; m] = Some (Err KeyError).
Proof. exists ex_R, ex_r. split; [eexists; split; vm_compute; reflexivity|]. split; [eexists; split; vm_compute; reflexivity|]. vm_compute. reflexivity. Qed.
Definition ex_R6 : str := $"00433         R2017 01 01.500000000123456000000+00000123456000 02380251 JPLRS251".
Definition ex_r6 : str := $"00433         r2017 01 01.500000S00000000120000000000000012340      251 JPLRS251".
(** Optical and radar records under one heading: RuntimeError. *)
Theorem C34_mixed_block_refuted : exists l m n, decodable l /\ decodable m /\ decodable n /\
  there_and_back [l; m; n] = Some (Ok [l; m; n]) /\ there_and_back [$"COD I41"; l; m; n] = Some (Err RuntimeError).
Proof.
  exists ex_opt, ex_R6, ex_r6. split; [eexists; split; vm_compute; reflexivity|]. split; [eexists; split; vm_compute; reflexivity|].
  split; [eexists; split; vm_compute; reflexivity|]. split; vm_compute; reflexivity.
Qed.
(** The other headers, and all but the first of one keyword, are lost; comments come last. *)
Theorem C34_headers_refuted : exists l, decodable l /\
  there_and_back [$"ACK text"; $"AC2 a@b.c"; $"BND R"; $"NET Gaia"; $"NUM 1"; $"COM one"; $"COD I41"; $"COD 703"; l] =
    Some (Ok [$"COD I41"; $"COM one"; l]).
Proof. exists ex_opt. split; [eexists; split; vm_compute; reflexivity|]. vm_compute. reflexivity. Qed.
(** A block whose only line has code x gets no records in the XML; on the way back the
    records of the block before it are printed again in its place. *)
Theorem C34_empty_block_refuted : exists l x, decodable l /\ decodable x /\
  there_and_back [$"COD I41"; l; $"COD 703"; x] = Some (Ok [$"COD I41"; l; $"COD 703"; l]).
Proof. exists ex_opt, ex_x. split; [eexists; split; vm_compute; reflexivity|]. split; [eexists; split; vm_compute; reflexivity|]. vm_compute. reflexivity. Qed.

(** * Examples *)
Definition ex_V6 : str := $"     K17A00A  V2017 01 01.12345 01 02 03.45 +01 02 03.4                q@1234247".
Definition ex_v6 : str := $"     K17A00A  v2017 01 01.12345 1 123.123456 +12.123456   123          q@1234247".
Ltac dec := eexists; split; vm_compute; reflexivity.
Lemma ex_opt_kept : optical_kept ex_opt /\ optical_kept ex_S.
Proof.
  assert (forall l, cols 66 70 l = $"18.5 " -> cols 71 71 l = $"V" -> placed 2 (cols 66 70 l) /\ tidy (cols 71 71 l)) as K.
  { intros l -> ->. split; [|reflexivity]. exists 0, $"18.5", 1. vm_compute. repeat split; try discriminate; auto. }
  split; constructor; try (vm_compute; reflexivity).
  1,5: right; apply K; vm_compute; reflexivity.
  1,4: exists " "%char; vm_compute; auto.
  1,3: exact ref_none.
  all: split; [vm_compute; reflexivity|vm_compute; intuition discriminate].
Qed.
Lemma ex_V_kept : optical_kept ex_V6.
Proof.
  constructor; try (vm_compute; reflexivity).
  - left. vm_compute. reflexivity.
  - exists "q"%char. split; [vm_compute; reflexivity|]. vm_compute. tauto.
  - apply ref_packed; vm_compute; reflexivity.
  - split; [vm_compute; reflexivity|vm_compute; intuition discriminate].
Qed.
Lemma ex_R_kept : radar_kept ex_R6 ex_r6.
Proof.
  constructor; try (vm_compute; reflexivity).
  - split; vm_compute; reflexivity.
  - vm_compute. discriminate.
  - right. split; [vm_compute; reflexivity|vm_compute; discriminate].
  - split; vm_compute; reflexivity.
  - split; vm_compute; reflexivity.
  - split; [vm_compute; reflexivity|]. split; [vm_compute; reflexivity|vm_compute; intuition discriminate].
Qed.
Definition ex_chunks : list (list str) := [[ex_opt]; [ex_S; ex_s]; [ex_V6; ex_v6]; [ex_R6; ex_r6]].
Example C34_example : Forall kept ex_chunks /\ forallb plainb (concat ex_chunks) = true /\ whole true (concat ex_chunks) /\
  there_and_back (concat ex_chunks) = Some (Ok (concat ex_chunks)).
Proof.
  split; [|split; [vm_compute; reflexivity|split; [left; reflexivity|vm_compute; reflexivity]]].
  constructor; [|constructor; [|constructor; [|constructor; [|constructor]]]].
  - apply (kept_line ex_opt "C"); [dec|reflexivity|vm_compute; tauto|apply ex_opt_kept].
  - apply kept_satellite; try (vm_compute; reflexivity); try dec. apply ex_opt_kept.
  - apply (kept_rover ex_V6 ex_v6 2 $"123"); try (vm_compute; reflexivity); try dec; [apply ex_V_kept|..|vm_compute; discriminate].
    + exists 0, $"123.123456", 0. vm_compute. repeat split; try discriminate; auto.
    + exists 0, $"+12.123456", 0. vm_compute. repeat split; try discriminate; auto.
  - apply kept_radar; try (vm_compute; reflexivity); try dec. apply ex_R_kept.
Qed.
Definition ex_block : block80 := {| b_heads := [($"COD", $"I41"); ($"OBS", $"A. Bee, C. Dee"); ($"CON", $"Bee, There")]; b_comments := [$"one"; $"two, three"]; b_chunks := [[ex_opt]; [ex_S; ex_s]] |}.
Example C34_example_blocks : block_kept ex_block /\
  there_and_back (flat_map (block_lines false) [ex_block; ex_block]) = Some (Ok (flat_map (block_lines false) [ex_block; ex_block])).
Proof.
  split; [|vm_compute; reflexivity]. unfold block_kept. split; [|split; [vm_compute; discriminate|split; [vm_compute; discriminate|split]]].
  - unfold headers_kept. split; [|split; [|split]].
    + vm_compute. repeat constructor; vm_compute; intuition discriminate.
    + constructor; [|constructor; [|constructor; [|constructor]]]; cbn [fst snd].
      * apply kept_cod. vm_compute. reflexivity.
      * apply kept_obs. exists [$"A. Bee"; $"C. Dee"]. split; [discriminate|]. split; [|vm_compute; reflexivity].
        repeat constructor; vm_compute; try reflexivity; intuition discriminate.
      * apply (kept_con2 $"Bee" $"There"); vm_compute; try reflexivity; intuition discriminate.
    + repeat constructor; vm_compute; reflexivity.
    + assert (forallb (fun l : str => length l <=? 80) (header_lines (b_heads ex_block) (b_comments ex_block)) = true) as K by (vm_compute; reflexivity).
      apply Forall_forall. intros l I. rewrite forallb_forall in K. apply Nat.leb_le. apply K. exact I.
  - pose proof (proj1 C34_example) as F. unfold ex_chunks in F. constructor; [exact (Forall_inv F)|]. constructor; [exact (Forall_inv (Forall_inv_tail F))|constructor].
  - right. repeat constructor; intros Q; discriminate Q.
Qed.

Print Assumptions C34_back.
Print Assumptions C34_blocks_back.
Print Assumptions C34_catalogue.
Print Assumptions C34_band.
Print Assumptions C34_program.
Print Assumptions C34_blank_band_refuted.
Print Assumptions C34_band_alone_refuted.
Print Assumptions C34_columns_57_65_refuted.
Print Assumptions C34_catalogue_refuted.
Print Assumptions C34_satellite_columns_refuted.
Print Assumptions C34_radar_reference_refuted.
Print Assumptions C34_mixed_block_refuted.
Print Assumptions C34_headers_refuted.
Print Assumptions C34_empty_block_refuted.
