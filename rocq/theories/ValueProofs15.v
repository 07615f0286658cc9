(** Lemmas about ValueSpec, part 15: radar records of two lines. *)
From Verif Require Import PyStrProofs PackUtil Codes PackSpec Back80Proofs2 Back80Proofs6 Back80Proofs7 Back80Proofs8.
From Verif Require Import Mpc80 Mpc80Spec Mpc80Proofs1 Mpc80Proofs4 Mpc80Proofs11 DocSpec ValidSpec RecordSpec.
From Verif Require Import IdSpec ValueSpec XsdFiles ValueProofs1 ValueProofs11 ValueProofs14.
From Verif Require RecordProofs1 PropsMpc80.
From Verif Require Import PropsDoc.
Local Open Scope nat_scope.

Definition radar_dict (l t : str) (p : prec) (perm prov trk : option str) (shift : str) : item :=
  texts (common l ++
      [($"delay", implied_point 5 (cols 33 47 l)); ($"shift", shift);
       ($"frq", firstn 5 (cols 63 68 l) ++ $"." ++ skipn 5 (cols 63 68 l));
       ($"trx", cols 69 71 l); ($"packedref", cols 72 77 l); ($"stn", cols 78 80 l)] ++
      time_fields t p ++ [($"astCat", cols 72 72 l)]) ++ designation perm prov trk.
Definition radar_added (l m shift : str) : list (str * str) :=
  [($"sc", cols 33 33 m); ($"com", if streqb (cols 33 33 m) $"S" then $"0" else $"1");
             ($"rmsDelay", implied_point 10 (cols 34 47 m)); ($"rmsDoppler", implied_point 11 (cols 48 62 m));
             ($"frq continuation", cols 63 68 m); ($"rcv", cols 78 80 m);
             ($"doppler", shift); ($"ref", cols 72 77 l)].
Definition radar_keys : list str := Eval vm_compute in map fst (radar_dict [] [] (PInt 0) None None None []).
Lemma radar_keys_ok l t p perm prov trk shift : map fst (radar_dict l t p perm prov trk shift) = radar_keys.
Proof. reflexivity. Qed.
Lemma radar_none l m t p perm prov trk shift x : In x radar_others -> text_of (updated (radar_added l m shift) (radar_dict l t p perm prov trk shift)) x = [].
Proof.
  intro I. assert (forallb (fun x => negb (smem x radar_keys) && negb (existsb (fun kv => streqb x (fst kv)) (radar_added [] [] []))) radar_others = true) as Q by (vm_compute; reflexivity).
  rewrite forallb_forall in Q. specialize (Q x I). apply andb_prop in Q as [Q1 Q2]. rewrite text_updated.
  - unfold text_of. rewrite dget_none; [reflexivity|]. rewrite radar_keys_ok. intro J. apply RecordProofs1.smem_iff in J. rewrite J in Q1. discriminate Q1.
  - apply Bool.negb_true_iff in Q2. exact Q2.
Qed.
Section Radar.
  Variable F : derivation -> str -> Prop.
  Hypothesis RT : reads_texts F.
  Hypothesis RD : reads_decimals F.
  Hypothesis RI : reads_integers F.
  Hypothesis RM : reads_times F.
  Lemma radar_values l m a b : ~ In nl l -> ~ In nl m -> decode80 l = Ok a -> decode80 m = Ok b -> is_kind "0" a = false -> is_kind "0" b = false ->
    cols 15 15 l = $"R" -> cols 15 15 m = $"r" ->
    (fields_fine F general_xsd $"radar" radar_fields (text_of (joined a b)) <-> takes_radar l m).
  Proof.
    intros NL NM HA HB ZA ZB KL KM. apply (PropsMpc80.C26_decode l a NL) in HA. apply (PropsMpc80.C26_decode m b NM) in HB.
    assert (is_kind "R" a = true) as KA.
    { destruct HA; try discriminate ZA; unfold is_kind; try (change (text_of _ $"code") with (cols 15 15 l); rewrite KL; reflexivity). rewrite H in KL. discriminate KL. }
    assert (is_kind "r" b = true) as KB.
    { destruct HB; try discriminate ZB; unfold is_kind; try (change (text_of _ $"code") with (cols 15 15 m); rewrite KM; reflexivity). rewrite H in KM. discriminate KM. }
    destruct (decodes_R l a HA KA) as (F0 & t & p & perm & prov & trk & shift & _ & AC & SH & EA).
    destruct (decodes_r m b HB KB) as (G0 & t' & p' & perm' & prov' & trk' & _ & _ & EB).
    apply laid_out_fitp in F0, G0. assert (length l = 80) as L by now apply lay80 in F0. assert (length m = 80) as M by now apply lay80 in G0.
    assert (ED : joined a b = updated (radar_added l m shift) (radar_dict l t p perm prov trk shift)).
    { unfold joined. rewrite KA, EA, EB. reflexivity. }
    rewrite ED. set (T := text_of _).
    assert (forallb numeric (cols 33 47 l) = true) as N1 by fclass F0.
    assert (forallb snumeric (cols 48 62 l) = true) as N2 by fclass F0.
    assert (forallb numeric (cols 63 68 l) = true) as N3 by fclass F0.
    assert (forallb numeric (cols 34 47 m) = true) as N4 by fclass G0.
    assert (forallb numeric (cols 48 62 m) = true) as N5 by fclass G0.
    apply (radar_fine F RT RD RI RM l m T t p perm prov trk shift L M NL AC SH N1 N2 N3 N4 N5); try reflexivity.
    - change (T $"com") with (if streqb (cols 33 33 m) $"S" then $"0" else $"1"). destruct (streqb (cols 33 33 m) $"S"); [now left|right; now left].
    - intros x J. now apply radar_none.
  Qed.
End Radar.
