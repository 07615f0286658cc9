(** Lemmas of C50, part 8: lines that are not read again are skipped. *)
From Verif Require Import SchemaSpec PyStrProofs AdesMasterTables Schema XsdSpec SchemaSpec XsdFiles ValueSpec IdProofs5.
From Verif Require Import PyFloat SexVals XmlToMpc80 JustSpec JustProofs Line80Spec LineProofs1 PropsMpc80 PropsPack.
From Verif Require Import Mpc80 Mpc80Spec Mpc80Proofs1 Mpc80Proofs2 Mpc80Proofs3 Mpc80Proofs4 Mpc80Proofs6 DocProofs6 Mpc80Proofs11 PackSpec DocSpec Back80Spec Back80Proofs10 SexSpec Print80Spec Submit80Spec Submit80Proofs5 Return80Spec Return80Proofs1 Return80Proofs2 Return80Proofs3 Return80Proofs4 Return80Proofs5 Return80Proofs7.
From Verif Require Import Mpc80Spec DocSpec.
Local Open Scope nat_scope.

Lemma other_layout f kinds l x : cols 15 15 l = [x] -> length (flat f) = 80 -> nth_error (flat f) 14 = Some (one_of kinds) -> cmem x kinds = false -> fitp (flat f) l = false.
Proof.
  intros E L N M. destruct (fitp (flat f) l) eqn:Q; [|reflexivity]. apply laid_out_fitp in Q. destruct (kind_char f kinds l Q L N) as (y & Ey & My). rewrite E in Ey. injection Ey as <-. congruence.
Qed.
Lemma quiet {A} (a : res A) (e : exn) : a = Err RuntimeError -> a = Err e -> e = RuntimeError.
Proof. intros -> H. now injection H as <-. Qed.

Section Line.
Variable F : derivation -> str -> Prop.
Variable RV : reads_values F.
Variable r : xml.
Hypothesis V : valid F submit_xsd r.
Variable o : opts80.
Hypothesis Tg : In (xtag r) [$"optical"; $"occultation"].
Variables l id c date ra de mag : str.
Variables i j k : nat.
Variables q q' : Q.
Hypothesis PA : parts r o l id c date ra de mag i j k q q'.
Let CO := cols_are r o l id c date ra de mag i j k q q' PA.
Lemma no_nl : ~ In nl l.
Proof. intro I. apply (fine_in l nl (l_fine F RV r V o Tg l id c date ra de mag i j k q q' PA)) in I. discriminate I. Qed.
Lemma no_header : ~ header_line l.
Proof. rewrite (line_is r o l id c date ra de mag i j k q q' PA). apply (pack_not_header (text_if r "permID", text_if r "provID", text_if r "trkSub")). exact (pa_id _ _ _ _ _ _ _ _ _ _ _ _ _ _ PA). Qed.
Lemma header_false : is_header l = false.
Proof. destruct (is_header l) eqn:E; [|reflexivity]. apply is_header_iff in E. now elim no_header. Qed.
Lemma date_quiet e : checkDate (cols 16 32 l) false = Err e -> e = RuntimeError.
Proof.
  rewrite (co_date _ _ _ _ _ _ _ _ CO). destruct (TA r o l id c date ra de mag i j k q q' PA) as (_ & A & B).
  destruct (in_dec (list_eq_dec Ascii.ascii_dec) (firstn 6 (skipn 11 date)) (map (fun j => num 6 (625 * j)) short_by_rounding)) as [I|I].
  - apply in_map_iff in I as (jj & E & I). apply quiet. apply (A jj I). now symmetry.
  - destruct B as (t & E & _). { intros jj Ij E. apply I. apply in_map_iff. exists jj. split; [now symmetry|exact Ij]. } rewrite E. discriminate 1.
Qed.
Lemma ra_quiet e : checkRa (cols 33 44 l) = Err e -> e = RuntimeError.
Proof.
  rewrite (co_ra _ _ _ _ _ _ _ _ CO). destruct (RA r o l id c date ra de mag i j k q q' PA) as (_ & A & B).
  destruct (list_eq_dec Ascii.ascii_dec (firstn 2 (skipn 6 ra)) $"60") as [E|E]; [apply quiet; now apply A|]. destruct (B E) as (t & x & -> & _). discriminate 1.
Qed.
Lemma dec_quiet e : checkDec (cols 45 56 l) = Err e -> e = RuntimeError.
Proof.
  rewrite (co_de _ _ _ _ _ _ _ _ CO). destruct (DA r o l id c date ra de mag i j k q q' PA) as (_ & A & B).
  destruct (list_eq_dec Ascii.ascii_dec (firstn 2 (skipn 4 de)) $"60") as [E|E]; [apply quiet; now apply A|]. destruct (B E) as (t & x & -> & _). discriminate 1.
Qed.
Lemma tail_quiet D e : tail_checks l D = Err e -> e = RuntimeError.
Proof.
  unfold tail_checks. destruct (negb _); [intro H; now injection H as <-|]. destruct (unpackPackedID (cols 1 12 l)) as [[[a b] d]|e'] eqn:U; cbn [rbind]; [discriminate 1|]. intro H. injection H as <-. exact (C11_only_runtime_error _ _ U).
Qed.
Lemma err_quiet e : decode80 l = Err e -> e = RuntimeError.
Proof.
  pose proof (l80 r o l id c date ra de mag i j k q q' PA) as L. rewrite decode80_data by (exact no_nl || exact L || exact header_false).
  destruct (code_is r o l id c date ra de mag i j k q q' PA) as (x & Ex & Ix & _). pose proof (co_c _ _ _ _ _ _ _ _ CO) as Cc. rewrite Ex in Cc.
  assert (cmem x $"R" = false /\ cmem x $"r" = false /\ cmem x $"s" = false /\ cmem x $"v" = false) as (X1 & X2 & X3 & X4).
  { clear - Ix. vm_compute in Ix. repeat (destruct Ix as [<-|Ix]; [vm_compute; tauto|]). destruct Ix. }
  destruct (fitp (flat optical_layout) l) eqn:F1.
  - rewrite data_optical, normal_eq by auto.
    destruct (checkDate (cols 16 32 l) false) as [[t p]|e1] eqn:E1; cbn [rbind]; [|intro H; injection H as <-; now apply date_quiet].
    destruct (checkRa (cols 33 44 l)) as [[a b]|e1] eqn:E2; cbn [rbind]; [|intro H; injection H as <-; now apply ra_quiet].
    destruct (checkDec (cols 45 56 l)) as [[a' b']|e1] eqn:E3; cbn [rbind]; [|intro H; injection H as <-; now apply dec_quiet].
    rewrite optical_checks; [apply tail_quiet|exact L|eapply codeok_of; [exact F1|reflexivity..]|exact E1].
  - rewrite data_none; [intro H; now injection H as <-|exact L|exact F1| | | |].
    + exact (other_layout radar1_layout $"R" l x Cc eq_refl eq_refl X1).
    + exact (other_layout radar2_layout $"r" l x Cc eq_refl eq_refl X2).
    + exact (other_layout satellite_layout $"s" l x Cc eq_refl eq_refl X3).
    + exact (other_layout rover_layout $"v" l x Cc eq_refl eq_refl X4).
Qed.
Lemma refused : ~ legible l -> decode80 l = Err RuntimeError.
Proof.
  intro N. destruct (decode80 l) as [d|e] eqn:E.
  - exfalso. apply N. apply (readable_iff F RV r V o Tg l id c date ra de mag i j k q q' PA). exists d. split; [exact E|].
    destruct (is_kind "0" d) eqn:K; [|reflexivity]. exfalso. apply (C26_decode l d no_nl) in E.
    destruct (code_is r o l id c date ra de mag i j k q q' PA) as (x & Ex & Ix & _). pose proof (co_c _ _ _ _ _ _ _ _ CO) as Cc. rewrite Ex in Cc.
    destruct E as [kw v Le I E|t p perm prov trk ra1 pra de1 pde NH La AC R0 DE
                            |t p perm prov trk shift NH La AC S|t p perm prov trk NH La AC
                            |t p perm prov trk x1 y1 z1 dp sys NH La AC SY P1 P2 P3|t p perm prov trk NH La AC|E].
    + apply no_header. exists kw, v. now split.
    + unfold is_kind in K. match type of K with streqb (text_of ?d _) _ = _ => change (text_of d $"code") with (cols 15 15 l) in K end. rewrite Cc in K. clear - K Ix. vm_compute in Ix. repeat (destruct Ix as [<-|Ix]; [discriminate K|]). destruct Ix.
    + unfold is_kind in K. match type of K with streqb (text_of ?d _) _ = _ => change (text_of d $"code") with (cols 15 15 l) in K end. rewrite Cc in K. clear - K Ix. vm_compute in Ix. repeat (destruct Ix as [<-|Ix]; [discriminate K|]). destruct Ix.
    + unfold is_kind in K. match type of K with streqb (text_of ?d _) _ = _ => change (text_of d $"code") with (cols 15 15 l) in K end. rewrite Cc in K. clear - K Ix. vm_compute in Ix. repeat (destruct Ix as [<-|Ix]; [discriminate K|]). destruct Ix.
    + unfold is_kind in K. match type of K with streqb (text_of ?d _) _ = _ => change (text_of d $"code") with (cols 15 15 l) in K end. rewrite Cc in K. clear - K Ix. vm_compute in Ix. repeat (destruct Ix as [<-|Ix]; [discriminate K|]). destruct Ix.
    + unfold is_kind in K. match type of K with streqb (text_of ?d _) _ = _ => change (text_of d $"code") with (cols 15 15 l) in K end. rewrite Cc in K. clear - K Ix. vm_compute in Ix. repeat (destruct Ix as [<-|Ix]; [discriminate K|]). destruct Ix.
    + discriminate K.
  - f_equal. exact (err_quiet e E).
Qed.
End Line.
