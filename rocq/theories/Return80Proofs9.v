(** Lemmas of C50, part 9: lists of records, and documents. *)
From Verif Require Import SchemaSpec PyStrProofs AdesMasterTables Schema XsdSpec SchemaSpec XsdFiles ValueSpec IdProofs5 RecordProofs1 RecordProofs6 PropsRecord PropsPrint.
From Verif Require Import PyFloat SexVals XmlToMpc80 JustSpec JustProofs Line80Spec LineProofs1 PropsMpc80 PropsPack PropsLine PropsDoc.
From Verif Require Import Mpc80 Mpc80Spec Mpc80Proofs1 Mpc80Proofs2 Mpc80Proofs3 Mpc80Proofs4 Mpc80Proofs6 Mpc80Proofs10 DocProofs6 Mpc80Proofs11 PackSpec FileLines DocSpec Back80Spec Back80Proofs5 Back80Proofs7 Back80Proofs10 Back80Proofs11 SexSpec Print80Spec Submit80Spec Submit80Proofs3 Submit80Proofs4 Submit80Proofs5 Submit80Proofs6 Return80Spec Return80Proofs1 Return80Proofs2 Return80Proofs3 Return80Proofs4 Return80Proofs5 Return80Proofs6 Return80Proofs7 Return80Proofs8 Return80Second Return80Second2.
From Verif Require Import Mpc80Spec DocSpec.
Local Open Scope nat_scope.

Lemma fine_plain l : fine l -> plain_line l.
Proof. intro H. split; intro I; apply (fine_in l _ H) in I; discriminate I. Qed.
Section Line.
Variable F : derivation -> str -> Prop.
Variable RV : reads_values F.
Variable o : opts80.
Hypothesis So : standard o.
Lemma heads r ls : valid F submit_xsd r -> returnable r -> record80 o r ls -> exists l m, ls = l :: m.
Proof.
  intros V [Tg PT Fi NA SF] H. apply (Submit80Proofs4.print_optical r o ls Tg) in H.
  destruct (C33_optical o _ ls (fits_o F RV r V o So Tg PT Fi) H) as (id & n & c & date & cat & ref & l & rest & _ & _ & _ & _ & _ & _ & -> & R). now exists l, rest.
Qed.
(** the rows of several lines *)
Definition gives_rows (ls : list str) (es : list xml) : Prop :=
  Forall plain_line ls /\ Forall (fun l => length l = 80 /\ column15 l <> $"R") ls /\ unsplit ls /\
  exists ds, length ds = length es /\ Forall (fun d => header d = false) ds /\ rows ofields rfields ds = Some es /\
    forall rest, records (read (ls ++ rest)) = (ds ++ fst (records (read rest)), snd (records (read rest))).
Lemma unsplit_80 l x : is_header_line l = false -> length l = 80 -> kind_is x l -> x <> "R"%char -> unsplit [l].
Proof.
  intros D L K N rest. cbn [app split_radar]. rewrite D, L. change (80 <? 14) with false. cbv iota.
  unfold column15. rewrite K. assert (streqb [x] $"R" = false) as ->; [|reflexivity].
  apply Bool.not_true_is_false. intros Q. apply streqb_eq in Q. injection Q as Q. contradiction.
Qed.
Lemma blank_strip s : strip s <> [] -> blank s = false.
Proof. unfold blank. destruct (strip s); [congruence|reflexivity]. Qed.
Lemma no_second id c date ra de mag i j k q q' r l m : parts r o l id c date ra de mag i j k q q' -> second_of r m id date -> located r = false -> m = [].
Proof. unfold second_of. cbv zeta. intros _ H E. now rewrite E in H. Qed.
Lemma second_kind l b k2 : decode80 l = Ok b -> ~ In nl l -> ~ header_line l -> cols 15 15 l = [k2] -> is_kind "0" b = false \/ k2 = "0"%char.
Proof.
  intros H NL NH K. apply decode_iff in H; [|exact NL].
  destruct (is_kind "0" b) eqn:Z; [right|now left].
  destruct H as [k v Le I E|t p perm prov trk ra pra de pde _ LO AC R0 DE
                            |t p perm prov trk shift _ LO AC S|t p perm prov trk _ LO AC
                            |t p perm prov trk x y z dp sys _ LO AC SY P1 P2 P3|t p perm prov trk _ LO AC|E].
  1: elim NH; now exists k, v.
  6: rewrite E in K; discriminate K.
  all: unfold is_kind in Z; match type of Z with streqb (text_of ?d _) _ = _ => change (text_of d $"code") with (cols 15 15 l) in Z end; rewrite K in Z; apply streqb_eq in Z; now injection Z.
Qed.
Lemma line_back r l m : valid F submit_xsd r -> returnable r -> record80 o r (l :: m) ->
  (decodable l <-> legible l) /\
  ((legible l /\ exists e, returned o r e l /\ gives_rows (l :: m) [e]) \/ (~ legible l /\ decode80 l = Err RuntimeError /\ gives_rows (l :: m) [])).
Proof.
  intros V [Tg PT Fi NA SF] H. destruct (line_parts F RV r V o So Tg PT Fi NA l m H) as (id & c & date & ra & de & mag & i & j & k & q & q' & PA & SO).
  pose proof (readable_iff F RV r V o Tg l id c date ra de mag i j k q q' PA) as RI. split; [exact RI|].
  pose proof (l_fine F RV r V o Tg l id c date ra de mag i j k q q' PA) as Fl. pose proof (no_nl F RV r V o Tg l id c date ra de mag i j k q q' PA) as NL.
  pose proof (l80 r o l id c date ra de mag i j k q q' PA) as L8.
  destruct (code_is r o l id c date ra de mag i j k q q' PA) as (x & Ex & Ix & _). pose proof (kind_c r o l id c date ra de mag i j k q q' PA x Ex) as Kx.
  assert (x <> "R"%char) as NR. { clear - Ix. intros ->. vm_compute in Ix. repeat (destruct Ix as [Ix|Ix]; [discriminate Ix|]). exact Ix. }
  pose proof (fine_plain l Fl) as Rl.
  assert (column15 l <> $"R") as CR. { unfold column15. rewrite Kx. intro Q. injection Q as Q. contradiction. }
  assert (unsplit [l]) as Ul. { apply (unsplit_80 l x); [|exact L8|exact Kx|exact NR]. rewrite is_header_line_eq. exact (header_false r o l id c date ra de mag i j k q q' PA). }
  (* the second line *)
  assert (Forall plain_line m /\ Forall (fun l => length l = 80 /\ column15 l <> $"R") m /\ unsplit m) as (Pm & Lm & Um).
  { destruct (located r) eqn:Lo; [|rewrite (no_second _ _ _ _ _ _ _ _ _ _ _ _ _ _ PA SO Lo); split; [constructor|]; split; [constructor|intro rest; unfold ahead; cbn [app]; apply surjective_pairing]].
    destruct (second_back F RV r V o Tg Lo (SF eq_refl) l id c date ra de mag i j k q q' PA m SO) as (l2 & -> & [sr_fine0 sr_len0 sr_head0 (k2 & Kk & Ik) _ _ _ _ _]).
    assert (k2 <> "R"%char) as N2 by (clear - Ik; intros ->; destruct Ik as [Q|[Q|[]]]; discriminate Q).
    split; [constructor; [now apply fine_plain|constructor]|]. split; [constructor; [split; [exact sr_len0|unfold column15; rewrite Kk; intro Q; injection Q as Q; contradiction]|constructor]|].
    apply (unsplit_80 l2 k2); [|exact sr_len0|exact Kk|exact N2]. rewrite is_header_line_eq. destruct (is_header l2) eqn:E; [|reflexivity]. apply is_header_iff in E. contradiction. }
  assert (forall ds es, length ds = length es -> Forall (fun d => header d = false) ds -> rows ofields rfields ds = Some es ->
    (forall rest, records (read ((l :: m) ++ rest)) = (ds ++ fst (records (read rest)), snd (records (read rest)))) -> gives_rows (l :: m) es) as GR.
  { intros ds es Z A B C. split; [now constructor|]. split; [constructor; [split; assumption|exact Lm]|]. split; [exact (unsplit_app [l] m Ul Um)|]. now exists ds. }
  assert (legible l \/ ~ legible l) as [LG|LG].
  { destruct (decode80 l) as [d|e] eqn:E; [|right; rewrite <- RI; intros (d & D & _); rewrite E in D; discriminate D].
    destruct (is_kind "0" d) eqn:K; [right; rewrite <- RI; intros (d' & D & K'); rewrite E in D; injection D as <-; congruence|]. left. apply RI. now exists d. }
  - left. split; [exact LG|].
    destruct (decoded F RV r V o Tg l id c date ra de mag i j k q q' PA LG) as (t & ra' & de' & qr & qd & perm & prov & trk & D & UN & (T1 & _ & T3 & T4) & (R1 & _ & R3 & R4 & R5) & (D1 & _ & D3 & D4 & D5)).
    set (d0 := dd l i j k t ra' de' perm prov trk) in *.
    assert (is_kind "0" d0 = false) as K0.
    { unfold is_kind. change (text_of d0 $"code") with (cols 15 15 l). rewrite Kx. clear - Ix. vm_compute in Ix. repeat (destruct Ix as [<-|Ix]; [vm_compute; reflexivity|]). destruct Ix. }
    apply (C26_decode l _ NL) in D. pose proof (data_lines l _ x NL D K0 Kx) as DL.
    assert (exists dj, (forall y, smem y locs = false -> text_of dj y = text_of d0 y) /\ (forall y, smem y locs = true -> fine (text_of dj y)) /\ (cols 15 15 l = $"V" -> blank (text_of dj $"pos3") = false) /\
      (if located r then strip (text_of dj $"sys") = rec_value r $"sys" /\ strip (text_of dj $"ctr") = $"399" /\
         forall y, In y ["pos1"; "pos2"; "pos3"]%string -> strip (text_of dj $y) = position_back (rec_value r $"sys") (rec_value r $y)
       else forall y, In y location_fields -> text_of dj $y = []) /\ yields (l :: m) dj) as (dj & SD & LF & ND & LD & Y).
    { destruct (located r) eqn:Lo.
      - destruct (second_back F RV r V o Tg Lo (SF eq_refl) l id c date ra de mag i j k q q' PA m SO) as (l2 & -> & [sr_fine0 sr_len0 sr_head0 (k2 & Kk & Ik) sr_id0 sr_date0 sr_stn0 sr_ok0 _]).
        destruct (sr_ok0 LG) as (b & Db & Zb & Fs & Fc & Ss & Sc & Ps).
        assert (~ In nl l2) as N2 by (intro I; apply (fine_in l2 nl sr_fine0) in I; discriminate I).
        pose proof (data_lines l2 b k2 N2 Db Zb Kk) as D2.
        assert (In (x, k2) [("R", "r"); ("S", "s"); ("V", "v")]%char) as Ixk by (rewrite Ex in Ik; clear - Ik; destruct Ik as [Q|[Q|[]]]; injection Q as <- <-; vm_compute; tauto).
        assert (joined d0 b = updated (map (fun k => (k, text_of b k)) locs) d0) as Ej.
        { unfold joined. assert (is_kind "R" d0 = false) as ->; [|reflexivity]. unfold is_kind. change (text_of d0 $"code") with (cols 15 15 l). rewrite Kx. apply Bool.not_true_is_false. intro Q. apply streqb_eq in Q. injection Q as Q. contradiction. }
        assert (forall y, In y location_fields -> text_of (joined d0 b) $y = text_of b $y) as TL.
        { intros y I. rewrite Ej. unfold location_fields in I. destruct I as [<-|[<-|[<-|[<-|[<-|[]]]]]]; reflexivity. }
        assert (forall y, In y ["pos1"; "pos2"; "pos3"]%string -> In y location_fields) as PL by (intros y I; unfold location_fields; cbn [In] in I |- *; tauto).
        exists (joined d0 b). split; [|split; [|split; [|split]]].
        + intros y E. rewrite Ej. apply text_updated. unfold locs, location_fields in *. cbn [map existsb fst smem] in *. exact E.
        + intros y E. apply smem_iff in E. unfold locs in E. apply in_map_iff in E as (z & <- & I). rewrite TL by exact I.
          destruct I as [<-|[<-|[<-|[<-|[<-|[]]]]]]; [exact Fs|exact Fc|apply Ps; cbn [In]; tauto..].
        + intros _. rewrite TL by (unfold location_fields; cbn [In]; tauto). apply blank_strip. destruct (Ps "pos3"%string ltac:(cbn [In]; tauto)) as (_ & ->).
          destruct (pos_shape F RV r V Tg Lo "pos3" ltac:(cbn [In]; tauto)) as (sg & u & Eu & P3). rewrite Eu. unfold position_back.
          destruct (sign_cases sg u P3) as (s0 & _ & -> & _). destruct P3 as (_ & (Nu & _) & _). destruct (streqb _ _); [destruct sg; [exact Nu|discriminate]|discriminate].
        + split; [rewrite TL by (unfold location_fields; cbn [In]; tauto); exact Ss|]. split; [rewrite TL by (unfold location_fields; cbn [In]; tauto); exact Sc|]. intros y I. rewrite TL by (now apply PL). now apply Ps.
        + apply (yields_pair l l2 d0 b x k2); try assumption. intros ->. contradiction.
      - exists d0. split; [reflexivity|]. split; [intros y E; apply smem_iff in E; unfold locs in E; apply in_map_iff in E as (z & <- & I); destruct I as [<-|[<-|[<-|[<-|[<-|[]]]]]]; reflexivity|].
        assert (In x $"A PeCBTMcEOHNnX") as Ix2 by (pose proof (pa_code _ _ _ _ _ _ _ _ _ _ _ _ _ _ PA) as Pc; rewrite Lo in Pc; destruct (code_char _ _ Pc) as (x0 & Q & I & _); rewrite Ex in Q; injection Q as <-; clear - I; vm_compute in I |- *; tauto).
        split; [intro Q; rewrite Kx in Q; injection Q as ->; exfalso; clear - Ix2; vm_compute in Ix2; intuition discriminate|].
        split; [intros y I; destruct I as [<-|[<-|[<-|[<-|[<-|[]]]]]]; reflexivity|].
        rewrite (no_second _ _ _ _ _ _ _ _ _ _ _ _ _ _ PA SO Lo). apply (yields_line l _ x NL DL Kx Ix2). }
    destruct (row_is F RV r V o Tg l id c date ra de mag i j k q q' PA LG t ra' de' perm prov trk T3 R3 D3 UN dj SD LF ND) as (pg & Rw & Pg & Sg & _).
    exists (element $"optical" ofields (optical_text pg (spaces 5) dj)). split.
    + exact (comes_back F RV r V o So Tg l id c date ra de mag i j k q q' PA LG t ra' de' perm prov trk qr qd UN T1 T4 R1 R4 R5 D1 D4 D5 pg dj SD LF LD Pg Sg).
    + apply (GR [dj]); [reflexivity|..].
      * constructor; [|constructor]. unfold header, is_kind. rewrite SD by reflexivity. exact K0.
      * unfold rows; cbn [together]; now rewrite Rw.
      * exact Y.
  - right. split; [exact LG|]. pose proof (refused F RV r V o Tg l id c date ra de mag i j k q q' PA LG) as Rf. split; [exact Rf|]. apply (GR []); [reflexivity|constructor|reflexivity|].
    intro rest. cbn [app]. assert (read (l :: m ++ rest) = read (m ++ rest)) as ->. { change (read (l :: m ++ rest)) with (read_line l ++ read (m ++ rest)). unfold read_line. rewrite Rf. destruct (streqb l (spaces (length l))); reflexivity. }
    destruct (located r) eqn:Lo; [|rewrite (no_second _ _ _ _ _ _ _ _ _ _ _ _ _ _ PA SO Lo); cbn [app]; apply surjective_pairing].
    destruct (second_back F RV r V o Tg Lo (SF eq_refl) l id c date ra de mag i j k q q' PA m SO) as (l2 & -> & [sr_fine0 sr_len0 sr_head0 (k2 & Kk & Ik) _ _ _ _ sr_quiet0]).
    assert (~ In nl l2) as N2 by (intro I; apply (fine_in l2 nl sr_fine0) in I; discriminate I).
    cbn [app]. change (read (l2 :: rest)) with (read_line l2 ++ read rest). destruct (decode80 l2) as [b|e] eqn:E2.
    + destruct (second_kind l2 b k2 E2 N2 sr_head0 Kk) as [Zb| ->]; [|exfalso; clear - Ik; destruct Ik as [Q|[Q|[]]]; discriminate Q].
      pose proof (data_lines l2 b k2 N2 E2 Zb Kk) as D2. rewrite (dl_read _ _ D2 N2). cbn [app records].
      assert (first_line b = false /\ second_line b = true) as [-> ->].
      { unfold first_line, second_line, is_kind. rewrite (dl_code _ _ D2), Kk. clear - Ik. destruct Ik as [Q|[Q|[]]]; injection Q as <- _; split; vm_compute; reflexivity. }
      apply surjective_pairing.
    + assert (read_line l2 = []) as ->; [|cbn [app]; apply surjective_pairing]. unfold read_line. rewrite E2, (sr_quiet0 e eq_refl). destruct (streqb l2 (spaces (length l2))); reflexivity.
Qed.
Lemma rows_app ds ds' es es' : rows ofields rfields ds = Some es -> rows ofields rfields ds' = Some es' -> rows ofields rfields (ds ++ ds') = Some (es ++ es').
Proof.
  unfold rows. revert es. induction ds as [|d ds IH]; intros es A B; cbn [together app] in *; [injection A as <-; exact B|].
  destruct (row ofields rfields d) as [x|]; [|discriminate A]. destruct (together _ ds) as [y|]; [|discriminate A]. injection A as <-. rewrite (IH y eq_refl B). now rewrite app_assoc.
Qed.
Lemma rows_cons l e ls es : gives_rows l e -> gives_rows ls es -> gives_rows (l ++ ls) (e ++ es).
Proof.
  intros (R1 & L1 & U1 & ds & Z1 & H1 & W1 & E1) (R2 & L2 & U2 & ds' & Z2 & H2 & W2 & E2). split; [now apply Forall_app|]. split; [now apply Forall_app|]. split; [now apply unsplit_app|].
  exists (ds ++ ds'). split; [rewrite !app_length; lia|]. split; [now apply Forall_app|]. split; [now apply rows_app|]. intro rest. rewrite <- app_assoc. rewrite E1, E2. cbn [fst snd]. now rewrite app_assoc.
Qed.
Lemma list_back rs lss : Forall2 (record80 o) rs lss -> (forall r, In r rs -> valid F submit_xsd r /\ (xtag r = $"offset" \/ returnable r)) ->
  exists es, came_back o rs (concat lss) es /\ gives_rows (concat lss) es /\
    ((exists r l m, In r rs /\ xtag r <> $"offset" /\ record80 o r (l :: m) /\ legible l) -> es <> []).
Proof.
  induction 1 as [|r lr rs lss H _ IH]; intro A.
  - exists []. split; [constructor|]. split; [|intros (r & _ & _ & [] & _)]. split; [constructor|]. split; [constructor|]. split; [intro rest; unfold ahead; cbn [app]; apply surjective_pairing|]. exists []. split; [reflexivity|]. split; [constructor|]. split; [reflexivity|]. intro rest. cbn [app]. apply surjective_pairing.
  - destruct IH as (es & C & G & NE). { intros r' I. apply A. now right. }
    destruct (A r (or_introl eq_refl)) as (V & [T|O]).
    + apply (offset_lines o r lr T) in H. subst lr. exists es. split; [now constructor|]. split; [exact G|]. intros (r' & l' & m' & [<-|I] & NT & X); [contradiction|]. apply NE. now exists r', l', m'.
    + destruct (heads r lr V O H) as (l & m & ->). cbn [concat]. destruct (line_back r l m V O H) as (_ & [(LG & e & R & Gr)|(LG & _ & Gr)]).
      * exists (e :: es). split; [now apply (cb_read o r rs l m)|]. split; [exact (rows_cons (l :: m) [e] _ _ Gr G)|discriminate].
      * exists es. split; [now apply (cb_lost o r rs l m)|]. split; [exact (rows_cons (l :: m) [] _ _ Gr G)|].
        intros (r' & l' & m' & [<-|I] & NT & R' & LG'); [|apply NE; now exists r', l', m'].
        destruct O as [Tg _ _ _ _]. apply (Submit80Proofs4.print_optical r o (l :: m) Tg) in H. apply (Submit80Proofs4.print_optical r o (l' :: m') Tg) in R'. rewrite H in R'. injection R' as <- _. contradiction.
Qed.
Lemma rows_document nosplit ls es : gives_rows ls es -> mpc80coltoxml ades_tables nosplit (file ls) = Written (ades es).
Proof.
  intros (R & L & S & ds & _ & H & W & E). destruct opt_rad as [HO HR]. specialize (E []). specialize (S []). rewrite app_nil_r in E, S. cbn in E. rewrite app_nil_r in E. cbn [split_radar] in S. unfold ahead in S. cbn [fst snd] in S. rewrite app_nil_r in S.
  rewrite (C39_headerless ades_tables ofields rfields nosplit ls ds HO HR); [rewrite W; reflexivity| | |exact H].
  - split; [exact R|]. intros p l q -> _ C. rewrite Forall_forall in L. destruct (L l (in_elt _ _ _)) as [_ N]. contradiction.
  - unfold records_of. rewrite firstn_short; [|eapply Forall_impl; [|exact L]; intros l [Q _]; lia]. destruct nosplit; [exact E|]. rewrite S, E. reflexivity.
Qed.
Lemma document_back nosplit t ls : o_noHeader o = true -> valid F submit_xsd t -> xtag t = $"ades" ->
  (forall r, In r (observations t) -> xtag r = $"offset" \/ returnable r) -> xmltompc80col_lines ades_tables o t = Ok ls ->
  exists es, mpc80coltoxml ades_tables nosplit (file ls) = Written (ades es) /\ came_back o (observations t) ls es.
Proof.
  intros NH V T A H. apply (C41_ades_submit F t T) in V as (_ & _ & _ & N & K).
  assert (forall b, In b (xkids t) -> is_tag $"obsBlock" b = true -> block_data_of b <> []) as Nb by (intros b I _; destruct (K b I) as [Tb Vb]; now destruct (block_facts F b Vb Tb)).
  apply (C44_parts o t ls T Nb) in H as (p & P & ->).
  assert (exists lss, Forall2 (record80 o) (observations t) lss /\ concat p = concat lss) as (lss & P1 & ->).
  { unfold observations. clear A Nb N. revert K P. generalize (xkids t) as bs0. intros bs0 K P. revert K. induction P as [|b l bs p Hb _ IH]; intro K; [exists []; split; [constructor|reflexivity]|].
    destruct IH as (lss & I1 & I2). { intros b' I. apply K. now right. }
    destruct (K b (or_introl eq_refl)) as [Tb Vb]. destruct (block_facts F b Vb Tb) as (_ & Nd & _).
    unfold part80, is_tag in Hb. rewrite Tb in Hb. change (streqb $"obsBlock" $"obsBlock") with true in Hb. cbv iota in Hb. destruct Hb as (_ & rl & Hr & ->). rewrite NH. cbn [app].
    assert (Forall2 (record80 o) (block_data_of b) rl) as Hr' by (destruct (block_data_of b); [now elim Nd|exact Hr]).
    exists (rl ++ lss). split; [cbn [flat_map]; now apply Forall2_app|]. cbn [concat]. now rewrite I2, concat_app. }
  destruct (list_back _ _ P1) as (es & C & G & _).
  { intros r I. split; [|now apply A]. unfold observations in I. apply in_flat_map in I as (b & Ib & Ir). destruct (K b Ib) as [Tb Vb]. destruct (block_facts F b Vb Tb) as (_ & _ & Rb). now destruct (Rb r Ir). }
  exists es. split; [now apply rows_document|exact C].
Qed.
End Line.
