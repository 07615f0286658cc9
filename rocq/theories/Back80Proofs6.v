(** Lemmas about Back80Spec, part 6: optical lines. *)
From Verif Require PropsPack.
From Verif Require Import PyStrProofs JustSpec JustProofs AdesMasterTables.
From Verif Require Import XmlToMpc80 Mpc80 Mpc80Spec Line80Spec LineProofs1 PackSpec DocSpec DocProofs2 Mpc80Proofs1 Mpc80Proofs4 Mpc80Proofs12.
From Verif Require Import Back80Spec Back80Proofs1 Back80Proofs2 Back80Proofs3 Back80Proofs4 Back80Proofs5.
From Verif Require Import Mpc80Spec.
Local Open Scope nat_scope.

Definition text_or (o : option str) : str := match o with Some s => s | None => [] end.
(** the texts of the record of an optical line *)
Record source (l : str) (d : item) (t : str) (p : prec) (perm prov trk : option str) (ra : str) (pra : prec) (de : str) (pde : prec) : Prop := {
  s_perm : text_of d $"permID" = text_or perm; s_prov : text_of d $"provID" = text_or prov; s_trk : text_of d $"trkSub" = text_or trk;
  s_art : text_of d $"artSat" = []; s_disc : text_of d $"disc" = cols 13 13 l; s_notes : text_of d $"notes" = cols 14 14 l;
  s_code : text_of d $"code" = cols 15 15 l; s_time : text_of d $"obsTime" = t; s_ptime : text_of d $"precTime" = prec_str p;
  s_ra : text_of d $"ra" = ra; s_pra : text_of d $"precRA" = prec_str pra; s_de : text_of d $"dec" = de; s_pde : text_of d $"precDec" = prec_str pde;
  s_mag : text_of d $"mag" = cols 66 70 l; s_band : text_of d $"band" = cols 71 71 l; s_ref : text_of d $"packedref" = cols 72 77 l;
  s_cat : text_of d $"astCat" = cols 72 72 l; s_stn : text_of d $"stn" = cols 78 80 l }.

Lemma shown_seen o : match strip (text_or o) with [] => None | v => Some v end = seen o.
Proof. destruct o; reflexivity. Qed.
Lemma shown_texty (text : str -> str) k v : text k = v -> texty v -> shown text k = Some v.
Proof. intros E [T N]. unfold shown. rewrite E, T. now destruct v. Qed.
Lemma skip1 l : length l = 80 -> skipn 1 (cols 72 77 l) = cols 73 77 l.
Proof. intros L. rewrite <- (cols_app 72 72 77) by lia. destruct (nth_cols 71 l) as (c & _ & C); [lia|]. rewrite C. reflexivity. Qed.
Lemma disc_back l : laid_out optical_layout l -> match strip (cols 13 13 l) with [] => $" " | v => v end = cols 13 13 l.
Proof.
  intros F. apply laid_out_fitp in F. assert (length l = 80) as L by now apply lay80 in F.
  assert (forallb (one_of $" *+") (cols 13 13 l) = true) as K by fclass F. destruct (nth_cols 12 l) as (c & _ & C); [lia|]. rewrite C in *. cbn [forallb] in K. rewrite andb_true_r in K.
  revert K. assert (forall c, implb (one_of $" *+" c) (streqb (match strip [c] with [] => $" " | v => v end) [c]) = true) as S by (apply forall_ascii; vm_compute; reflexivity).
  intros K. specialize (S c). rewrite K in S. now apply streqb_eq in S.
Qed.
Lemma has_or d k (text : str -> str) df : dget k d = shown text k -> hasKeyOrVal d k df = match strip (text k) with [] => df | v => v end.
Proof. intros H. unfold hasKeyOrVal. rewrite H. unfold shown. now destruct (strip (text k)). Qed.
Lemma texty_no v : texty v -> forall df : str, match strip v with [] => df | w => w end = v.
Proof. intros [T N] df. rewrite T. now destruct v. Qed.

Section Optical.
  Variables (o : opts80) (l : str) (d : item) (t : str) (p : prec) (perm prov trk : option str) (ra : str) (pra : prec) (de : str) (pde : prec) (pg rf : str).
  Hypothesis S : source l d t p perm prov trk ra pra de pde.
  Hypothesis NL : ~ In nl l.
  Hypothesis F : laid_out optical_layout l.
  Hypothesis AC : accepted false l t p perm prov trk.
  Hypothesis RA : checkRa (cols 33 44 l) = Ok (ra, pra).
  Hypothesis DE : checkDec (cols 45 56 l) = Ok (de, pde).
  Hypothesis K : optical_kept l.
  Hypothesis PG : program d = Ok pg.
  Hypothesis RF : reference d = Ok rf.
  Let X := optical_text pg rf d.
  Let D := subDict_of (element $"optical" ofields X).
  Lemma D_get k : In k ocheck -> dget k D = shown X k. Proof. apply oget. Qed.
  Ltac inn := vm_compute; tauto.
  Lemma len80 : length l = 80. Proof. pose proof F as F'. apply laid_out_fitp in F'. now apply lay80 in F'. Qed.
  Lemma optical_back : code80 D = Ok (cols 15 15 l) ->
    printOpticalLine o D = optical_more D (cols 1 12 l ++ cols 13 13 l ++ cols 14 14 l) (cols 16 32 l) l (cols 72 72 l) (cols 73 77 l) (cols 78 80 l).
  Proof.
    intros CO. pose proof len80 as L. destruct AC as (DT & (n & NE & NI) & UN). destruct K as [K1 K2 K3 (cc & K4 & K4') K5 [K6 K6']].
    destruct (date_back (cols 16 32 l) false t p ltac:(rewrite cols_length; lia) DT) as (T1 & T2 & T3 & T4 & _).
    destruct (ra_back (cols 33 44 l) ra pra ltac:(rewrite cols_length; lia) RA) as (R1 & R2 & R3 & R4).
    destruct (dec_back (cols 45 56 l) de pde ltac:(rewrite cols_length; lia) DE) as (E1 & E2 & E3 & E4).
    assert (length (cols 78 80 l) = 3) as LS by (rewrite cols_length; lia).
    assert (texty (cols 78 80 l)) as TS by (split; [exact K6|intros Q; rewrite Q in LS; discriminate LS]).
    assert (exists n0, chat (hasKeyOrVal D $"notes" $" ") 0 = Ok n0 /\ match dget $"prog" D with Some ((_ :: _) as p) => unpackProgID p | _ => Ok [n0] end = Ok [n]) as (n0 & N0 & N1).
    { rewrite (D_get $"prog") by inn. rewrite (has_or D $"notes" X) by (apply D_get; inn).
      assert (strip (X $"notes") = strip (fst (note_texts (smem (cols 78 80 l) programCodeSites) n)) /\ X $"prog" = snd (note_texts (smem (cols 78 80 l) programCodeSites) n)) as [Q1 Q2].
      { change (X $"notes") with (if has_programs d then [] else text_of d $"notes"). change (X $"prog") with pg.
        unfold program in PG. unfold has_programs in *. rewrite (s_stn _ _ _ _ _ _ _ _ _ _ _ S), (s_notes _ _ _ _ _ _ _ _ _ _ _ S), NE in *. unfold note_texts.
        destruct (smem (cols 78 80 l) programCodeSites); cbn [andb fst snd] in *.
        - split; [reflexivity|]. destruct (ceqb n " ") eqn:B.
          + apply ceqb_eq in B. subst n. injection PG as <-. reflexivity.
          + assert (streqb [n] $" " = false) as B' by (unfold streqb; cbn; now rewrite B). rewrite B' in PG. cbn [negb] in PG. rewrite PG. reflexivity.
        - split; [reflexivity|]. now injection PG as <-. }
      unfold shown. rewrite Q1, Q2. destruct (note0 _ _ NI) as (n0 & Z). exists n0. split; [unfold seen_text in Z; destruct (strip (fst _)); exact Z|].
      pose proof (note_back _ _ NI) as NB. unfold note_column in NB. rewrite Z in NB. cbn [rbind] in NB. exact NB. }
    assert (exists mag, padD (hasKeyOrVal D $"mag" []) 5 3 = Ok mag /\ firstn 5 mag = cols 66 70 l /\ band80 (hasKeyOrVal D $"band" $" ") = Ok (cols 71 71 l)) as (mag & M1 & M2 & M3).
    { rewrite (has_or D $"mag" X), (has_or D $"band" X) by (apply D_get; inn).
      change (X $"mag") with (text_of d $"mag").
      change (X $"band") with (if blank (text_of d $"mag") then [] else if blank (text_of d $"band") then $"UNK" else text_of d $"band").
      rewrite (s_mag _ _ _ _ _ _ _ _ _ _ _ S), (s_band _ _ _ _ _ _ _ _ _ _ _ S).
      destruct K3 as [K3|[P1 P2]].
      - assert (cols 66 70 l = spaces 5 /\ cols 71 71 l = $" ") as [-> ->].
        { rewrite <- (cols_app 66 70 71) in K3 by lia. assert (length (cols 66 70 l) = 5) as L5 by (rewrite cols_length; lia).
          split; [apply (f_equal (firstn 5)) in K3|apply (f_equal (skipn 5)) in K3].
          - rewrite firstn_app, L5, firstn_all2 in K3 by lia. cbn [Nat.sub firstn] in K3. rewrite app_nil_r in K3. exact K3.
          - rewrite skipn_app, L5, skipn_all2 in K3 by lia. exact K3. }
        exists (spaces 5). vm_compute. auto.
      - destruct (placed_back 2 (cols 66 70 l) 5 P1) as [TX PD]; [rewrite cols_length; lia..|].
        rewrite cols_length in PD by lia. cbn [Nat.sub spaces repeat] in PD. rewrite app_nil_r in PD.
        exists (cols 66 70 l). split; [|split; [apply firstn_all2; rewrite cols_length; lia|]].
        + destruct (strip (cols 66 70 l)) eqn:Z; [destruct TX; congruence|exact PD].
        + unfold blank. destruct (strip (cols 66 70 l)) eqn:Z; [destruct TX; congruence|].
          destruct (nth_cols 70 l) as (c & _ & C); [lia|]. rewrite C in *. unfold tidy in P2. rewrite P2, P2. apply band_back. }
    assert (packTupleID (dget $"permID" D, dget $"provID" D, dget $"trkSub" D) = Ok (cols 1 12 l)) as ID.
    { rewrite !D_get by inn. unfold shown. change (X $"permID") with (text_of d $"permID"). change (X $"provID") with (text_of d $"provID"). change (X $"trkSub") with (text_of d $"trkSub").
      rewrite (s_perm _ _ _ _ _ _ _ _ _ _ _ S), (s_prov _ _ _ _ _ _ _ _ _ _ _ S), (s_trk _ _ _ _ _ _ _ _ _ _ _ S), !shown_seen.
      assert (nonl (cols 1 12 l)) as N12 by (intros Q; apply NL; unfold cols in Q; rewrite <- (firstn_skipn 12 l); apply in_or_app; left; exact Q).
      apply id_back; auto. apply PropsPack.C12_unpack_pack; auto. rewrite cols_length; lia. }
    destruct (cat_back cc K4') as [C1 C2].
    rewrite (print_optical o D (cols 1 12 l) (cols 13 13 l) [n] (prec_fl p) (prec_fl pra) (prec_fl pde) t (cols 16 32 l) (cols 78 80 l)
               ra (cols 33 44 l) de (cols 45 56 l) mag (cols 66 70 l) (cols 71 71 l) (catalogue [cc]) (cols 72 72 l) (cols 73 77 l) (cols 15 15 l) n0);
      [|..|exact CO]; auto.
    - rewrite NE. f_equal. rewrite <- NE. change ($"         ") with (spaces 9). rewrite <- K2. rewrite <- (cols_all l L) at 14. rewrite <- (cols_app 72 72 77) by lia. rewrite app_nil_r, <- !app_assoc. reflexivity.
    - rewrite D_get by inn. unfold shown. change (X $"artSat") with (text_of d $"artSat"). now rewrite (s_art _ _ _ _ _ _ _ _ _ _ _ S).
    - rewrite (has_or D $"disc" X) by (apply D_get; inn). change (X $"disc") with (text_of d $"disc"). rewrite (s_disc _ _ _ _ _ _ _ _ _ _ _ S). now apply disc_back.
    - rewrite (has_or D $"precTime" X) by (apply D_get; inn). change (X $"precTime") with (text_of d $"precTime"). rewrite (s_ptime _ _ _ _ _ _ _ _ _ _ _ S), texty_no; auto.
    - rewrite (has_or D $"precRA" X) by (apply D_get; inn). change (X $"precRA") with (text_of d $"precRA"). rewrite (s_pra _ _ _ _ _ _ _ _ _ _ _ S), texty_no; auto.
    - rewrite (has_or D $"precDec" X) by (apply D_get; inn). change (X $"precDec") with (text_of d $"precDec"). rewrite (s_pde _ _ _ _ _ _ _ _ _ _ _ S), texty_no; auto.
    - rewrite D_get by inn. apply shown_texty; auto. exact (s_time _ _ _ _ _ _ _ _ _ _ _ S).
    - rewrite D_get by inn. apply shown_texty; auto. exact (s_stn _ _ _ _ _ _ _ _ _ _ _ S).
    - destruct (streqb (cols 78 80 l) $"275") eqn:Q; [|reflexivity]. apply streqb_eq in Q. exfalso. apply K6'. left. auto.
    - destruct (streqb (cols 78 80 l) $"244") eqn:Q; [|reflexivity]. apply streqb_eq in Q. exfalso. apply K6'. right. left. auto.
    - rewrite D_get by inn. apply shown_texty; auto. exact (s_ra _ _ _ _ _ _ _ _ _ _ _ S).
    - rewrite D_get by inn. apply shown_texty; auto. exact (s_de _ _ _ _ _ _ _ _ _ _ _ S).
    - rewrite D_get by inn. apply shown_texty; auto. change (X $"astCat") with (catalogue (text_of d $"astCat")). rewrite (s_cat _ _ _ _ _ _ _ _ _ _ _ S). now rewrite K4.
    - now rewrite K4.
    - rewrite (has_or D $"ref" X) by (apply D_get; inn). change (X $"ref") with rf. unfold reference in RF. rewrite (s_ref _ _ _ _ _ _ _ _ _ _ _ S), (skip1 l L) in RF.
      exact (ref_back _ _ K5 RF).
  Qed.
End Optical.
