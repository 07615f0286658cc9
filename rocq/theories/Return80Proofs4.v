(** Lemmas of C50, part 4: which lines are read again. *)
From Verif Require Import SchemaSpec PyStrProofs AdesMasterTables Schema XsdSpec SchemaSpec XsdFiles ValueSpec IdProofs5.
From Verif Require Import PyFloat SexVals XmlToMpc80 JustSpec JustProofs Line80Spec LineProofs1 PropsMpc80.
From Verif Require Import Mpc80 Mpc80Spec Mpc80Proofs1 Mpc80Proofs11 PackSpec DocSpec Back80Spec Back80Proofs7 SexSpec Print80Spec Submit80Spec Submit80Proofs5 Return80Spec Return80Proofs1 Return80Proofs2 Return80Proofs3.
Local Open Scope nat_scope.

Definition chr1 (c : ascii) : bool := isalnum c || one_of $" ~" c.
Definition chr2 (c : ascii) : bool := isalnum c || one_of $" " c.
Lemma laid_step n p f a b : length a = n -> (laid_out ((n, p) :: f) (a ++ b) <-> forallb p a = true /\ laid_out f b).
Proof.
  intros <-. change (laid_out ((length a, p) :: f) (a ++ b)) with (length a <= length (a ++ b) /\ forallb p (firstn (length a) (a ++ b)) = true /\ laid_out f (skipn (length a) (a ++ b))).
  rewrite firstn_app, firstn_all, Nat.sub_diag, skipn_app, skipn_all, Nat.sub_diag, app_length. change (firstn 0 b) with (@nil ascii). change ([] ++ skipn 0 b) with b. rewrite app_nil_r. split; [intros (_ & A); exact A|intro A; split; [lia|exact A]].
Qed.
Lemma name_laid f id rest : length id = 12 -> (laid_out ((1, chr1) :: (11, chr2) :: f) (id ++ rest) <-> name_chars id /\ laid_out f rest).
Proof.
  intro L. destruct id as [|c id]; [discriminate L|]. injection L as L. change ((c :: id) ++ rest) with ([c] ++ id ++ rest). rewrite (laid_step 1 chr1 _ [c]), (laid_step 11 chr2) by (reflexivity || exact L).
  cbn [name_chars forallb]. rewrite andb_true_r, forallb_forall. unfold chr1, chr2. tauto.
Qed.
Lemma header_name k v t : In k keywords -> unpackPackedID (firstn 12 (k ++ $" " ++ v)) <> Ok t.
Proof.
  intros I. repeat (destruct I as [<-|I]; [vm_compute; intro X; discriminate X|]). destruct I.
Qed.
Lemma chr1_okc : forall c, chr1 c = true -> okc c = true. Proof. apply imp_ascii. vm_compute. reflexivity. Qed.
Lemma numeric_okc : forall c, numeric c = true -> okc c = true. Proof. apply imp_ascii. vm_compute. reflexivity. Qed.
Lemma laid_fine f : Forall (fun np => forall c, snd np c = true -> okc c = true) f -> forall l, laid_out f l -> fine l.
Proof.
  induction 1 as [|[n p] f H _ IH]; intros l; cbn [laid_out]; [intros ->; reflexivity|]. intros (_ & A & B). rewrite <- (firstn_skipn n l). apply fine_app; [exact (fine_imp p _ H A)|now apply IH].
Qed.
Lemma mag_char_okc : forall c, mag_char c = true -> okc c = true. Proof. apply imp_ascii. vm_compute. reflexivity. Qed.
Lemma mag_char_dark : forall c, mag_char c = true -> pyspace c = false. Proof. intros c H. apply Bool.negb_true_iff. revert c H. apply imp_ascii. vm_compute. reflexivity. Qed.
Lemma letters_okc : fine catalogue_letters. Proof. vm_compute. reflexivity. Qed.
Lemma codes_okc : fine $"PeCBTMcEOHNn SV". Proof. vm_compute. reflexivity. Qed.

Section Line.
Variable F : derivation -> str -> Prop.
Variable RV : reads_values F.
Variable r : xml.
Hypothesis V : valid F submit_xsd r.
Variable o : opts80.
Hypothesis Tg : In (xtag r) [$"optical"; $"occultation"].
Variables l id c date ra de mag : str.
Variables i j k : nat.
Variables q q' : Q.
Hypothesis PA : parts r o l id c date ra de mag i j k q q'.
Let disc := given (subDict_of r) $"disc" $" ".
Let nt := firstn 1 (given (subDict_of r) $"notes" $" ").
Let bd := band_letter (given (subDict_of r) $"band" $" ").
Let ct := catalogue_letter (rec_value r $"astCat").
Let st := rec_value r $"stn".
Lemma in_i : In i [5; 6]. Proof. destruct (pa_places _ _ _ _ _ _ _ _ _ _ _ _ _ _ PA) as [(_ & -> & _)|(_ & -> & _)]; cbn [In]; tauto. Qed.
Lemma in_j : In j [1; 2; 3]. Proof. destruct (pa_places _ _ _ _ _ _ _ _ _ _ _ _ _ _ PA) as [(_ & _ & -> & _)|(_ & _ & -> & _)]; cbn [In]; tauto. Qed.
Lemma in_k : In k [1; 2]. Proof. destruct (pa_places _ _ _ _ _ _ _ _ _ _ _ _ _ _ PA) as [(_ & _ & _ & ->)|(_ & _ & _ & ->)]; cbn [In]; tauto. Qed.
Lemma line_is : l = id ++ disc ++ nt ++ c ++ date ++ ra ++ de ++ spaces 9 ++ firstn 5 mag ++ bd ++ ct ++ spaces 5 ++ st.
Proof.
  pose proof (pa_fill _ _ _ _ _ _ _ _ _ _ _ _ _ _ PA) as Fl. apply fill_all in Fl; [|repeat constructor]. rewrite Fl. cbn [map snd concat]. now rewrite app_nil_r.
Qed.
Record columns_of : Prop := {
  co_id : cols 1 12 l = id; co_disc : cols 13 13 l = disc; co_nt : cols 14 14 l = nt; co_c : cols 15 15 l = c; co_date : cols 16 32 l = date;
  co_ra : cols 33 44 l = ra; co_de : cols 45 56 l = de; co_bl : cols 57 65 l = spaces 9; co_mag : cols 66 70 l = firstn 5 mag; co_bd : cols 71 71 l = bd; co_ct : cols 72 72 l = ct; co_ref : cols 73 77 l = spaces 5; co_st : cols 78 80 l = st;
  le_id : length id = 12; le_disc : length disc = 1; le_nt : length nt = 1; le_c : length c = 1; le_bd : length bd = 1; le_ct : length ct = 1; le_st : length st = 3; le_mag : length (firstn 5 mag) = 5 }.
Lemma cols_are : columns_of.
Proof.
  pose proof (pa_fill _ _ _ _ _ _ _ _ _ _ _ _ _ _ PA) as Fl. cbn [fill Nat.add Nat.sub] in Fl.
  destruct Fl as (A1 & B1 & A2 & B2 & A3 & B3 & A4 & B4 & A5 & B5 & A6 & B6 & A7 & B7 & A8 & B8 & A9 & B9 & A10 & B10 & A11 & B11 & A12 & B12 & A13 & B13 & _).
  constructor; assumption.
Qed.
Lemma disc_ok : forallb (one_of $" *+") disc = true.
Proof. unfold disc. rewrite (dgiven r "disc"). destruct (disc_in F RV r V Tg) as [-> |[-> | ->]]; reflexivity. Qed.
Lemma nt_fine : fine nt.
Proof.
  unfold nt. apply firstn_fine. rewrite (dgiven r "notes"). pose proof (notes_an F RV r V Tg) as A. destruct (rec_value r $"notes"); [reflexivity|]. exact (fine_imp alnum_ _ alnum_okc A).
Qed.
Lemma bd_fine : fine bd.
Proof.
  unfold bd. rewrite (dgiven r "band"). pose proof (band_an F RV r V Tg) as A. apply (fine_imp alnum_ _ alnum_okc) in A. destruct (rec_value r $"band") as [|x [|y s]]; [reflexivity| |].
  - unfold band_letter. destruct (smem _ _); exact A.
  - unfold band_letter. unfold fine in A. cbn [forallb] in A. apply andb_true_iff in A as [A1 A]. apply andb_true_iff in A as [A2 _]. destruct (smem _ _); unfold fine; cbn [firstn forallb]; [now rewrite A1|now rewrite A2].
Qed.
Lemma ct_fine : fine ct.
Proof. unfold ct. destruct (cat_letter (rec_value r $"astCat")) as (x & -> & I). apply (fine_sub catalogue_letters); [|exact letters_okc]. intros y [<-|[]]. exact I. Qed.
Lemma st_fine : fine st.
Proof. exact (fine_imp alnum_ _ alnum_okc (stn_an F RV r V Tg)). Qed.
Lemma mag_dark : forall x, In x (rec_value r $"mag") -> pyspace x = false.
Proof. pose proof (mag_chars F RV r V Tg) as A. rewrite forallb_forall in A. intros x I. apply mag_char_dark. now apply A. Qed.
Lemma mag_fine : fine (firstn 5 mag).
Proof.
  destruct (mag_columns _ _ (pa_mag _ _ _ _ _ _ _ _ _ _ _ _ _ _ PA) mag_dark) as (_ & _ & A). apply fine_all. intros x I. destruct (A x I) as [J| ->]; [|reflexivity].
  pose proof (mag_chars F RV r V Tg) as B. rewrite forallb_forall in B. apply mag_char_okc. now apply B.
Qed.
Lemma code_is : exists x, c = [x] /\ In x $"PeCBTMcEOHNn SV" /\ mode_of [x] = (if located r then $"CCD" else rec_value r $"mode").
Proof.
  pose proof (pa_code _ _ _ _ _ _ _ _ _ _ _ _ _ _ PA) as H. destruct (located r).
  - destruct H as [(_ & ->)|(_ & ->)]; eexists; (split; [reflexivity|]); (split; [vm_compute; tauto|vm_compute; reflexivity]).
  - destruct (code_char _ _ H) as (x & E & I & M). exists x. split; [exact E|]. split; [|exact M]. change $"PeCBTMcEOHNn SV" with ($"PeCBTMcEOHNn " ++ $"SV"). apply in_or_app. now left.
Qed.
Lemma id_fine : fine id.
Proof.
  apply (pack_fine _ _ _ _ (name_fine F RV r V Tg "permID" ltac:(cbn [In]; tauto)) (name_fine F RV r V Tg "provID" ltac:(cbn [In]; tauto)) (name_fine F RV r V Tg "trkSub" ltac:(cbn [In]; tauto)) (pa_id _ _ _ _ _ _ _ _ _ _ _ _ _ _ PA)).
Qed.
Definition TA := time_again i date _ in_i (pa_date _ _ _ _ _ _ _ _ _ _ _ _ _ _ PA).
Definition RA := ra_again j ra q in_j (pa_ra _ _ _ _ _ _ _ _ _ _ _ _ _ _ PA).
Definition DA := dec_again k de q' in_k (pa_dec _ _ _ _ _ _ _ _ _ _ _ _ _ _ PA).
Lemma l_fine : fine l.
Proof.
  rewrite line_is. apply fine_app; [exact id_fine|]. apply fine_app; [apply (fine_imp (one_of $" *+")); [apply imp_ascii; vm_compute; reflexivity|exact disc_ok]|]. apply fine_app; [exact nt_fine|].
  apply fine_app. { destruct code_is as (x & -> & I & _). apply (fine_sub $"PeCBTMcEOHNn SV"); [|exact codes_okc]. intros y [<-|[]]. exact I. }
  destruct TA as ((_ & T) & _). destruct RA as ((_ & R) & _). destruct DA as ((_ & D) & _).
  apply fine_app. { revert T. apply laid_fine. repeat constructor; cbn [snd]; apply imp_ascii; vm_compute; reflexivity. }
  apply fine_app; [exact (fine_imp numeric _ numeric_okc R)|].
  apply fine_app. { revert D. apply laid_fine. repeat constructor; cbn [snd]; apply imp_ascii; vm_compute; reflexivity. }
  apply fine_app; [apply spaces_fine|]. apply fine_app; [exact mag_fine|]. apply fine_app; [exact bd_fine|]. apply fine_app; [exact ct_fine|]. apply fine_app; [apply spaces_fine|exact st_fine].
Qed.
Lemma l_laid : laid_out optical_layout l <-> name_chars id.
Proof.
  destruct cols_are. rewrite line_is. change optical_layout with ((1, chr1) :: (11, chr2) :: skipn 2 optical_layout). rewrite name_laid by assumption. split; [tauto|]. intro N. split; [exact N|].
  destruct TA as ((_ & T) & _). destruct RA as ((Lr & R) & _). destruct DA as ((_ & D) & _).
  change (skipn 2 optical_layout) with ([(1, one_of $" *+"); (1, any); (1, one_of $"A PeCBTMcEOHNnSVXx")] ++ [(4, isdig); (1, one_of $" abcde"); (12, numeric)] ++ [(12, numeric)] ++ [(1, one_of $"+- "); (11, numeric)] ++ [(9, any); (5, any); (1, any)] ++ [(6, any); (3, any)]).
  assert (forall a b x y, laid_out a x -> laid_out b y -> laid_out (a ++ b) (x ++ y)) as J by (intros; now apply laid_app).
  replace (disc ++ nt ++ c ++ date ++ ra ++ de ++ spaces 9 ++ firstn 5 mag ++ bd ++ ct ++ spaces 5 ++ st) with ((disc ++ nt ++ c) ++ date ++ ra ++ de ++ (spaces 9 ++ firstn 5 mag ++ bd) ++ ((ct ++ spaces 5) ++ st)) by (now rewrite <- !app_assoc).
  apply J. { apply laid_cons; [assumption|exact disc_ok|]. apply laid_cons; [assumption|apply fine_any, nt_fine|]. apply laid_one; [assumption|]. destruct code_is as (x & -> & I & _). cbn [forallb]. rewrite andb_true_r.
    clear - I. vm_compute in I. repeat (destruct I as [<-|I]; [reflexivity|]). destruct I. }
  apply J; [exact T|]. apply J; [apply laid_one; assumption|]. apply J; [exact D|]. apply J.
  - apply laid_cons; [apply spaces_length|apply fine_any, spaces_fine|]. apply laid_cons; [assumption|apply fine_any, mag_fine|]. apply laid_one; [assumption|apply fine_any, bd_fine].
  - apply laid_cons; [rewrite app_length, spaces_length, le_ct0; reflexivity|apply fine_any, fine_app; [exact ct_fine|apply spaces_fine]|]. apply laid_one; [assumption|apply fine_any, st_fine].
Qed.
Lemma cols_time : cols 27 32 l = firstn 6 (skipn 11 date).
Proof. rewrite <- (co_date cols_are). unfold cols. rewrite skipn_firstn_comm, firstn_firstn, skip_skip. reflexivity. Qed.
Lemma cols_seconds : cols 39 40 l = firstn 2 (skipn 6 ra).
Proof. rewrite <- (co_ra cols_are). unfold cols. rewrite skipn_firstn_comm, firstn_firstn, skip_skip. reflexivity. Qed.
Lemma cols_minutes : cols 49 50 l = firstn 2 (skipn 4 de).
Proof. rewrite <- (co_de cols_are). unfold cols. rewrite skipn_firstn_comm, firstn_firstn, skip_skip. reflexivity. Qed.

Lemma decoded : legible l -> exists t ra' de' qr qd perm prov trk,
  decodes l (optical_dict l t (PInt (10 ^ (6 - Z.of_nat i))) perm prov trk ra' (PTen j) de' (PTen k)) /\ unpackPackedID id = Ok (perm, prov, trk) /\
  (strip t = t /\ t <> [] /\ fine t /\ near_time i (rec_value r $"obsTime") t) /\
  (strip ra' = ra' /\ ra' <> [] /\ fine ra' /\ decimal_value ra' qr /\ (Qabs (qr - q) <= (86 # 100) / inject_Z (10 ^ Z.of_nat j) * (1 # 240))%Q) /\
  (strip de' = de' /\ de' <> [] /\ fine de' /\ decimal_value de' qd /\ (Qabs (qd - q') <= (86 # 100) / inject_Z (10 ^ Z.of_nat k) * (1 # 3600))%Q).
Proof.
  intros [Lc (tr & Ln) Lo Lt Ls Lm]. destruct tr as [[perm prov] trk].
  destruct TA as (_ & _ & T). destruct RA as (_ & _ & R). destruct DA as (_ & _ & D).
  rewrite cols_time in Lt. rewrite cols_seconds in Ls. rewrite cols_minutes in Lm.
  destruct (T Lt) as (t & T1 & T2). destruct (R Ls) as (ra' & qr & R1 & R2). destruct (D Lm) as (de' & qd & D1 & D2).
  destruct cols_are.
  exists t, ra', de', qr, qd, perm, prov, trk. split; [|split; [rewrite <- co_id0; exact Ln|split; [exact T2|split; [exact R2|exact D2]]]].
  apply dec_optical.
  - intros (kw & v & I & E). apply (header_name kw v (perm, prov, trk) I). rewrite <- E. exact Ln.
  - apply l_laid. rewrite <- co_id0. exact Lc.
  - split; [rewrite co_date0; exact T1|]. split; [exact Lo|exact Ln].
  - rewrite co_ra0. exact R1.
  - rewrite co_de0. exact D1.
Qed.
Lemma kind_c x : c = [x] -> kind_is x l. Proof. intro E. unfold kind_is. rewrite (co_c cols_are). exact E. Qed.
Lemma readable_iff : decodable l <-> legible l.
Proof.
  assert (~ In nl l) as NL by (intro I; apply (fine_in l nl l_fine) in I; discriminate I).
  split.
  - intros (d & H & N0). apply (C26_decode l d NL) in H. destruct code_is as (x & Ec & I & _).
    destruct (decodes_optical l d x H N0 (kind_c x Ec)) as (_ & La & t & p & perm & prov & trk & ra' & pra & de' & pde & (A1 & A2 & A3) & A4 & A5 & _).
    { clear - I. vm_compute in I |- *. tauto. }
    destruct cols_are. constructor.
    + rewrite co_id0. now apply l_laid.
    + exists (perm, prov, trk). exact A3.
    + exact A2.
    + rewrite cols_time. intros jj Ij E. destruct TA as (_ & T & _). rewrite co_date0, (T jj Ij E) in A1. discriminate A1.
    + rewrite cols_seconds. intro E. destruct RA as (_ & T & _). rewrite co_ra0, (T E) in A4. discriminate A4.
    + rewrite cols_minutes. intro E. destruct DA as (_ & T & _). rewrite co_de0, (T E) in A5. discriminate A5.
  - intro L. destruct (decoded L) as (t & ra' & de' & qr & qd & perm & prov & trk & D & _). eexists. split; [apply (C26_decode l _ NL); exact D|].
    unfold is_kind. change (text_of (optical_dict l t (PInt (10 ^ (6 - Z.of_nat i))) perm prov trk ra' (PTen j) de' (PTen k)) $"code") with (cols 15 15 l).
    destruct code_is as (x & Ec & I & _). rewrite (kind_c x Ec). clear - I. vm_compute in I. repeat (destruct I as [<-|I]; [reflexivity|]). destruct I.
Qed.
End Line.
