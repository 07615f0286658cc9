(** Lemmas of C50: the second line of a record with the observer's position. *)
From Verif Require Import SchemaSpec PyStrProofs AdesMasterTables Schema XsdSpec SchemaSpec XsdFiles ValueSpec IdProofs3 IdProofs5 LexProofs1 ValidSpec2 ValueProofs2 Submit80Proofs1 Submit80Proofs3 RecordProofs2 ValidSpec.
From Verif Require Import PyFloat SexVals XmlToMpc80 JustSpec JustProofs Line80Spec LineProofs1 PropsMpc80 PropsPack.
From Verif Require Import Mpc80 Mpc80Spec Mpc80Proofs1 Mpc80Proofs2 Mpc80Proofs3 Mpc80Proofs4 Mpc80Proofs6 DocProofs6 Mpc80Proofs11 PackSpec DocSpec Back80Spec Back80Proofs7 Back80Proofs10 SexSpec Print80Spec Submit80Spec Submit80Proofs4 Submit80Proofs5 Return80Spec Return80Proofs1 Return80Proofs2 Return80Proofs3 Return80Proofs4 Return80Proofs5 Return80Proofs7 Return80Proofs8.
From Verif Require Import Mpc80Spec DocSpec.
Local Open Scope nat_scope.

(** * Positions *)
Definition pos_text (sg : str) (u : str) : Prop := In sg [[]; $"+"; $"-"] /\ number_text u /\ match u with c :: _ => isdig c = true | [] => False end.
Definition decimal_pattern : str := $"[+\-]?(0|([1-9][0-9]*))(\.[0-9]*)?".
Definition sign_set : pat := Eval vm_compute in match pattern decimal_pattern with Some (PSeq (PRep a _ _) _) => a | _ => PEps end.
Definition decimal_rest : pat := Eval vm_compute in match pattern decimal_pattern with Some (PSeq _ b) => b | _ => PEps end.
Lemma decimal_parse : pattern decimal_pattern = Some (PSeq (PRep sign_set 0 (Some 1)) decimal_rest).
Proof. vm_compute. reflexivity. Qed.
Lemma decimal_shape v q : decimal_value v q -> matches decimal_pattern v -> exists sg u, v = sg ++ u /\ pos_text sg u.
Proof.
  intros D M. apply (matches_lang _ _ _ decimal_parse) in M. apply (proj1 (lang_seq _ _ _)) in M as (x & y & E & Mx & My).
  assert (exists c y', y = c :: y' /\ isdig c = true) as (c & y' & Ey & Dc).
  { destruct y as [|c y']; [apply lang_nullable in My; discriminate My|]. exists c, y'. split; [reflexivity|]. apply lang_first in My. clear - My. revert c My. apply imp_ascii. vm_compute. reflexivity. }
  apply (proj1 (lang_opt _ _)) in Mx.
  assert (x = [] \/ exists s, x = [s] /\ is_sign s = true) as Hx.
  { destruct Mx as [Mx|Mx]; [now left|right]. unfold sign_set in Mx. cbn [lang] in Mx. destruct Mx as (s & Es & H). exists s. split; [exact Es|]. clear - H. revert s H. apply imp_ascii. vm_compute. reflexivity. }
  apply decimal_numeral in D as (sg & w & a & b & Ew & I & N & _).
  assert (number_text w) as Nw.
  { split; [destruct N as [a A N|a b A B N]; [exact N|now destruct a]|]. split.
    - assert (forall z, forallb isdig z = true -> forallb (fun c => isdig c || ceqb c ".") z = true) as K by (intro z; apply forallb_imp, imp_ascii; vm_compute; reflexivity).
      destruct N as [a A N|a b A B N]; [now apply K|]. rewrite forallb_app, (K a A). cbn [forallb]. now rewrite (K b B).
    - assert (forall z, forallb isdig z = true -> points z = 0) as K.
      { intros z Hz. unfold points. induction z as [|ch z IH]; [reflexivity|]. cbn [forallb] in Hz. apply andb_true_iff in Hz as [H1 H2]. cbn [filter]. destruct (ceqb ch ".") eqn:Q; [apply ceqb_eq in Q; subst ch; discriminate H1|now apply IH]. }
      destruct N as [a A N|a b A B N]; [rewrite (K a A); lia|]. unfold points in *. rewrite filter_app, app_length. cbn [filter length]. change (ceqb point ".") with true. cbn [length]. rewrite (K a A), (K b B). lia. }
  assert (forall ch w', w = ch :: w' -> is_sign ch = false) as NS.
  { intros ch w' ->. destruct Nw as (_ & A & _). cbn [forallb] in A. apply andb_true_iff in A as [A _]. clear - A. apply Bool.negb_true_iff. revert ch A. apply imp_ascii. vm_compute. reflexivity. }
  exists sg, w. split; [exact Ew|]. split; [exact I|]. split; [exact Nw|].
  assert (forall s, is_sign s = true -> isdig s = true -> False) as SD. { intros s A B. assert (is_sign s = false); [|congruence]. apply Bool.negb_true_iff. clear A. revert s B. apply imp_ascii. vm_compute. reflexivity. }
  assert (w = y) as ->; [|now rewrite Ey].
  destruct Hx as [-> |(s & -> & Hs)]; cbn [app] in E; rewrite E in Ew.
  - destruct I as [<-|[<-|[<-|[]]]]; [now symmetry| |]; rewrite Ey in Ew; injection Ew as -> _; discriminate Dc.
  - destruct I as [<-|[<-|[<-|[]]]].
    + cbn [app] in Ew. symmetry in Ew. apply NS in Ew. congruence.
    + injection Ew as _ Ew. now symmetry.
    + injection Ew as _ Ew. now symmetry.
Qed.
Lemma sign_cases sg u : pos_text sg u -> exists s, is_sign s = true /\ signed (sg ++ u) = s :: u /\ unsigned (sg ++ u) = u /\
  (forall L D, unPackSigned (sg ++ u) L D = unPackSigned (s :: u) L D).
Proof.
  intros (I & _ & H). destruct u as [|c u]; [destruct H|]. assert (is_sign c = false) as NS. { apply Bool.negb_true_iff. revert c H. apply imp_ascii. vm_compute. reflexivity. }
  destruct I as [<-|[<-|[<-|[]]]].
  - exists "+"%char. split; [reflexivity|]. cbn [app signed unsigned]. rewrite H, NS. split; [reflexivity|]. split; [reflexivity|]. intros L D. now apply C15_unPackSigned_plus.
  - exists "+"%char. repeat split; reflexivity.
  - exists "-"%char. repeat split; reflexivity.
Qed.
Definition digital (c : ascii) : bool := isdig c || ceqb c ".".
Lemma spaces_all p n : p " "%char = true -> forallb p (spaces n) = true.
Proof. intro H. unfold spaces. induction n; [reflexivity|]. cbn [repeat forallb]. now rewrite H. Qed.
(** a position in the columns of a spacecraft's second line *)
Lemma sat_cell sg u dp a x y : pos_text sg u -> room x y u -> (dp = Z.of_nat x + 2)%Z -> (x + y = 10) -> unPackSigned (sg ++ u) 11 dp = Ok a ->
  length a = 11 /\ position dp a (signed (sg ++ u)) /\ laid_out [(1, one_of $"+-"); (10, numeric)] a.
Proof.
  intros P (R1 & R2) Ed Exy H. destruct (sign_cases sg u P) as (s & S1 & -> & _ & S4). pose proof P as (_ & N & _).
  rewrite S4 in H. destruct (C15_unPackSigned s u 11 dp S1 N ltac:(lia)) as (m & n & E & Pk & _ & W). pose proof H as H0. rewrite E in H. injection H as <-.
  assert (wid (s :: spaces m ++ u ++ spaces n) = 11%Z) as L by (apply W; unfold wid; lia).
  assert (length (s :: spaces m ++ u ++ spaces n) = 11) as L' by (unfold wid in L; lia).
  split; [exact L'|]. split; [split; [exact Pk|exact H0]|].
  change (s :: spaces m ++ u ++ spaces n) with ([s] ++ (spaces m ++ u ++ spaces n)). apply laid_cons; [reflexivity| |apply laid_one; [injection L' as L'; exact L'|]].
  - cbn [forallb]. rewrite andb_true_r. clear - S1. revert s S1. apply imp_ascii. vm_compute. reflexivity.
  - rewrite !forallb_app, !spaces_all by reflexivity. cbn [andb]. rewrite andb_true_r. destruct N as (_ & N & _). revert N. apply forallb_imp, imp_ascii. vm_compute. reflexivity.
Qed.
(** a position in the columns of a rover's second line *)
Lemma rover_cell v a : (forall c, In c v -> snumeric c = true /\ pyspace c = false) -> v <> [] -> Line80Spec.aligned v 11 4 a -> Nat.max 3 (length (before_point v)) + (length v - length (before_point v)) <= 10 ->
  exists w, firstn 11 a = w ++ $" " /\ length w = 10 /\ strip w = v /\ forallb snumeric w = true.
Proof.
  intros C Nv (w & q & E) Fit. change (just_decimal v 11 4 = Ok (a, w, q)) in E. apply just_D in E as (_ & _ & x & y & Ea & Ew & Eq & Ex & Ww). unfold wid in *.
  assert (length (before_point v) <= length v) as Lb. { clear. induction v as [|c v IH]; [reflexivity|]. cbn [before_point]. destruct (ceqb c "."); cbn [length]; lia. }
  assert (length a = 11) as La by lia. rewrite firstn_all2 by lia.
  assert (length a = x + length v + y) as Le by (rewrite Ea, !app_length, !spaces_length; lia).
  destruct y as [|y]; [lia|]. exists (spaces x ++ v ++ spaces y).
  assert (spaces (S y) = spaces y ++ $" ") as Es by exact (repeat_cons y " "%char).
  split; [rewrite Ea, Es, <- !app_assoc; reflexivity|]. split; [rewrite !app_length, !spaces_length; lia|]. split.
  - apply strip_pad; [now apply spaces_all|now apply spaces_all|]. assert (strip v = v) as <-; [|apply strip_is_trimmed].
    apply strip_no_space; [exact Nv|]. apply forallb_forall. intros c I. now destruct (C c I) as [_ ->].
  - rewrite !forallb_app, !spaces_all by reflexivity. cbn [andb]. rewrite andb_true_r. apply forallb_forall. intros c I. now destruct (C c I).
Qed.

(** * The line *)
Lemma cols_mid a b p m s : 1 <= a -> length p = a - 1 -> length m = b - a + 1 -> cols a b (p ++ m ++ s) = m.
Proof.
  intros H P M. unfold cols. rewrite <- P, skipn_app, skipn_all, Nat.sub_diag. cbn [app]. change (skipn 0 (m ++ s)) with (m ++ s). rewrite <- M, firstn_app, firstn_all, Nat.sub_diag. change (firstn 0 s) with (@nil ascii). apply app_nil_r.
Qed.
Section Second.
Variable F : derivation -> str -> Prop.
Variable RV : reads_values F.
Variable r : xml.
Hypothesis V : valid F submit_xsd r.
Variable o : opts80.
Hypothesis Tg : In (xtag r) [$"optical"; $"occultation"].
Variables l id c date ra de mag : str.
Variables i j k : nat.
Variables q q' : Q.
Hypothesis PA : parts r o l id c date ra de mag i j k q q'.
Let CO := cols_are r o l id c date ra de mag i j k q q' PA.
Let disc := given (subDict_of r) $"disc" $" ".
Let nt := firstn 1 (given (subDict_of r) $"notes" $" ").
Let st := rec_value r $"stn".
Variable k2 : ascii.
Hypothesis K2 : In k2 $"sv".
Variables l2 body : str.
Hypothesis L2 : l2 = id ++ disc ++ nt ++ [k2] ++ date ++ body ++ st.
Hypothesis Lb : length body = 45.
Hypothesis Fb : fine body.
Variable g : layout.
Hypothesis LB : laid_out g (body ++ st).
Let TAx := TA r o l id c date ra de mag i j k q q' PA.
Lemma date17 : length date = 17. Proof. now destruct TAx as ((H & _) & _). Qed.
Record second_columns : Prop := {
  s_id : cols 1 12 l2 = cols 1 12 l; s_nt : cols 14 14 l2 = cols 14 14 l; s_k : cols 15 15 l2 = [k2]; s_date : cols 16 32 l2 = cols 16 32 l;
  s_st : cols 78 80 l2 = cols 78 80 l; s_body : cols 33 77 l2 = body; s_len : length l2 = 80 }.
Lemma second_cols : second_columns.
Proof.
  pose proof date17 as Ld. destruct CO as [co_id0 co_disc0 co_nt0 co_c0 co_date0 co_ra0 co_de0 co_bl0 co_mag0 co_bd0 co_ct0 co_ref0 co_st0 le_id0 le_disc0 le_nt0 le_c0 le_bd0 le_ct0 le_st0 le_mag0]. constructor.
  - rewrite co_id0, L2. apply (cols_mid 1 12 []); [lia|reflexivity|exact le_id0].
  - rewrite co_nt0, L2. rewrite (app_assoc id). apply cols_mid; [lia| |exact le_nt0]. rewrite app_length, le_id0. fold disc in le_disc0. rewrite le_disc0. reflexivity.
  - rewrite L2. rewrite (app_assoc id), (app_assoc (id ++ disc)). apply cols_mid; [lia| |reflexivity]. rewrite !app_length, le_id0. fold disc in le_disc0. fold nt in le_nt0. rewrite le_disc0, le_nt0. reflexivity.
  - rewrite co_date0, L2. rewrite (app_assoc id), (app_assoc (id ++ disc)), (app_assoc ((id ++ disc) ++ nt)). apply cols_mid; [lia| |exact Ld]. rewrite !app_length, le_id0. fold disc in le_disc0. fold nt in le_nt0. rewrite le_disc0, le_nt0. reflexivity.
  - rewrite co_st0, L2. fold st. rewrite (app_assoc id), (app_assoc (id ++ disc)), (app_assoc ((id ++ disc) ++ nt)), (app_assoc (((id ++ disc) ++ nt) ++ [k2])), (app_assoc ((((id ++ disc) ++ nt) ++ [k2]) ++ date)). rewrite <- (app_nil_r st) at 1. apply cols_mid; [lia| |exact le_st0].
    rewrite !app_length, le_id0, Ld, Lb. fold disc in le_disc0. fold nt in le_nt0. rewrite le_disc0, le_nt0. reflexivity.
  - rewrite L2. rewrite (app_assoc id), (app_assoc (id ++ disc)), (app_assoc ((id ++ disc) ++ nt)), (app_assoc (((id ++ disc) ++ nt) ++ [k2])). apply cols_mid; [lia| |exact Lb].
    rewrite !app_length, le_id0, Ld. fold disc in le_disc0. fold nt in le_nt0. rewrite le_disc0, le_nt0. reflexivity.
  - rewrite L2, !app_length, le_id0, Ld, Lb. fold disc in le_disc0. fold nt in le_nt0. fold st in le_st0. rewrite le_disc0, le_nt0, le_st0. reflexivity.
Qed.
Lemma second_fine : fine l2.
Proof.
  rewrite L2. apply fine_app; [exact (id_fine F RV r V o Tg l id c date ra de mag i j k q q' PA)|]. apply fine_app; [apply (fine_imp (one_of $" *+")); [apply imp_ascii; vm_compute; reflexivity|exact (disc_ok F RV r V Tg)]|].
  apply fine_app; [exact (nt_fine F RV r V Tg)|]. apply fine_app; [destruct K2 as [<-|[<-|[]]]; reflexivity|]. destruct TAx as ((_ & T) & _).
  apply fine_app. { revert T. apply laid_fine. repeat constructor; cbn [snd]; apply imp_ascii; vm_compute; reflexivity. }
  apply fine_app; [exact Fb|exact (st_fine F RV r V Tg)].
Qed.
Lemma second_no_nl : ~ In nl l2. Proof. intro I. apply (fine_in l2 nl second_fine) in I. discriminate I. Qed.
Lemma second_no_header : ~ header_line l2.
Proof. rewrite L2. apply (pack_not_header (text_if r "permID", text_if r "provID", text_if r "trkSub")). exact (pa_id _ _ _ _ _ _ _ _ _ _ _ _ _ _ PA). Qed.
Lemma second_header_false : is_header l2 = false.
Proof. destruct (is_header l2) eqn:E; [|reflexivity]. apply is_header_iff in E. now elim second_no_header. Qed.
Lemma second_laid : laid_out (first32 [k2] ++ g) l2 <-> name_chars id.
Proof.
  destruct CO as [co_id0 co_disc0 co_nt0 co_c0 co_date0 co_ra0 co_de0 co_bl0 co_mag0 co_bd0 co_ct0 co_ref0 co_st0 le_id0 le_disc0 le_nt0 le_c0 le_bd0 le_ct0 le_st0 le_mag0]. rewrite L2. change (first32 [k2] ++ g) with ((1, chr1) :: (11, chr2) :: (skipn 2 (first32 [k2]) ++ g)). rewrite name_laid by assumption. split; [tauto|]. intro N. split; [exact N|].
  destruct TAx as ((_ & T) & _).
  change (skipn 2 (first32 [k2]) ++ g) with ([(1, one_of $" *+"); (1, any); (1, one_of [k2])] ++ [(4, isdig); (1, one_of $" abcde"); (12, numeric)] ++ g).
  replace (disc ++ nt ++ [k2] ++ date ++ body ++ st) with ((disc ++ nt ++ [k2]) ++ date ++ (body ++ st)) by (now rewrite <- !app_assoc).
  apply laid_app. { apply laid_cons; [assumption|exact (disc_ok F RV r V Tg)|]. apply laid_cons; [assumption|apply fine_any, (nt_fine F RV r V Tg)|]. apply laid_one; [reflexivity|]. cbn [forallb]. rewrite andb_true_r. apply cmem_in. now left. }
  apply laid_app; [exact T|exact LB].
Qed.
Lemma second_accepted t p perm prov trk : accepted false l t p perm prov trk -> accepted false l2 t p perm prov trk.
Proof. unfold accepted. rewrite (s_id second_cols), (s_nt second_cols), (s_date second_cols), (s_st second_cols). tauto. Qed.
Lemma second_date_quiet e : checkDate (cols 16 32 l2) false = Err e -> e = RuntimeError.
Proof. rewrite (s_date second_cols). exact (date_quiet r o l id c date ra de mag i j k q q' PA e). Qed.
End Second.
Lemma any_tail_quiet l D e : tail_checks l D = Err e -> e = RuntimeError.
Proof.
  unfold tail_checks. destruct (negb _); [intro H; now injection H as <-|]. destruct (unpackPackedID (cols 1 12 l)) as [[[a b] d]|e'] eqn:U; cbn [rbind]; [discriminate 1|]. intro H. injection H as <-. exact (C11_only_runtime_error _ _ U).
Qed.
