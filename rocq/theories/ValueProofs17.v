(** Lemmas about ObsSpec, part 2: files of observations. *)
From Verif Require Import PyStrProofs PackSpec AdesMasterTables FileLines Back80Spec Back80Proofs6 Back80Proofs7 Back80Proofs8 Back80Proofs10.
From Verif Require Import Mpc80 Mpc80Spec Mpc80Proofs1 Mpc80Proofs10 Mpc80Proofs11 Mpc80Proofs12 DocSpec DocProofs6 ValidSpec RecordSpec.
From Verif Require Import ValueSpec ObsSpec XsdFiles ValueProofs1 ValueProofs8 ValueProofs16.
From Verif Require PropsMpc80 RecordProofs10.
From Verif Require Import PropsDoc PropsRecord Back80Spec Mpc80Spec.
Local Open Scope nat_scope.

(** the halves of a radar pair *)
Lemma decoded_kind l d c : decodes l d -> is_kind "0" d = false -> cols 15 15 l = $c -> c <> ""%string -> is_kind c d = true.
Proof.
  intros H Z K N. destruct H; try discriminate Z; unfold is_kind; try (change (text_of _ $"code") with (cols 15 15 l); rewrite K; apply streqb_refl).
  exfalso. rewrite H in K. destruct c; [now elim N|discriminate K].
Qed.
Lemma half_first a b l d : In (a, b) [(34, 47); (47, 61)] -> ~ In nl l -> decode80 l = Ok d -> is_kind "0" d = false -> cols 15 15 l = $"R" ->
  decodable (blanked a b l) /\ length l = 80.
Proof.
  intros I NL H Z K. apply (PropsMpc80.C26_decode l d NL) in H. assert (is_kind "R" d = true) as KD by (apply (decoded_kind l d "R" H Z K); discriminate).
  destruct (decodes_R l d H KD) as (F & t & p & perm & prov & trk & shift & NH & (D & NO & U) & SH & _).
  pose proof (lay_radar1 l F) as L. split; [|exact L].
  assert (1 <= a /\ a < b /\ b < 80 /\ 34 <= a /\ b <= 61) as (A & B & C & A' & B') by (destruct I as [E|[E|[]]]; injection E as <- <-; lia).
  assert (~ In nl (blanked a b l)) as N by (unfold blanked; repeat apply no_nl_app; try apply no_nl_cols; try apply no_nl_spaces; auto).
  assert (fitp (flat radar1_layout) (blanked a b l) = true) as F'.
  { apply blanked_fitp; [exact L|lia|lia|lia|now apply laid_out_fitp|]. destruct I as [E|[E|[]]]; injection E as <- <-; vm_compute; reflexivity. }
  destruct (radar1_eq (blanked a b l) (blanked_length a b l L A B C) F') as (shift' & S' & _).
  eassert (decodes (blanked a b l) _) as X.
  { eapply (dec_radar1 (blanked a b l) t p perm prov trk shift').
    - intros Hd. apply NH. apply (blanked_header a b l L); auto; lia.
    - now apply laid_out_fitp.
    - unfold accepted. rewrite (blanked_left a b l L A B C 16 32), (blanked_left a b l L A B C 1 12), (blanked_left a b l L A B C 14 14), (blanked_right a b l L A B C 78 80) by lia. exact (conj D (conj NO U)).
    - exact S'. }
  apply (PropsMpc80.C26_decode _ _ N) in X. eexists. split; [exact X|]. unfold is_kind. change (text_of _ $"code") with (cols 15 15 (blanked a b l)).
  rewrite (blanked_left a b l L A B C 15 15) by lia. rewrite K. reflexivity.
Qed.
Lemma half_second a b l d : In (a, b) [(34, 47); (47, 61)] -> ~ In nl l -> decode80 l = Ok d -> is_kind "0" d = false -> cols 15 15 l = $"r" ->
  decodable (blanked a b l) /\ length l = 80.
Proof.
  intros I NL H Z K. apply (PropsMpc80.C26_decode l d NL) in H. assert (is_kind "r" d = true) as KD by (apply (decoded_kind l d "r" H Z K); discriminate).
  destruct (decodes_r l d H KD) as (F & t & p & perm & prov & trk & NH & (D & NO & U) & _).
  pose proof (lay_radar2 l F) as L. split; [|exact L].
  assert (1 <= a /\ a < b /\ b < 80 /\ 34 <= a /\ b <= 61) as (A & B & C & A' & B') by (destruct I as [E|[E|[]]]; injection E as <- <-; lia).
  assert (~ In nl (blanked a b l)) as N by (unfold blanked; repeat apply no_nl_app; try apply no_nl_cols; try apply no_nl_spaces; auto).
  eassert (decodes (blanked a b l) _) as X.
  { eapply (dec_radar2 (blanked a b l) t p perm prov trk).
    - intros Hd. apply NH. apply (blanked_header a b l L); auto; lia.
    - apply laid_out_fitp, blanked_fitp; [exact L|lia|lia|lia|now apply laid_out_fitp|]. destruct I as [E|[E|[]]]; injection E as <- <-; vm_compute; reflexivity.
    - unfold accepted. rewrite (blanked_left a b l L A B C 16 32), (blanked_left a b l L A B C 1 12), (blanked_left a b l L A B C 14 14), (blanked_right a b l L A B C 78 80) by lia. exact (conj D (conj NO U)). }
  apply (PropsMpc80.C26_decode _ _ N) in X. eexists. split; [exact X|]. unfold is_kind. change (text_of _ $"code") with (cols 15 15 (blanked a b l)).
  rewrite (blanked_left a b l L A B C 15 15) by lia. rewrite K. reflexivity.
Qed.
Lemma half_observed a b l m : In (a, b) [(34, 47); (47, 61)] -> ~ In nl l -> ~ In nl m -> decodable l -> decodable m -> kind_is "R" l -> kind_is "r" m ->
  agree 1 12 l m -> agree 16 32 l m -> agree 78 80 l m -> agree 69 71 l m -> observation [blanked a b l; blanked a b m].
Proof.
  intros I NL NM (x & HX & ZX) (y & HY & ZY) K K' A1 A2 A3 A4. destruct (half_first a b l x I NL HX ZX K) as [D L]. destruct (half_second a b m y I NM HY ZY K') as [D' M].
  assert (1 <= a /\ a < b /\ b < 80 /\ 34 <= a /\ b <= 61) as (A & B & C & A' & B') by (destruct I as [E|[E|[]]]; injection E as <- <-; lia).
  assert (forall u v, 1 <= u -> u <= v -> v <= 34 \/ 62 <= u -> agree u v l m -> agree u v (blanked a b l) (blanked a b m)) as AG.
  { intros u v U V W E. unfold agree in *. destruct W as [W|W].
    - rewrite !blanked_left by (auto; lia). exact E.
    - rewrite !blanked_right by (auto; lia). exact E. }
  apply (obs_pair _ _ "R" "r"); auto.
  - unfold kind_is. rewrite (blanked_left a b l L A B C 15 15) by lia. exact K.
  - unfold kind_is. rewrite (blanked_left a b m M A B C 15 15) by lia. exact K'.
  - now left.
  - apply AG; auto; lia.
  - apply AG; auto; lia.
  - apply AG; auto; lia.
  - intros _. apply AG; auto; lia.
Qed.
Lemma divided_observed nosplit ch : observation ch -> Forall plain_line ch -> Forall observation (divided nosplit ch).
Proof.
  intros O P. destruct O as [l c DL K I|l m c c' DL DM K K' I A1 A2 A3 A4]; unfold divided.
  - constructor; [|constructor]. now apply (obs_line l c).
  - destruct (negb nosplit && streqb (cols 15 15 l) $"R" && has_both l) eqn:E; [|constructor; [now apply (obs_pair l m c c')|constructor]].
    apply andb_prop in E as [E _]. apply andb_prop in E as [_ E]. apply streqb_eq in E.
    assert (c = "R"%char) as -> by (unfold kind_is in K; rewrite K in E; now injection E).
    assert (c' = "r"%char) as -> by (destruct I as [I|[I|[I|[]]]]; injection I; congruence).
    pose proof (Forall_inv P) as [NL _]. pose proof (Forall_inv (Forall_inv_tail P)) as [NM _].
    constructor; [|constructor; [|constructor]].
    + rewrite !keep_delay_blanked. apply half_observed; auto. right. now left.
    + rewrite !keep_doppler_blanked. apply half_observed; auto. now left.
Qed.
Lemma blanked_plain a b l : plain_line l -> plain_line (blanked a b l).
Proof.
  intros [N R]. split.
  - unfold blanked. repeat apply no_nl_app; try apply no_nl_cols; try apply no_nl_spaces; auto.
  - intro I. apply R. unfold blanked in I. apply in_app_or in I as [I|I].
    + unfold cols in I. rewrite <- (firstn_skipn (1 - 1) l). apply in_or_app. right. rewrite <- (firstn_skipn (a - 1 + 1) (skipn (1 - 1) l)). apply in_or_app. now left.
    + apply in_app_or in I as [I|I]; [unfold spaces in I; apply repeat_spec in I; discriminate I|].
      unfold cols in I. rewrite <- (firstn_skipn (S b - 1) l). apply in_or_app. right. rewrite <- (firstn_skipn (80 - S b + 1) (skipn (S b - 1) l)). apply in_or_app. now left.
Qed.
Lemma divided_plain nosplit ch : Forall plain_line ch -> Forall plain_line (concat (divided nosplit ch)).
Proof.
  intro P. unfold divided. destruct ch as [|l [|m [|n ch]]]; [exact P|cbn [concat]; rewrite app_nil_r; exact P| |cbn [concat]; rewrite app_nil_r; exact P].
  pose proof (Forall_inv P) as PL. pose proof (Forall_inv (Forall_inv_tail P)) as PM.
  destruct (_ && _ && _); cbn [concat app]; [|exact P].
  exact (Forall_cons _ (blanked_plain 47 61 l PL) (Forall_cons _ (blanked_plain 47 61 m PM) (Forall_cons _ (blanked_plain 34 47 l PL) (Forall_cons _ (blanked_plain 34 47 m PM) (Forall_nil _))))).
Qed.
Lemma split_divided ch rest : observation ch -> Forall plain_line ch -> split_radar (ch ++ rest) = ahead (concat (divided false ch)) (split_radar rest).
Proof.
  intros O P. destruct O as [l c (a & HA & ZA) K I|l m c c' (a & HA & ZA) (b & HB & ZB) K K' I A1 A2 A3 A4].
  - apply Forall_inv in P as [NL _]. pose proof (data_lines l a c NL HA ZA K) as D. cbn [divided concat app]. apply (unsplit_line l a c D K).
    intros ->. clear -I. vm_compute in I. intuition discriminate.
  - pose proof (Forall_inv P) as [NL _]. pose proof (Forall_inv (Forall_inv_tail P)) as [NM _].
    pose proof (data_lines l a _ NL HA ZA K) as D. pose proof (data_lines m b _ NM HB ZB K') as D'. unfold divided. cbn [negb andb].
    destruct I as [I|[I|[I|[]]]]; injection I as <- <-.
    + assert (streqb (cols 15 15 l) $"R" = true) as E by (rewrite K; reflexivity). rewrite E. destruct (has_both l) eqn:B; cbn [andb].
      * cbn [app split_radar]. rewrite (dl_head _ _ D), (dl_len _ _ D). change (80 <? 14) with false. cbv iota. unfold column15. rewrite E. cbn [negb].
        assert (streqb (cols 15 15 m) $"r" = true) as -> by (rewrite K'; reflexivity). rewrite B. reflexivity.
      * exact (unsplit_radar l m a D K K' B rest).
    + assert (streqb (cols 15 15 l) $"R" = false) as -> by (rewrite K; reflexivity). cbn [andb concat]. rewrite app_nil_r.
      change [l; m] with ([l] ++ [m]). apply unsplit_app; [apply (unsplit_line l a "S" D K); discriminate|apply (unsplit_line m b "s" D' K'); discriminate].
    + assert (streqb (cols 15 15 l) $"R" = false) as -> by (rewrite K; reflexivity). cbn [andb concat]. rewrite app_nil_r.
      change [l; m] with ([l] ++ [m]). apply unsplit_app; [apply (unsplit_line l a "V" D K); discriminate|apply (unsplit_line m b "v" D' K'); discriminate].
Qed.
Lemma divided_true chs : flat_map (divided true) chs = chs.
Proof. induction chs as [|ch chs IH]; [reflexivity|]. cbn [flat_map]. rewrite IH. unfold divided. destruct ch as [|l [|m [|n ch]]]; reflexivity. Qed.
Lemma split_all chs : Forall observation chs -> Forall plain_line (concat chs) -> split_radar (concat chs) = (concat (flat_map (divided false) chs), None).
Proof.
  induction 1 as [|ch chs O _ IH]; intro P; [reflexivity|]. cbn [concat flat_map] in *. apply Forall_app in P as [P1 P2].
  rewrite (split_divided ch _ O P1), (IH P2). unfold ahead. cbn [fst snd]. now rewrite concat_app.
Qed.
Lemma divided_all nosplit chs : Forall observation chs -> Forall plain_line (concat chs) ->
  Forall observation (flat_map (divided nosplit) chs) /\ Forall plain_line (concat (flat_map (divided nosplit) chs)).
Proof.
  induction 1 as [|ch chs O _ IH]; intro P; [split; constructor|]. cbn [concat flat_map] in *. apply Forall_app in P as [P1 P2]. destruct (IH P2) as [A B]. split.
  - apply Forall_app. split; [now apply divided_observed|exact A].
  - rewrite concat_app. apply Forall_app. split; [now apply divided_plain|exact B].
Qed.
Lemma all_seen chs : Forall observation chs -> Forall plain_line (concat chs) -> exists ds, Forall2 (seen_as true) chs ds.
Proof.
  induction 1 as [|ch chs O _ IH]; intro P; [exists []; constructor|]. cbn [concat] in P. apply Forall_app in P as [P1 P2].
  destruct (IH P2) as (ds & H). destruct (obs_seen true ch O P1 (or_introl eq_refl)) as (d & D). exists (d :: ds). now constructor.
Qed.
Lemma obs_short chs : Forall observation chs -> Forall plain_line (concat chs) -> Forall (fun l => length l <= 80) (concat chs).
Proof.
  intros O P. destruct (all_seen chs O P) as (ds & S). clear O P. induction S as [|ch d chs ds S _ IH]; [constructor|]. cbn [concat]. apply Forall_app. split; [exact (s_len _ _ _ S)|exact IH].
Qed.
Lemma obs_records nosplit chs : Forall observation chs -> Forall plain_line (concat chs) ->
  exists ds, Forall2 (seen_as true) (flat_map (divided nosplit) chs) ds /\ records_of nosplit (concat chs) = (ds, None).
Proof.
  intros O P. destruct (divided_all nosplit chs O P) as [O' P']. destruct (all_seen _ O' P') as (ds & S). exists ds. split; [exact S|].
  assert (records (read (concat (flat_map (divided nosplit) chs))) = (ds, None)) as R.
  { apply records_concat. eapply Forall2_imp; [|exact S]. intros ch d D. exact (s_yields _ _ _ D). }
  unfold records_of. rewrite firstn_short by now apply obs_short. destruct nosplit.
  - rewrite divided_true in R. exact R.
  - rewrite (split_all chs O P), R. reflexivity.
Qed.
Theorem file_values F nosplit chs doc : reads_values F -> Forall observation chs -> readable (concat chs) ->
  mpc80coltoxml ades_tables nosplit (file (concat chs)) = Written doc ->
  (valid F general_xsd doc <-> forall ch, In ch (flat_map (divided nosplit) chs) -> omitted ch = false -> taken ch).
Proof.
  intros RV O R W. assert (Forall plain_line (concat chs)) as P by exact (proj1 R).
  destruct (obs_records nosplit chs O P) as (ds & S & E).
  assert (Forall (fun d => header d = false) ds) as H by (clear -S; induction S as [|ch d chs' ds' A _ IH]; constructor; [exact (s_data _ _ _ A)|exact IH]).
  rewrite (C41_headerless F nosplit (concat chs) ds doc R E H W).
  pose proof W as W'. rewrite (C39_headerless ades_tables optical_fields radar_fields nosplit (concat chs) ds eq_refl eq_refl R E H) in W'.
  destruct (rows optical_fields radar_fields ds) as [xs|] eqn:Q; [|discriminate W'].
  assert (forall d, In d ds -> row optical_fields radar_fields d <> None) as RW.
  { intros d I N. destruct (RecordProofs10.together_in _ _ _ Q d I) as (z & Z & _). rewrite N in Z. discriminate Z. }
  assert (simple F general_xsd $"VersionType" $"2022") as V.
  { destruct RV as (RT & _). apply (enum_type F RT "VersionType" [$"2022"]); [vm_compute; reflexivity|discriminate|now left]. }
  clear -RV S RW V. split.
  - intros [_ A]. revert S RW A. generalize (flat_map (divided nosplit) chs). intros cs S. induction S as [|ch d cs ds S _ IH]; intros RW A c I L; [destruct I|]. destruct I as [<-|I].
    + apply (s_fine _ _ _ S F RV); [rewrite (s_out _ _ _ S); exact L|apply RW; now left|]. apply A; [now left|rewrite (s_out _ _ _ S); exact L].
    + apply IH; auto.
      * intros d' I'. apply RW. now right.
      * intros d' I'. apply A. now right.
  - intro A. split; [exact V|]. revert S RW A. generalize (flat_map (divided nosplit) chs). intros cs S. induction S as [|ch d cs ds S _ IH]; intros RW A c I L; [destruct I|]. destruct I as [<-|I].
    + apply (s_fine _ _ _ S F RV); [exact L|apply RW; now left|]. apply A; [now left|rewrite <- (s_out _ _ _ S); exact L].
    + apply IH; auto.
      * intros d' I'. apply RW. now right.
      * intros d' I'. apply A. now right.
Qed.
