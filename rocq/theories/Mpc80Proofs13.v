From Verif Require Import FmtRe PyStrProofs PackProofs13 PackProofs14 PyReProofs SexSpec SexProofs18.
From Verif Require Import Mpc80.
From Verif Require Export Mpc80Proofs12.
Local Open Scope nat_scope.

(** * An exception other than RuntimeError ends everything *)
Lemma records_stop n : forall evs e, length evs < n -> In (Stop e) evs -> snd (records evs) <> None.
Proof.
  induction n as [|n IH]; intros evs e L I; [lia|]. destruct evs as [|[a|e'] rest]; [destruct I| |cbn; discriminate].
  cbn [length] in L. destruct I as [I|I]; [discriminate|]. cbn [records].
  assert (snd (records rest) <> None) as R by (eapply IH; eauto; lia).
  destruct (first_line a).
  - destruct rest as [|[b|e'] rest']; [destruct I| |exact R].
    assert (snd (records rest') <> None) as R' by (destruct I as [I|I]; [discriminate|]; eapply IH; eauto; cbn [length] in L; lia).
    destruct (pairs_with a b).
    + destruct (same_record a b); [|discriminate]. destruct (records rest') as [rs x]. exact R'.
    + destruct (first_line b); [exact R|exact R'].
  - destruct (second_line a); [exact R|]. destruct (records rest) as [rs x]. exact R.
Qed.
Lemma conclude_raised T r : snd r <> None -> exists e, conclude T r = Raised e.
Proof. destruct r as [rs [e|]]; intros H; [|now contradiction H]. exists e. reflexivity. Qed.
Lemma read_stop p l q e : l <> spaces (length l) -> decode80 l = Err e -> e <> RuntimeError -> In (Stop e) (read (p ++ l :: q)).
Proof.
  intros B D N. unfold read. rewrite flat_map_app. apply in_or_app. right. cbn [flat_map]. apply in_or_app. left.
  unfold read_line. destruct (streqb l (spaces (length l))) eqn:X; [apply streqb_eq in X; contradiction|].
  rewrite D. destruct e; try (now contradiction N); left; reflexivity.
Qed.
Lemma stop_file T p l q e : Forall plain_line (p ++ l :: q) -> length l <= 80 -> l <> spaces (length l) ->
  decode80 l = Err e -> e <> RuntimeError -> exists e', mpc80coltoxml T true (file (p ++ l :: q)) = Raised e'.
Proof.
  intros F L B D N. rewrite nosplit_file by auto. apply conclude_raised. eapply (records_stop _ _ e); [apply Nat.lt_succ_diag_r|].
  rewrite map_app. cbn [map]. rewrite (firstn_all2 l) by lia. now apply read_stop.
Qed.
Lemma nonexistent_day l y m d k N : ~ In nl l -> ~ header_line l -> laid_out optical_layout l ->
  cols 16 32 l = date_text y m d k N ->
  (1600 <= y <= 9999)%Z -> (1 <= m <= 12)%Z -> (month_days y m < d <= 31)%Z -> 1 <= k -> (0 <= N < 10 ^ Z.of_nat k)%Z ->
  decode80 l = Err ValueError.
Proof.
  intros NL NH F E Y M D K HN. apply laid_out_fitp in F. assert (length l = 80) as L by (now apply lay80 in F).
  assert (is_header l = false) as HD by (destruct (is_header l) eqn:X; auto; apply is_header_iff in X; contradiction).
  rewrite decode80_data, data_optical, normal_eq by auto. rewrite E, (date_nonexistent y m d k N false) by auto. reflexivity.
Qed.

(** * Sequences of two lines *)
Lemma read_got l d : l <> spaces (length l) -> decode80 l = Ok d -> read_line l = [Got d].
Proof.
  intros B D. unfold read_line. destruct (streqb l (spaces (length l))) eqn:X; [apply streqb_eq in X; contradiction|]. now rewrite D.
Qed.
Lemma two_lines T la lb ls a b : Forall plain_line (la :: lb :: ls) -> length la = 80 -> length lb = 80 ->
  decode80 la = Ok a -> decode80 lb = Ok b -> la <> spaces 80 -> lb <> spaces 80 ->
  mpc80coltoxml T true (file (la :: lb :: ls)) = conclude T (records (Got a :: Got b :: read (map (firstn 80) ls))).
Proof.
  intros F La Lb Da Db Sa Sb. rewrite nosplit_file by auto. cbn [map]. rewrite !(firstn_all2 (n:=80)) by lia.
  unfold read. cbn [flat_map]. rewrite (read_got la a), (read_got lb b) by (rewrite ?La, ?Lb; auto). reflexivity.
Qed.

(** * Lines the splitter does not touch *)
Lemma split_others ls : Forall (fun l => is_header_line l = true \/ 14 <= length l /\ column15 l <> $"R") ls -> split_radar ls = (ls, None).
Proof.
  induction 1 as [|l ls H F IH]; [reflexivity|]. cbn [split_radar]. rewrite IH. destruct H as [->|[L C]]; [reflexivity|].
  destruct (is_header_line l); [reflexivity|]. rewrite (proj2 (Nat.ltb_ge _ _)) by lia.
  destruct (streqb (column15 l) $"R") eqn:X; [apply streqb_eq in X; contradiction|]. reflexivity.
Qed.
Lemma split_short n : forall ls l q, length ls < n -> length l < 14 -> is_header_line l = false -> snd (split_radar (ls ++ l :: q)) <> None.
Proof.
  induction n as [|n IH]; intros ls l q Hn L H; [lia|]. destruct ls as [|x ls].
  - cbn [app split_radar]. rewrite H. rewrite (proj2 (Nat.ltb_lt _ _)) by lia. discriminate.
  - cbn [length] in Hn. cbn [app split_radar]. assert (snd (split_radar (ls ++ l :: q)) <> None) as R by (apply IH; auto; lia).
    destruct (is_header_line x); [exact R|]. destruct (_ <? _); [discriminate|]. destruct (negb _); [exact R|].
    destruct ls as [|y ls]; cbn [app].
    + replace (streqb (column15 l) $"r") with false; [discriminate|].
      rewrite column15_nth, (proj2 (nth_error_None _ _)) by lia. reflexivity.
    + assert (snd (split_radar (ls ++ l :: q)) <> None) as R' by (apply IH; auto; cbn [length] in Hn; lia).
      destruct (streqb (column15 y) $"r"); [|discriminate]. destruct (has_both x); exact R'.
Qed.
Lemma ended_raised {A} (r : list A * option exn) e : e <> None -> snd (ended r e) <> None.
Proof. destruct r as [x [e'|]]; cbn; auto. discriminate. Qed.
Lemma short_line T p l q : Forall plain_line (p ++ l :: q) -> pairs_whole (p ++ l :: q) ->
  length l < 14 -> ~ header_line l -> exists e, mpc80coltoxml T false (file (p ++ l :: q)) = Raised e.
Proof.
  intros F R L H. rewrite split_file by auto.
  assert (snd (split_radar (map (firstn 80) (p ++ l :: q))) <> None) as S.
  { rewrite map_app. cbn [map]. eapply split_short; [apply Nat.lt_succ_diag_r| |].
    - rewrite firstn_length. lia.
    - rewrite (firstn_all2 l) by lia. rewrite is_header_line_eq. destruct (is_header l) eqn:X; auto. apply is_header_iff in X. contradiction. }
  destruct (split_radar _) as [gs e]. cbn [snd] in S. apply conclude_raised. now apply ended_raised.
Qed.
Lemma cut_at_80 T nosplit ls : Forall plain_line ls -> pairs_whole ls ->
  mpc80coltoxml T nosplit (file ls) = mpc80coltoxml T nosplit (file (map (firstn 80) ls)).
Proof.
  intros F R.
  assert (Forall plain_line (map (firstn 80) ls)) as F2.
  { apply Forall_map. eapply Forall_impl; [|exact F]. intros a [N C]. split; intros I; [apply N|apply C]; rewrite <- (firstn_skipn 80 a); apply in_or_app; now left. }
  assert (map (firstn 80) (map (firstn 80) ls) = map (firstn 80) ls) as E.
  { rewrite map_map. apply map_ext. intros a. rewrite firstn_firstn. reflexivity. }
  destruct nosplit.
  - rewrite !nosplit_file by auto. now rewrite E.
  - rewrite !split_file; auto; [now rewrite E|]. now apply whole_cut.
Qed.
(** digits in columns 33-34 stay in both records of a split pair *)
Lemma doppler_leftover l d : ~ In nl l -> decode80 l = Ok d -> is_kind "R" d = true -> cols 33 34 l <> spaces 2 ->
  exists d', decode80 (keep_doppler l) = Ok d' /\ is_kind "R" d' = true /\
    text_of d' $"delay" = cols 33 34 l ++ spaces 3 ++ $"." ++ spaces 10 /\ text_of d' $"shift" = text_of d $"shift".
Proof.
  intros NL H K S. apply decode_iff in H; auto.
  destruct (decodes_R l d H K) as (F & t & p & perm & prov & trk & shift & NH & (D & NO & U) & SH & ->).
  pose proof (lay_radar1 l F) as L.
  eassert (decodes (keep_doppler l) _) as X.
  { eapply (dec_radar1 (keep_doppler l) t p perm prov trk shift).
    - intros Hd. apply NH. apply (blanked_header 34 47 l L); auto; lia.
    - apply laid_out_fitp. rewrite keep_doppler_blanked. apply blanked_fitp; [exact L|lia|lia|lia|now apply laid_out_fitp|vm_compute; reflexivity].
    - unfold accepted. rewrite (kd_left l L 16 32), (kd_left l L 1 12), (kd_left l L 14 14), (kd_right l L 78 80) by lia. exact (conj D (conj NO U)).
    - rewrite (kd_right l L) by lia. exact SH. }
  eexists. split; [apply decode_iff; [|exact X]|].
  { unfold keep_doppler. repeat apply no_nl_app; try apply no_nl_cols; try apply no_nl_spaces; auto. }
  assert (cols 33 47 (keep_doppler l) = cols 33 34 l ++ spaces 13) as E.
  { rewrite <- (cols_app 33 34 47) by lia. rewrite (kd_left l L 33 34) by lia.
    rewrite keep_doppler_blanked, (blanked_mid 34 47) by lia. reflexivity. }
  split; [|split; [|reflexivity]].
  - unfold is_kind in *. change (text_of _ $"code") with (cols 15 15 (keep_doppler l)). 
    change (text_of _ $"code") with (cols 15 15 l) in K. rewrite (kd_left l L) by lia. exact K.
  - match goal with |- text_of ?x $"delay" = _ => change (text_of x $"delay") with (implied_point 5 (cols 33 47 (keep_doppler l))) end.
    rewrite E. pose proof (cols_length 33 34 l) as LL. destruct (cols 33 34 l) as [|x [|y [|]]]; cbn in LL; try lia.
    unfold implied_point. destruct (streqb _ _) eqn:B; [|reflexivity]. apply streqb_eq in B. exfalso. apply S.
    injection B as -> ->. reflexivity.
Qed.
Lemma lost_line T ls l : Forall plain_line ls -> plain_line l -> length l = 80 -> ~ header_line (removelast l) ->
  pairs_whole ls ->
  mpc80coltoxml T true (file ls ++ l) = mpc80coltoxml T true (file ls).
Proof.
  intros F P L H R. rewrite last_line by (auto; lia).
  assert (l <> []) as E by (destruct l; [discriminate L|discriminate]).
  assert (plain_line (removelast l)) as PR.
  { destruct P as [N C]. rewrite (app_removelast_last nl E) in N, C. split; intros I; [apply N|apply C]; apply in_or_app; now left. }
  assert (length (removelast l) = 79) as LR.
  { rewrite (app_removelast_last nl E), app_length in L. cbn [length] in L. lia. }
  rewrite !nosplit_file by (auto; apply Forall_app; auto).
  rewrite map_app. cbn [map]. rewrite (firstn_all2 (removelast l)) by lia.
  unfold read. rewrite flat_map_app. cbn [flat_map]. unfold read_line at 2. rewrite app_nil_r.
  destruct (streqb _ _); [now rewrite app_nil_r|].
  rewrite decode80_short; [now rewrite app_nil_r|apply PR|destruct (removelast l); [discriminate LR|discriminate]|lia|].
  destruct (is_header (removelast l)) eqn:X; auto. apply is_header_iff in X. contradiction.
Qed.
