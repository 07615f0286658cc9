(** Lemmas about Back80Spec, part 10: the records that are read. *)
From Verif Require Import PyStrProofs JustSpec JustProofs AdesMasterTables FmtRe.
From Verif Require Import XmlToMpc80 Mpc80 Mpc80Spec Line80Spec LineProofs1 PackSpec DocSpec DocProofs2 DocProofs6 Mpc80Proofs1 Mpc80Proofs4 Mpc80Proofs11 Mpc80Proofs12 Mpc80Proofs13.
From Verif Require Import Back80Spec Back80Proofs1 Back80Proofs2 Back80Proofs3 Back80Proofs4 Back80Proofs5 Back80Proofs6 Back80Proofs7 Back80Proofs8 Back80Proofs9.
From Verif Require Import FileLines Mpc80 Mpc80Spec Back80Spec.
Local Open Scope nat_scope.

(** a data line *)
Lemma digit_nonblank f l : fitp (flat f) l = true -> nth_error (flat f) 15 = Some isdig -> streqb l (spaces (length l)) = false.
Proof.
  intros F N. destruct (fitp_nth _ _ _ _ F N) as (c & E & D). apply Bool.not_true_is_false. intros Q. apply streqb_eq in Q. rewrite Q in E.
  unfold spaces in E. apply nth_error_In, repeat_spec in E. subst c. discriminate D.
Qed.
Record data_line (l : str) (d : item) : Prop := {
  dl_code : text_of d $"code" = cols 15 15 l; dl_id : text_of d $"totalid" = cols 1 12 l; dl_date : text_of d $"date" = cols 16 32 l;
  dl_stn : text_of d $"stn" = cols 78 80 l; dl_trx : In (cols 15 15 l) [$"R"; $"r"] -> text_of d $"trx" = cols 69 71 l;
  dl_len : length l = 80; dl_head : is_header_line l = false; dl_read : ~ In nl l -> read_line l = [Got d] }.
Lemma data_lines l d c : ~ In nl l -> decode80 l = Ok d -> is_kind "0" d = false -> kind_is c l -> data_line l d.
Proof.
  intros NL H Z K. pose proof H as R. apply decode_iff in H; [|exact NL].
  assert (forall f, laid_out f l -> nth_error (flat f) 15 = Some isdig -> read_line l = [Got d]) as RD.
  { intros f F N. apply laid_out_fitp in F. unfold read_line. rewrite (digit_nonblank f l F N), R. reflexivity. }
  assert (~ header_line l -> is_header_line l = false) as HL.
  { intros N. rewrite is_header_line_eq. destruct (is_header l) eqn:X; [|reflexivity]. apply is_header_iff in X. contradiction. }
  assert (forall f, laid_out f l -> length (flat f) = 80 -> length l = 80) as LL.
  { intros f F Q. apply laid_out_fitp, fitp_length in F. congruence. }
  destruct H as [k v Le I E|t p perm prov trk ra pra de pde NH F AC R0 DE
                            |t p perm prov trk shift NH F AC S|t p perm prov trk NH F AC
                            |t p perm prov trk x y z dp sys NH F AC SY P1 P2 P3|t p perm prov trk NH F AC|E].
  1: discriminate Z.
  6: rewrite E in K; discriminate K.
  all: constructor; [reflexivity|reflexivity|reflexivity|reflexivity| |apply (LL _ F eq_refl)|apply HL; exact NH|intros _; apply (RD _ F eq_refl)].
  2,3: intros _; reflexivity.
  all: intros J; exfalso; eapply kind_char in F as (c' & C & M); [|reflexivity|reflexivity]; rewrite C in J; apply in_kinds in M;
    destruct J as [J|[J|[]]]; injection J as <-; vm_compute in M; intuition discriminate.
Qed.

(** a chunk of lines that gives one record *)
Definition yields (ch : list str) (d : item) : Prop :=
  forall rest, records (read (ch ++ rest)) = (d :: fst (records (read rest)), snd (records (read rest))).
Definition unsplit (ch : list str) : Prop := forall rest, split_radar (ch ++ rest) = ahead ch (split_radar rest).
Definition tag_of (ch : list str) : str := match ch with l :: _ => if streqb (cols 15 15 l) $"R" then $"radar" else $"optical" | [] => [] end.
Lemma read_app a b : read (a ++ b) = read a ++ read b. Proof. apply flat_map_app. Qed.
Lemma yields_line l d c : ~ In nl l -> data_line l d -> kind_is c l -> In c $"A PeCBTMcEOHNnX" -> yields [l] d.
Proof.
  intros NL D K I rest. rewrite read_app. unfold read at 1. cbn [flat_map]. rewrite (dl_read _ _ D NL). cbn [app records].
  assert (first_line d = false /\ second_line d = false) as [E1 E2].
  { unfold first_line, second_line, is_kind. rewrite (dl_code _ _ D), K.
    clear - I. vm_compute in I. repeat (destruct I as [<-|I]; [split; vm_compute; reflexivity|]). destruct I. }
  rewrite E1, E2.
  destruct (records (read rest)). reflexivity.
Qed.
Lemma yields_pair l m a b c c' : ~ In nl l -> ~ In nl m -> data_line l a -> data_line m b -> kind_is c l -> kind_is c' m ->
  In (c, c') [("R", "r"); ("S", "s"); ("V", "v")]%char -> agree 1 12 l m -> agree 16 32 l m -> agree 78 80 l m -> (c = "R"%char -> agree 69 71 l m) ->
  yields [l; m] (joined a b).
Proof.
  intros NL NM A B KA KB I G1 G2 G3 G4 rest. change ([l; m] ++ rest) with ([l] ++ [m] ++ rest). rewrite !read_app. unfold read at 1 2. cbn [flat_map]. rewrite (dl_read _ _ A NL), (dl_read _ _ B NM). cbn [app records].
  assert (first_line a = true) as ->. { unfold first_line, is_kind. rewrite (dl_code _ _ A), KA. destruct I as [I|[I|[I|[]]]]; injection I as <- <-; reflexivity. }
  assert (pairs_with a b = true) as ->. { unfold pairs_with, is_kind. rewrite (dl_code _ _ A), (dl_code _ _ B), KA, KB. destruct I as [I|[I|[I|[]]]]; injection I as <- <-; reflexivity. }
  assert (same_record a b = true) as ->.
  { unfold same_record, same. rewrite (dl_id _ _ A), (dl_id _ _ B), (dl_date _ _ A), (dl_date _ _ B), (dl_stn _ _ A), (dl_stn _ _ B), G1, G2, G3.
    rewrite !streqb_refl. cbn [andb]. unfold is_kind. rewrite (dl_code _ _ A), KA.
    destruct I as [I|[I|[I|[]]]]; injection I as <- <-; try reflexivity.
    change (streqb ["R"%char] $ "R") with true. cbn [negb orb]. rewrite (dl_trx _ _ A), (dl_trx _ _ B) by (rewrite ?KA, ?KB; vm_compute; tauto). rewrite G4 by reflexivity. apply streqb_refl. }
  destruct (records (read rest)). reflexivity.
Qed.
Lemma unsplit_line l d c : data_line l d -> kind_is c l -> c <> "R"%char -> unsplit [l].
Proof.
  intros D K N rest. cbn [app split_radar]. rewrite (dl_head _ _ D). rewrite (dl_len _ _ D). change (80 <? 14) with false. cbv iota.
  unfold column15. rewrite K. assert (streqb [c] $"R" = false) as ->; [|reflexivity].
  apply Bool.not_true_is_false. intros Q. apply streqb_eq in Q. injection Q as Q. contradiction.
Qed.
Lemma unsplit_app a b : unsplit a -> unsplit b -> unsplit (a ++ b).
Proof. intros A B rest. rewrite <- app_assoc, A, B. unfold ahead. cbn [fst snd]. now rewrite app_assoc. Qed.
Lemma unsplit_radar l m a : data_line l a -> kind_is "R" l -> kind_is "r" m -> has_both l = false -> unsplit [l; m].
Proof.
  intros D K K' H rest. cbn [app split_radar]. rewrite (dl_head _ _ D), (dl_len _ _ D). change (80 <? 14) with false. cbv iota.
  assert (streqb (column15 l) $"R" = true) as -> by (unfold column15; rewrite K; reflexivity). cbn [negb]. rewrite H.
  assert (streqb (column15 m) $"r" = true) as -> by (unfold column15; rewrite K'; reflexivity). reflexivity.
Qed.

Lemma kept_made nosplit ch : kept ch -> Forall plain_line ch -> whole nosplit ch ->
  exists d, yields ch d /\ (nosplit = false -> unsplit ch) /\ header d = false /\ (forall o, prints o (tag_of ch) ch d) /\ Forall (fun l => length l = 80) ch.
Proof.
  intros H P W. destruct H as [l c (a & HA & ZA) K I O|l m (a & HA & ZA) (b & HB & ZB) K K' O A1 A2 A3 B1 B2 B3
    |l m q u (a & HA & ZA) (b & HB & ZB) K K' O A1 A2 A3 B1 B2 B3 TU NU|l m (a & HA & ZA) (b & HB & ZB) K K' O A1 A2 A3].
  - apply Forall_inv in P as [NL _]. pose proof (data_lines l a c NL HA ZA K) as D. exists a. assert (tag_of [l] = $"optical") as -> by (unfold tag_of; rewrite K; clear - I; vm_compute in I; repeat (destruct I as [<-|I]; [vm_compute; reflexivity|]); destruct I).
    split; [eapply yields_line; eauto|]. split; [intros _; apply (unsplit_line l a c D K); intros ->; clear - I; vm_compute in I; intuition discriminate|].
    split; [exact ZA|]. split; [intros o; eapply line_prints; eauto|]. constructor; [apply (dl_len _ _ D)|constructor].
  - pose proof (Forall_inv P) as [NL _]. pose proof (Forall_inv (Forall_inv_tail P)) as [NM _].
    pose proof (data_lines l a _ NL HA ZA K) as D. pose proof (data_lines m b _ NM HB ZB K') as D'. exists (joined a b). assert (tag_of [l; m] = $"optical") as -> by (unfold tag_of; rewrite K; reflexivity).
    assert (length l = 80) as L by apply (dl_len _ _ D). assert (length m = 80) as M by apply (dl_len _ _ D').
    split; [eapply (yields_pair l m a b "S" "s"); eauto; [vm_compute; tauto|apply (agree_sub 1 14 1 12 l m L M A1); lia|apply (agree_sub 73 80 78 80 l m L M A3); lia|intros Q; discriminate Q]|].
    split; [intros _; change [l; m] with ([l] ++ [m]); apply unsplit_app; [apply (unsplit_line l a "S" D K); discriminate|apply (unsplit_line m b "s" D' K'); discriminate]|].
    split.
    { unfold header, is_kind, joined. assert (is_kind "R" a = false) as ->. { unfold is_kind. rewrite (dl_code _ _ D), K. reflexivity. }
      rewrite text_updated by reflexivity. rewrite (dl_code _ _ D), K. reflexivity. }
    split; [intros o; eapply satellite_prints; eauto|]. repeat constructor; assumption.
  - pose proof (Forall_inv P) as [NL _]. pose proof (Forall_inv (Forall_inv_tail P)) as [NM _].
    pose proof (data_lines l a _ NL HA ZA K) as D. pose proof (data_lines m b _ NM HB ZB K') as D'. exists (joined a b). assert (tag_of [l; m] = $"optical") as -> by (unfold tag_of; rewrite K; reflexivity).
    assert (length l = 80) as L by apply (dl_len _ _ D). assert (length m = 80) as M by apply (dl_len _ _ D').
    split; [eapply (yields_pair l m a b "V" "v"); eauto; [vm_compute; tauto|apply (agree_sub 1 14 1 12 l m L M A1); lia|apply (agree_sub 72 80 78 80 l m L M A3); lia|intros Q; discriminate Q]|].
    split; [intros _; change [l; m] with ([l] ++ [m]); apply unsplit_app; [apply (unsplit_line l a "V" D K); discriminate|apply (unsplit_line m b "v" D' K'); discriminate]|].
    split.
    { unfold header, is_kind, joined. assert (is_kind "R" a = false) as ->. { unfold is_kind. rewrite (dl_code _ _ D), K. reflexivity. }
      rewrite text_updated by reflexivity. rewrite (dl_code _ _ D), K. reflexivity. }
    split; [intros o; eapply rover_prints; eauto|]. repeat constructor; assumption.
  - pose proof (Forall_inv P) as [NL _]. pose proof (Forall_inv (Forall_inv_tail P)) as [NM _].
    pose proof (data_lines l a _ NL HA ZA K) as D. pose proof (data_lines m b _ NM HB ZB K') as D'. exists (joined a b). assert (tag_of [l; m] = $"radar") as -> by (unfold tag_of; rewrite K; reflexivity).
    assert (length l = 80) as L by apply (dl_len _ _ D). assert (length m = 80) as M by apply (dl_len _ _ D').
    split; [eapply (yields_pair l m a b "R" "r"); eauto; [vm_compute; tauto|apply (agree_sub 69 80 78 80 l m L M A3); lia|intros _; apply (agree_sub 69 80 69 71 l m L M A3); lia]|].
    split; [intros ->; apply (unsplit_radar l m a D K K'); destruct W as [W|W]; [discriminate W|]; apply Forall_inv in W; apply W; exact K|].
    split.
    { unfold header, is_kind, joined. assert (is_kind "R" a = true) as ->. { unfold is_kind. rewrite (dl_code _ _ D), K. reflexivity. }
      rewrite text_updated by reflexivity. rewrite (dl_code _ _ D), K. reflexivity. }
    split; [intros o; eapply radar_prints; eauto|]. repeat constructor; assumption.
Qed.

(** * Files *)
Lemma records_concat chs ds : Forall2 yields chs ds -> records (read (concat chs)) = (ds, None).
Proof. induction 1 as [|ch d chs ds Y _ IH]; [reflexivity|]. cbn [concat]. now rewrite Y, IH. Qed.
Lemma split_concat chs : Forall unsplit chs -> split_radar (concat chs) = (concat chs, None).
Proof. induction 1 as [|ch chs Y _ IH]; [reflexivity|]. cbn [concat]. now rewrite Y, IH. Qed.
Lemma firstn_short (ls : list str) : Forall (fun l => length l <= 80) ls -> map (firstn 80) ls = ls.
Proof. induction 1 as [|l ls H _ IH]; [reflexivity|]. cbn [map]. now rewrite IH, firstn_all2. Qed.
Lemma records_chunks nosplit chs ds : Forall2 yields chs ds -> (nosplit = false -> Forall unsplit chs) -> Forall (fun l => length l <= 80) (concat chs) ->
  records_of nosplit (concat chs) = (ds, None).
Proof.
  intros Y U L. unfold records_of. rewrite firstn_short by exact L. destruct nosplit; [now apply records_concat|].
  rewrite split_concat by auto. rewrite (records_concat _ _ Y). reflexivity.
Qed.
Record made (nosplit : bool) (ch : list str) (d : item) : Prop := {
  m_yields : yields ch d; m_unsplit : nosplit = false -> unsplit ch; m_data : header d = false;
  m_prints : forall o, prints o (tag_of ch) ch d; m_len : Forall (fun l => length l <= 80) ch }.
Lemma whole_app nosplit a b : whole nosplit (a ++ b) -> whole nosplit a /\ whole nosplit b.
Proof. intros [W|W]; [split; left; exact W|]. apply Forall_app in W as [W1 W2]. split; right; assumption. Qed.
Lemma all_made nosplit chs : Forall kept chs -> Forall plain_line (concat chs) -> whole nosplit (concat chs) -> exists ds, Forall2 (made nosplit) chs ds.
Proof.
  induction 1 as [|ch chs K _ IH]; cbn [concat]; intros P W; [exists []; constructor|].
  apply Forall_app in P as [P1 P2]. apply whole_app in W as [W1 W2]. destruct (IH P2 W2) as (ds & F).
  destruct (kept_made nosplit ch K P1 W1) as (d & Y & U & H & R & L). exists (d :: ds). constructor; [|exact F]. constructor; auto.
  eapply Forall_impl; [|exact L]. cbn. lia.
Qed.
Lemma Forall2_imp {A B} (P Q : A -> B -> Prop) l m : (forall a b, P a b -> Q a b) -> Forall2 P l m -> Forall2 Q l m.
Proof. intros H. induction 1; constructor; auto. Qed.
Lemma made_len nosplit chs ds : Forall2 (made nosplit) chs ds -> Forall (fun l => length l <= 80) (concat chs).
Proof. induction 1 as [|ch d chs ds M _ IH]; cbn [concat]; [constructor|]. apply Forall_app. split; [apply (m_len _ _ _ M)|exact IH]. Qed.
Lemma made_unsplit nosplit chs ds : Forall2 (made nosplit) chs ds -> nosplit = false -> Forall unsplit chs.
Proof. intros F N. induction F as [|ch d chs ds M _ IH]; constructor; auto. apply (m_unsplit _ _ _ M N). Qed.
(** the elements of the records *)
Definition printed (o : opts80) (ch : list str) (x : xml) : Prop := xtag x = tag_of ch /\ print_record o (xtag x, subDict_of x) = Ok ch.
Lemma rows_printed nosplit o chs ds : Forall2 (made nosplit) chs ds -> forall xs, rows ofields rfields ds = Some xs -> Forall2 (printed o) chs xs.
Proof.
  induction 1 as [|ch d chs ds M _ IH]; intros xs R; unfold rows in *; cbn [together] in R.
  - injection R as <-. constructor.
  - destruct (row ofields rfields d) as [x|] eqn:E; [|discriminate R]. destruct (together _ ds) as [ys|]; [|discriminate R]. injection R as <-.
    destruct (m_prints _ _ _ M o x E) as (y & -> & T & Q). cbn [app]. constructor; [split; assumption|]. now apply IH.
Qed.
