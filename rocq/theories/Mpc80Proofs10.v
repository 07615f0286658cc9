From Verif Require Import FmtRe PyStrProofs PackProofs13 PackProofs14 PyReProofs.
From Verif Require Import Mpc80.
From Verif Require Export Mpc80Proofs9.
Local Open Scope nat_scope.

(** * Header lines, with the newline *)
Lemma dots l : ~ In nl l -> forallb (incls c_dot) l = true.
Proof.
  intros NL. apply forallb_forall. intros x Hx. destruct (incls c_dot x) eqn:I; auto. exfalso.
  assert (forall x, implb (negb (incls c_dot x)) (ceqb x nl) = true) as S by (apply forall_ascii; vm_compute; reflexivity).
  specialize (S x). rewrite I in S. cbn in S. apply ceqb_eq in S as ->. auto.
Qed.
Lemma starts_nl k l : length k <= length l -> starts k (l ++ [nl]) = starts k l.
Proof. intros L. unfold starts. rewrite firstn_app, (proj2 (Nat.sub_0_le _ _) L), firstn_O, app_nil_r. reflexivity. Qed.
Lemma starts_short k l : length l < length k -> starts k l = false.
Proof.
  intros L. unfold starts. destruct (streqb _ k) eqn:E; auto. apply streqb_eq in E. apply (f_equal (@length ascii)) in E.
  rewrite firstn_length in E. lia.
Qed.
Lemma starts_short_nl k l : length l < length k -> ~ In nl k -> starts k (l ++ [nl]) = false.
Proof.
  intros L N. destruct (Nat.eq_dec (S (length l)) (length k)) as [E|E].
  - unfold starts. destruct (streqb _ k) eqn:S; auto. apply streqb_eq in S. exfalso. apply N. rewrite <- S.
    rewrite firstn_all2 by (rewrite app_length; cbn [length]; lia). apply in_or_app. right. now left.
  - apply starts_short. rewrite app_length. cbn [length]. lia.
Qed.
Lemma is_header_nl l : is_header (l ++ [nl]) = is_header l.
Proof.
  unfold is_header.
  assert (Forall (fun k => starts (k ++ $" ") (l ++ [nl]) = starts (k ++ $" ") l) keywords) as F.
  { apply Forall_forall. intros k I. destruct (Nat.le_gt_cases (length (k ++ $" ")) (length l)) as [L|L].
    - now apply starts_nl.
    - rewrite starts_short_nl, starts_short; auto. clear L. repeat (destruct I as [<-|I]; [intros C; repeat destruct C as [C|C]; try discriminate C; destruct C|]). destruct I. }
  induction F as [|k ks E F IH]; [reflexivity|]. cbn [existsb]. now rewrite E, IH.
Qed.
Lemma match_header_nl l : ~ In nl l ->
  exists m, re_match headerRegex (l ++ [nl]) = if is_header l then Some m else None.
Proof.
  intros NL. rewrite <- is_header_nl. rewrite headerRegex_eq. unfold re_match, is_header. rewrite existsb_tail.
  set (w := l ++ [nl]).
  change (mtch (RSeq (RGrp 1 (alts keywords)) (RSeq (RCls (c_one " ")) (RSeq (RGrp 2 (RRep c_dot 0 None)) REos))) w [] (fun _ c => Some c))
    with (mtch (alts keywords) w [] (fun s' c' =>
       mtch (RSeq (RCls (c_one " ")) (RSeq (RGrp 2 (RRep c_dot 0 None)) REos)) s'
         ((1, firstn (length w - length s') w) :: c') (fun _ c => Some c))).
  rewrite (mtch_alts keywords 3) by (try discriminate; repeat constructor).
  destruct (existsb (fun k => starts k w) keywords) eqn:E; cbn [andb]; [|exists []; reflexivity].
  unfold w in *. clear w.
  destruct l as [|a [|b [|c l]]]; try (exists []; reflexivity).
  cbn [app skipn]. destruct l as [|d l]; [exists []; reflexivity|]. cbn [app mtch]. rewrite incls_one.
  destruct (ceqb d " "); [|exists []; reflexivity].
  eexists. apply rep_many; [apply dots; intros I; apply NL; cbn; tauto|lia|reflexivity].
Qed.
Lemma is_header_line_eq l : is_header_line l = is_header l.
Proof. reflexivity. Qed.
Lemma is_header_firstn n l : 4 <= n -> is_header (firstn n l) = is_header l.
Proof.
  intros L. unfold is_header.
  assert (Forall (fun k => starts (k ++ $" ") (firstn n l) = starts (k ++ $" ") l) keywords) as F.
  { repeat constructor; unfold starts; rewrite firstn_firstn; rewrite Nat.min_l by (cbn; lia); reflexivity. }
  induction F as [|k ks E F IH]; [reflexivity|]. cbn [existsb]. now rewrite E, IH.
Qed.
Lemma shown_short l : length l <= 80 -> shown l = l ++ [nl].
Proof. intros L. unfold shown. apply firstn_all2. rewrite app_length. cbn [length]. lia. Qed.
Lemma shown_long l : 80 < length l -> shown l = firstn 81 l.
Proof. intros L. unfold shown. rewrite firstn_app, (proj2 (Nat.sub_0_le 81 (length l))) by lia. rewrite firstn_O. apply app_nil_r. Qed.

(** [w] is a line as read from the file, [d] what is decoded *)
Definition raw (w d : str) : Prop := exists z, firstn 81 w = d ++ [z] /\ ~ In nl d /\ length d <= 80 /\ (z = nl \/ 61 <= length d).
Lemma shown_last l : exists z, shown l = firstn 80 l ++ [z] /\ (z = nl \/ 61 <= length l).
Proof.
  destruct (Nat.le_gt_cases (length l) 80) as [L|L].
  - exists nl. rewrite shown_short, firstn_all2; auto.
  - exists (last (firstn 81 l) nl). rewrite shown_long by auto. split; [|lia]. rewrite <- shown_data, shown_long by auto. apply app_removelast_last.
    destruct l; [cbn in L; lia|discriminate].
Qed.
Lemma raw_line l : ~ In nl l -> raw (l ++ [nl]) (firstn 80 l).
Proof.
  intros N. destruct (shown_last l) as (z & Z & D). exists z. split; [exact Z|]. split.
  - intros I. apply N. rewrite <- (firstn_skipn 80 l). apply in_or_app. now left.
  - rewrite firstn_length. split; [lia|]. destruct D; [auto|right; lia].
Qed.
Lemma raw_lines ls : Forall (fun l => ~ In nl l) ls -> Forall2 raw (map (fun l => l ++ [nl]) ls) (map (firstn 80) ls).
Proof. intros F. induction F as [|l ls N F IH]; cbn [map]; constructor; auto. now apply raw_line. Qed.
Lemma raw_end l : ~ In nl l -> 62 <= length l -> raw l (firstn 80 (removelast l)).
Proof.
  intros N L. destruct (Nat.le_gt_cases (length l) 81) as [H|H].
  - assert (l = removelast l ++ [last l nl]) as E by (apply app_removelast_last; destruct l; [cbn in L; lia|discriminate]).
    assert (length l = length (removelast l) + 1) as LE by (rewrite E at 1; rewrite app_length; cbn [length]; lia).
    exists (last l nl). rewrite (firstn_all2 l) by lia. rewrite (firstn_all2 (removelast l)) by lia. split; [exact E|]. split.
    + intros I. apply N. rewrite E. apply in_or_app. now left.
    + split; [lia|right; lia].
  - assert (removelast l = firstn (length l - 1) l) as E.
    { rewrite <- (firstn_all l) at 1. destruct (length l) as [|n] eqn:X; [lia|]. rewrite removelast_firstn by lia. f_equal. lia. }
    exists (last (firstn 81 l) nl). rewrite E, firstn_firstn, Nat.min_l by lia. split.
    + rewrite <- (removelast_firstn l (n:=80)) by lia. apply app_removelast_last. destruct l; [cbn in L; lia|discriminate].
    + split; [|rewrite firstn_length; split; [lia|right; lia]].
      intros I. apply N. rewrite <- (firstn_skipn 80 l). apply in_or_app. now left.
Qed.
Lemma raw_removelast w d : raw w d -> removelast (firstn 81 w) = d.
Proof. intros (z & -> & _). apply removelast_last. Qed.
Lemma raw_nl w d : raw w d -> ~ In nl d. Proof. intros (z & _ & N & _). exact N. Qed.
Lemma match_header_raw w d : raw w d ->
  exists m, re_match headerRegex (firstn 81 w) = if is_header_line d then Some m else None.
Proof.
  intros (z & -> & N & L & D). rewrite is_header_line_eq.
  destruct (ceqb z nl) eqn:E; [apply ceqb_eq in E as ->; now apply match_header_nl|].
  destruct D as [->|D]; [discriminate E|]. rewrite match_header.
  - rewrite <- (is_header_firstn 4 (d ++ [z])) by lia. rewrite firstn_app, (proj2 (Nat.sub_0_le 4 (length d))), firstn_O, app_nil_r by lia.
    rewrite is_header_firstn by lia. eexists. reflexivity.
  - intros I. apply in_app_or in I as [I|[I|[]]]; auto. subst. discriminate E.
Qed.

(** * Splitting *)
Lemma ceqb_sym a b : ceqb a b = ceqb b a.
Proof. destruct (ceqb a b) eqn:E; symmetry; [apply ceqb_eq; symmetry; now apply ceqb_eq|]. apply ceqb_neq. apply ceqb_neq in E. congruence. Qed.
Definition agrees (r s : list str * option exn) : Prop :=
  map (@removelast ascii) (fst r) = fst s /\ snd r = snd s /\ Forall (fun x => ~ In nl (removelast x)) (fst r).
Lemma slice_last a b d (z : ascii) : b <= length d -> slice a b (d ++ [z]) = slice a b d.
Proof.
  intros L. unfold slice. destruct (Nat.le_gt_cases a (length d)) as [A|A].
  - rewrite skipn_app, (proj2 (Nat.sub_0_le _ _) A), skipn_O. rewrite firstn_app, skipn_length.
    replace (b - a - (length d - a)) with 0 by lia. now rewrite firstn_O, app_nil_r.
  - replace (b - a) with 0 by lia. reflexivity.
Qed.
Lemma from_last a d (z : ascii) : a <= length d -> from a (d ++ [z]) = skipn a d ++ [z].
Proof. intros L. unfold from. rewrite skipn_app, (proj2 (Nat.sub_0_le _ _) L). reflexivity. Qed.
Lemma slice_cols a b l : slice a b l = if a <? b then cols (S a) b l else [].
Proof.
  unfold slice, cols. destruct (a <? b) eqn:E.
  - apply Nat.ltb_lt in E. replace (b - S a + 1) with (b - a) by lia. replace (S a - 1) with a by lia. reflexivity.
  - apply Nat.ltb_ge in E. replace (b - a) with 0 by lia. reflexivity.
Qed.
Lemma column15_nth l : column15 l = match nth_error l 14 with Some c => [c] | None => [] end.
Proof. unfold column15, cols. cbn [Nat.sub Nat.add]. do 14 (destruct l as [|? l]; [reflexivity|]). destruct l as [|c l]; reflexivity. Qed.
Lemma nth14_last d (z : ascii) : 14 < length d -> nth_error (d ++ [z]) 14 = nth_error d 14.
Proof. intros L. now apply nth_error_app1. Qed.


Lemma parse_radar_short w d : raw w d -> length d < 14 -> parseRadarLine (firstn 81 w) = Err RuntimeError.
Proof.
  intros (z & -> & _) L. unfold parseRadarLine.
  rewrite (proj2 (nth_error_None _ _)); [reflexivity|]. rewrite app_length. cbn [length]. lia.
Qed.
Lemma parse_radar_other w d : raw w d -> 14 <= length d -> exists x1 c x2 x3 x4 x5,
  parseRadarLine (firstn 81 w) = Ok (x1, [c], x2, x3, x4, x5) /\
  (forall r : ascii, ceqb r nl = false -> streqb [c] [r] = streqb (column15 d) [r]).
Proof.
  intros (z & Z & NL & L80 & D) L. unfold parseRadarLine. rewrite Z.
  destruct (Nat.eq_dec (length d) 14) as [E|E].
  - rewrite nth_error_app2 by lia. rewrite E. cbn [Nat.sub nth_error].
    do 6 eexists. split; [reflexivity|]. intros r R. rewrite column15_nth.
    rewrite (proj2 (nth_error_None d 14)) by lia. destruct D as [->|D]; [|lia]. cbn [streqb]. rewrite ceqb_sym, R. reflexivity.
  - rewrite nth14_last by lia.
    destruct (nth_error d 14) as [c|] eqn:N.
    + do 6 eexists. split; [reflexivity|]. intros r R. rewrite column15_nth, N. reflexivity.
    + apply nth_error_None in N. lia.
Qed.
Lemma parse_radar_long w d z : 61 <= length d -> length d <= 80 -> firstn 81 w = d ++ [z] ->
  exists c, column15 d = [c] /\
  parseRadarLine (firstn 81 w) = Ok (cols 1 14 d, [c], cols 16 34 d, cols 35 47 d, cols 48 61 d, cols 62 80 d ++ [z]).
Proof.
  intros LD L8 Z.
  rewrite Z. unfold parseRadarLine. rewrite nth14_last by lia. rewrite column15_nth.
  destruct (nth_error d 14) as [c|] eqn:N; [|apply nth_error_None in N; lia].
  exists c. split; [reflexivity|]. rewrite !slice_last by lia. rewrite from_last by lia. rewrite !slice_cols. cbn [Nat.ltb Nat.leb].
  do 4 f_equal. unfold cols. cbn [Nat.sub Nat.add]. rewrite firstn_all2; [reflexivity|]. rewrite skipn_length. lia.
Qed.
Lemma firstn_split {A} n m (l : list A) : firstn n l ++ firstn m (skipn n l) = firstn (n + m) l.
Proof. revert l. induction n as [|n IH]; intros [|x l]; cbn; auto. now destruct m. now rewrite IH. Qed.
Lemma cols_join a b c d : 1 <= a -> a <= b -> b < c -> cols a b d ++ cols (S b) c d = cols a c d.
Proof.
  intros A B C. unfold cols. replace (S b - 1) with ((a - 1) + (b - a + 1)) by lia. rewrite <- skipn_skipn'.
  rewrite firstn_split. f_equal. lia.
Qed.
Lemma removelast_app1 {A} (l : list A) z : removelast (l ++ [z]) = l. Proof. apply removelast_last. Qed.
Lemma no_nl_cols a b l : ~ In nl l -> ~ In nl (cols a b l).
Proof.
  intros N I. apply N. unfold cols in I. rewrite <- (firstn_skipn (a - 1) l). apply in_or_app. right.
  rewrite <- (firstn_skipn (b - a + 1) (skipn (a - 1) l)). apply in_or_app. now left.
Qed.
Lemma no_nl_firstn n l : ~ In nl l -> ~ In nl (firstn n l).
Proof. intros N I. apply N. rewrite <- (firstn_skipn n l). apply in_or_app. now left. Qed.
Lemma no_nl_spaces n : ~ In nl (spaces n).
Proof. unfold spaces. intros I. apply repeat_spec in I. discriminate I. Qed.
Lemma no_nl_app a b : ~ In nl a -> ~ In nl b -> ~ In nl (a ++ b).
Proof. intros A B I. apply in_app_or in I as [I|I]; auto. Qed.
Lemma kept_delay d z c : column15 d = [c] ->
  cols 1 14 d ++ [c] ++ cols 16 34 d ++ cols 35 47 d ++ spaces 14 ++ cols 62 80 d ++ [z] = keep_delay d ++ [z].
Proof.
  intros C. unfold keep_delay. rewrite <- C. unfold column15. rewrite <- !app_assoc.
  rewrite <- (cols_join 1 34 47 d) by lia. rewrite <- (cols_join 1 15 34 d) by lia. rewrite <- (cols_join 1 14 15 d) by lia.
  now rewrite <- !app_assoc.
Qed.
Lemma kept_doppler d z c : column15 d = [c] ->
  cols 1 14 d ++ [c] ++ cols 16 34 d ++ spaces 13 ++ cols 48 61 d ++ cols 62 80 d ++ [z] = keep_doppler d ++ [z].
Proof.
  intros C. unfold keep_doppler. rewrite <- C. unfold column15. rewrite <- !app_assoc.
  rewrite <- (cols_join 48 61 80 d) by lia. rewrite <- (cols_join 1 15 34 d) by lia. rewrite <- (cols_join 1 14 15 d) by lia.
  now rewrite <- !app_assoc.
Qed.
Lemma whole_tail l ls : pairs_whole (l :: ls) -> pairs_whole ls.
Proof. intros W p x q E. apply (W (l :: p)). now rewrite E. Qed.
Lemma header_cut a : is_header_line (firstn 80 a) = is_header_line a.
Proof. unfold is_header_line. now rewrite firstn_firstn. Qed.
Lemma column15_cut a : column15 (firstn 80 a) = column15 a.
Proof. rewrite !column15_nth. do 15 (destruct a as [|? a]; [reflexivity|]). reflexivity. Qed.
Lemma map_split {A B} (f : A -> B) ls : forall p x q, map f ls = p ++ x :: q -> exists p' y q', ls = p' ++ y :: q' /\ p = map f p' /\ x = f y /\ q = map f q'.
Proof.
  induction ls as [|a ls IH]; intros [|b p] x q E; try discriminate E; cbn [map app] in E; injection E as <- E.
  - exists [], a, ls. now subst q.
  - destruct (IH _ _ _ E) as (p' & y & q' & -> & -> & -> & ->). exists (a :: p'), y, q'. auto.
Qed.
Lemma whole_cut ls : pairs_whole ls -> pairs_whole (map (firstn 80) ls).
Proof.
  intros W p l q E H C. destruct (map_split _ _ _ _ _ E) as (p' & y & q' & -> & -> & -> & ->). rewrite header_cut in H. rewrite column15_cut in C.
  destruct (W p' y q' eq_refl H C) as [L M]. split; [rewrite firstn_length; lia|]. intros m r Q D. destruct q' as [|m' r']; [discriminate Q|]. cbn [map] in Q. assert (m = firstn 80 m') as -> by congruence.
  rewrite column15_cut in D. specialize (M m' r' eq_refl D). rewrite firstn_length. lia.
Qed.
Lemma whole_end ls l : pairs_whole ls -> 61 <= length l -> pairs_whole (ls ++ [l]).
Proof.
  intros W L p x q E H C. assert (q = [] \/ exists q0 z, q = q0 ++ [z]) as [-> | (q0 & z & ->)].
  { destruct q as [|a q]; [now left|right]. destruct (exists_last (l := a :: q)) as (q0 & z & Q); [discriminate|]. now exists q0, z. }
  - apply app_inj_tail in E as [-> ->]. split; [exact L|]. intros m q' Q. discriminate Q.
  - change (p ++ x :: q0 ++ [z]) with (p ++ (x :: q0) ++ [z]) in E. rewrite app_assoc in E. apply app_inj_tail in E as [-> ->]. destruct (W p x q0 eq_refl H C) as [L1 M]. split; [exact L1|].
    intros m q' Q D. destruct q0 as [|m0 q0]; cbn [app] in Q; injection Q as <- <-; [exact L|exact (M m0 q0 eq_refl D)].
Qed.
Lemma split_agrees n : forall ws ds, length ws < n -> Forall2 raw ws ds ->
  pairs_whole ds ->
  agrees (splitRadar ws) (split_radar ds).
Proof.
  induction n as [|n IH]; intros ws ds Hn P R; [lia|].
  destruct P as [|w d rest ds' RW P2]; [split; [|split]; auto; constructor|].
  pose proof (R [] d ds' eq_refl) as R1. pose proof (whole_tail _ _ R) as R2. cbn [length] in Hn. pose proof (raw_nl _ _ RW) as NL. pose proof (raw_removelast _ _ RW) as RD.
  assert (agrees (splitRadar rest) (split_radar ds')) as (A1 & A2 & A3) by (apply IH; auto; lia).
  assert (forall o e, splitRadar rest = (o, e) ->
          agrees (firstn 81 w :: o, e) (ahead [d] (split_radar ds'))) as KEEP.
  { intros o e E. rewrite E in A1, A2, A3. cbn [fst snd] in *. unfold agrees, ahead. cbn [fst snd map app].
    rewrite RD, A1. split; [|split]; auto. constructor; auto. now rewrite RD. }
  cbn [splitRadar split_radar].
  destruct (match_header_raw w d RW) as [m ->].
  destruct (is_header_line d) eqn:HD.
  { destruct (splitRadar rest) as [o e]. now apply KEEP. }
  destruct (Nat.ltb_spec (length d) 14) as [S|S].
  { rewrite (parse_radar_short w d) by auto. split; [|split]; auto; constructor. }
  destruct (parse_radar_other w d RW S) as (x1 & c & x2 & x3 & x4 & x5 & PR & C). rewrite PR.
  assert (streqb [c] $"R" = streqb (column15 d) $"R") as CE by exact (C "R"%char eq_refl). rewrite CE.
  destruct (streqb (column15 d) $"R") eqn:CR; cbn [negb].
  2:{ destruct (splitRadar rest) as [o e]. now apply KEEP. }
  destruct (R1 eq_refl (proj1 (streqb_eq _ _) CR)) as [LL R3].
  pose proof RW as (z & Z & _ & L8 & _). destruct (parse_radar_long w d z LL L8 Z) as (c' & C' & PR').
  rewrite PR in PR'. assert ((x1, [c], x2, x3, x4, x5) = (cols 1 14 d, [c'], cols 16 34 d,
    cols 35 47 d, cols 48 61 d, cols 62 80 d ++ [z])) as EQ by (exact (Ok_inj' _ _ PR')).
  injection EQ as -> E2 -> -> -> ->. subst c'.
  destruct P2 as [|w' d' rest' ds'' RW' P3]; [split; [|split]; auto; constructor|].
  specialize (R3 d' ds'' eq_refl). pose proof (whole_tail _ _ R2) as R4. pose proof (raw_nl _ _ RW') as ND'. pose proof (raw_removelast _ _ RW') as RD'.
  destruct (Nat.le_gt_cases 14 (length d')) as [S'|S'].
  2:{ rewrite (parse_radar_short w' d') by auto.
      replace (column15 d') with (@nil ascii); [split; [|split]; auto; constructor|].
      rewrite column15_nth. rewrite (proj2 (nth_error_None _ _)); auto. lia. }
  destruct (parse_radar_other w' d' RW' S') as (y1 & e & y2 & y3 & y4 & y5 & PS & D). rewrite PS.
  assert (streqb [e] $"r" = streqb (column15 d') $"r") as DE by exact (D "r"%char eq_refl). rewrite DE.
  destruct (streqb (column15 d') $"r") eqn:CS; cbn [negb]; [|split; [|split]; auto; constructor].
  pose proof (R3 (proj1 (streqb_eq _ _) CS)) as LL'.
  pose proof RW' as (z' & Z' & _ & L8' & _). destruct (parse_radar_long w' d' z' LL' L8' Z') as (e' & E' & PS').
  rewrite PS in PS'. assert ((y1, [e], y2, y3, y4, y5) = (cols 1 14 d', [e'], cols 16 34 d',
    cols 35 47 d', cols 48 61 d', cols 62 80 d' ++ [z'])) as EQ' by (exact (Ok_inj' _ _ PS')).
  injection EQ' as -> E2' -> -> -> ->. subst e'.
  assert (agrees (splitRadar rest') (split_radar ds'')) as (B1 & B2 & B3)
    by (apply IH; auto; cbn [length] in Hn; lia).
  destruct (splitRadar rest') as [o ex]. cbn [fst snd] in *.
  change (negb (blank (cols 35 47 d)) && negb (blank (cols 48 61 d))) with (has_both d).
  destruct (has_both d).
  - rewrite (kept_delay d z c C'), (kept_delay d' z' e E'), (kept_doppler d z c C'), (kept_doppler d' z' e E').
    unfold agrees, ahead. cbn [fst snd map app]. rewrite !removelast_last, B1. split; [reflexivity|]. split; [auto|].
    assert (forall w, ~ In nl w -> ~ In nl (keep_delay w) /\ ~ In nl (keep_doppler w)) as K.
    { intros u W. unfold keep_delay, keep_doppler. split; repeat apply no_nl_app; try apply no_nl_cols; try apply no_nl_spaces; auto. }
    destruct (K d NL), (K d' ND'). repeat (constructor; [rewrite removelast_last; auto|]). exact B3.
  - unfold agrees, ahead. cbn [fst snd map app]. rewrite RD, RD', B1. split; [reflexivity|]. split; [auto|].
    constructor; [rewrite RD; auto|]. constructor; [rewrite RD'; auto|]. exact B3.
Qed.
Theorem split_file T ls : Forall plain_line ls -> pairs_whole ls ->
  mpc80coltoxml T false (file ls) =
  let '(ls', e) := split_radar (map (firstn 80) ls) in conclude T (ended (records (read ls')) e).
Proof.
  intros P R.
  assert (agrees (splitRadar (map (fun l => l ++ [nl]) ls)) (split_radar (map (firstn 80) ls))) as (A1 & A2 & A3).
  { eapply split_agrees; [apply Nat.lt_succ_diag_r| |].
    - apply raw_lines. eapply Forall_impl; [|exact P]. intros a [N _]. exact N.
    - now apply whole_cut. }
  rewrite (conclude_gen T (splitRadar (map (fun l => l ++ [nl]) ls)) false (file ls)).
  - rewrite A1, A2. destruct (split_radar (map (firstn 80) ls)) as [gs e]. reflexivity.
  - now rewrite file_lines_all.
  - exact A3.
Qed.

(** * A last line without its newline loses its last character *)
Lemma file_lines_end l : ~ In nl l -> l <> [] -> file_lines l = [l].
Proof.
  induction l as [|c l IH]; intros N E; [congruence|]. cbn [file_lines].
  replace (ceqb c nl) with false by (symmetry; apply ceqb_neq; intros ->; apply N; now left).
  destruct l as [|c2 l]; [reflexivity|]. rewrite IH; auto; [|discriminate]. intros I. apply N. now right.
Qed.
Lemma univ_plain l : plain_line l -> univ_newlines l = l.
Proof. intros P. rewrite <- (app_nil_r l) at 1. rewrite univ_line by auto. cbn. apply app_nil_r. Qed.
Lemma lines_with_end ls l : Forall plain_line ls -> plain_line l -> l <> [] ->
  file_lines (univ_newlines (file ls ++ l)) = map (fun l => l ++ [nl]) ls ++ [l].
Proof. intros F P E. rewrite univ_file, univ_plain, file_lines_file, file_lines_end by (auto; apply P). reflexivity. Qed.
Theorem last_line T nosplit ls l : Forall plain_line ls -> plain_line l -> 62 <= length l ->
  pairs_whole ls ->
  mpc80coltoxml T nosplit (file ls ++ l) = mpc80coltoxml T nosplit (file (ls ++ [removelast l])).
Proof.
  intros F P L R. assert (l <> []) as E by (destruct l; [cbn in L; lia|discriminate]).
  assert (plain_line (removelast l)) as PR.
  { destruct P as [N C]. rewrite (app_removelast_last nl E) in N, C. split; intros I; [apply N|apply C]; apply in_or_app; now left. }
  assert (Forall plain_line (ls ++ [removelast l])) as F2 by (apply Forall_app; split; auto).
  pose proof (raw_end l (proj1 P) L) as RE.
  assert (61 <= length (removelast l)) as LR.
  { rewrite (app_removelast_last nl E), app_length in L. cbn [length] in L. lia. }
  destruct nosplit.
  - rewrite nosplit_file by auto. rewrite (conclude_gen T (doNotSplitRadar (file_lines (univ_newlines (file ls ++ l)))) true) ; auto.
    + rewrite lines_with_end by auto. unfold doNotSplitRadar. cbn [fst snd]. rewrite !map_app, !map_map. cbn [map].
      rewrite (raw_removelast _ _ RE), (map_ext _ _ shown_data).
      unfold ended. destruct (records _) as [rs [e|]]; reflexivity.
    + rewrite lines_with_end by auto. unfold doNotSplitRadar. cbn [fst snd]. rewrite !map_app, !map_map. cbn [map].
      apply Forall_app. split; [now apply shown_nl|]. constructor; auto. rewrite (raw_removelast _ _ RE). exact (raw_nl _ _ RE).
  - assert (pairs_whole (ls ++ [removelast l])) as W by now apply whole_end.
    rewrite split_file; auto.
    assert (agrees (splitRadar (map (fun l => l ++ [nl]) ls ++ [l])) (split_radar (map (firstn 80) (ls ++ [removelast l])))) as (A1 & A2 & A3).
    { eapply split_agrees; [apply Nat.lt_succ_diag_r| |].
      - rewrite map_app. apply Forall2_app; [|constructor; [exact RE|constructor]]. apply raw_lines. eapply Forall_impl; [|exact F]. intros a [N _]. exact N.
      - now apply whole_cut. }
    rewrite (conclude_gen T (splitRadar (map (fun l => l ++ [nl]) ls ++ [l])) false); auto.
    + rewrite A1, A2. destruct (split_radar _) as [gs e]. reflexivity.
    + now rewrite lines_with_end.
Qed.
