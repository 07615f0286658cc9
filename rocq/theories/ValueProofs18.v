(** Lemmas about ObsSpec, part 3: headers and blocks. *)
From Verif Require Import PyStrProofs PackSpec AdesMasterTables FileLines Back80Spec Back80Proofs10 Back80Proofs12.
From Verif Require Import XsdPattern IdProofs3 IdProofs5.
From Verif Require Import Mpc80 Mpc80Spec DocSpec DocProofs6 ValidSpec.
From Verif Require Import ValueSpec ObsSpec XsdFiles ValueProofs1 ValueProofs2 ValueProofs3 ValueProofs8 ValueProofs13 ValueProofs16 ValueProofs17.
From Verif Require PropsMpc80 RecordProofs10.
From Verif Require Import PropsDoc PropsRecord Back80Spec DocSpec Mpc80 Mpc80Spec.
Local Open Scope nat_scope.

Lemma solid_eq c : solid_char c = plain_char c && negb (xsd_space c).
Proof. revert c. apply eqb_ascii. vm_compute. reflexivity. Qed.
Lemma some_textual s : some_text s <-> textual s.
Proof.
  unfold some_text, textual. rewrite no_bar_plain. split.
  - intros (N & c & I & S). split; [exact N|]. apply existsb_exists. exists c. split; [exact I|]. rewrite solid_eq, S.
    rewrite forallb_forall in N. rewrite (N c I). reflexivity.
  - intros [N E]. split; [exact N|]. apply existsb_exists in E as (c & I & S). exists c. split; [exact I|]. rewrite solid_eq in S. apply andb_prop in S as [_ S].
    now apply negb_true_iff in S.
Qed.
Lemma until_len v : length (until_comma v) <= length v.
Proof. induction v as [|c v IH]; [reflexivity|]. cbn [until_comma]. destruct (ceqb c ","); cbn [length]; lia. Qed.
Lemma after_len v i : after_comma v = Some i -> length i <= length v.
Proof. induction v as [|c v IH]; intro H; [discriminate H|]. cbn [after_comma] in H. destruct (ceqb c ","); cbn [length]; [injection H as <-; lia|specialize (IH H); lia]. Qed.
Lemma split_len c v n : In n (splitc c v) -> length n <= length v.
Proof.
  revert n. induction v as [|a v IH]; intros n I; cbn [splitc] in I; [destruct I as [<-|[]]; reflexivity|].
  destruct (ceqb a c).
  - destruct I as [<-|I]; cbn [length]; [lia|]. specialize (IH n I). lia.
  - destruct (splitc c v) as [|w ws]; [destruct I as [<-|[]]; cbn [length]; lia|]. destruct I as [<-|I]; cbn [length].
    + specialize (IH w (or_introl eq_refl)). lia.
    + specialize (IH n (or_intror I)). lia.
Qed.
Section Heads.
  Variable F : derivation -> str -> Prop.
  Hypothesis R : reads_texts F.
  Hypothesis RD : reads_decimals F.
  Lemma text100 s : length s <= 80 -> (simple F general_xsd $"StringTypeW100" s <-> some_text s).
  Proof.
    intro L. rewrite (chain_simple F general_xsd 6 $"StringTypeW100" [[($"xsd:maxLength", $"100")]; [($"xsd:pattern", string_pattern)]] s ltac:(vm_compute; reflexivity)).
    rewrite (R _ s), forall_2, one_pattern, one_length, string_lang, some_textual. unfold textual. split; [tauto|]. intro T. split; [|exact T].
    transitivity 80; [exact L|]. apply Nat.leb_le. vm_compute. reflexivity.
  Qed.
  Lemma unknown : simple F general_xsd $"StringTypeW25" $"Unknown" /\ simple F general_xsd $"PosDecimalTypeW6" $"9999".
  Proof.
    split.
    - rewrite (chain_simple F general_xsd 6 $"StringTypeW25" [[($"xsd:maxLength", $"25")]; [($"xsd:pattern", string_pattern)]] $"Unknown" ltac:(vm_compute; reflexivity)).
      rewrite (R _ $"Unknown"), forall_2, one_pattern, one_length, string_lang. split; [apply Nat.leb_le; vm_compute; reflexivity|]. split; vm_compute; reflexivity.
    - apply (rms_type F RD); [reflexivity|]. exists (inject_Z 9999). split; [|split; [reflexivity|split; [reflexivity|split; [reflexivity|apply Nat.leb_le; vm_compute; reflexivity]]]].
      split.
      + exists [], $"9999", []. split; [left; split; reflexivity|]. split; [now left|]. split; [reflexivity|]. split; [discriminate|]. vm_compute. reflexivity.
      + exists [], "9"%char, $"999". split; [reflexivity|]. split; [now left|]. split; [reflexivity|]. intro Q. discriminate Q.
  Qed.
  Lemma says_fine kv : length (snd kv) <= 80 -> (heading_fine F general_xsd (hrec kv) <-> says (fst kv) (snd kv)).
  Proof.
    destruct kv as [k v]. cbn [fst snd]. intros L. unfold heading_fine. change (value (hrec (k, v))) with v. change (keyword (hrec (k, v))) with k. cbv zeta.
    destruct unknown as [U1 U2]. unfold says, called.
    destruct (streqb k $"COD") eqn:E1.
    { apply streqb_eq in E1. subst k. rewrite (stn_type F R). split; [intro H|intros (H & _); now apply H].
      split; [intros _; exact H|]. split; [intro Q; discriminate Q|]. split; [intros [Q|Q]; discriminate Q|intro Q; discriminate Q]. }
    destruct (streqb k $"CON") eqn:E2.
    { apply streqb_eq in E2. subst k. rewrite (text100 (until_comma v)) by (pose proof (until_len v); lia).
      assert ((forall i, after_comma v = Some i -> simple F general_xsd $"StringTypeW100" i) <-> (forall i, after_comma v = Some i -> some_text i)) as ->.
      { split; intros H i Q; apply (text100 i); auto; pose proof (after_len v i Q); lia. }
      split; [intro H|intros (_ & H & _); now apply H].
      split; [intro Q; discriminate Q|]. split; [intros _; exact H|]. split; [intros [Q|Q]; discriminate Q|intro Q; discriminate Q]. }
    destruct (streqb k $"OBS" || streqb k $"MEA") eqn:E3.
    { assert (k = $"OBS" \/ k = $"MEA") as K by (apply orb_true_iff in E3 as [E|E]; apply streqb_eq in E; auto).
      assert ((forall n, In n (splitc "," v) -> simple F general_xsd $"StringTypeW100" n) <-> (forall n, In n (splitc "," v) -> some_text n)) as ->.
      { split; intros H i Q; apply (text100 i); auto; pose proof (split_len _ v i Q); lia. }
      split; [intro H|intros (_ & _ & H & _); now apply H].
      split; [intros ->; discriminate E1|]. split; [intros ->; discriminate E2|]. split; [intros _; exact H|]. intros ->. destruct K as [K|K]; discriminate K. }
    destruct (streqb k $"TEL") eqn:E4.
    { apply streqb_eq in E4. subst k. rewrite (text100 v) by lia. split; [intros (H & _)|intros (_ & _ & _ & H); split; [now apply H|auto]].
      split; [intro Q; discriminate Q|]. split; [intro Q; discriminate Q|]. split; [intros [Q|Q]; discriminate Q|intros _; exact H]. }
    split; [intros _|auto]. split; [intros ->; discriminate E1|]. split; [intros ->; discriminate E2|]. split; [intros [->| ->]; discriminate E3|intros ->; discriminate E4].
  Qed.
  Lemma first_in hs h : In h (first_of_each hs) <-> exists a b, hs = a ++ h :: b /\ forall g, In g a -> keyword g <> keyword h.
  Proof.
    induction hs as [|x hs IH]; cbn [first_of_each]; [split; [intros []|intros ([|] & b & E & _); discriminate E]|]. split.
    - intros [<-|I]; [exists [], hs; split; [reflexivity|intros g []]|]. apply filter_In in I as [I Q]. apply (proj1 IH) in I as (a & b & -> & H).
      exists (x :: a), b. split; [reflexivity|]. intros g [<-|J]; [|now apply H]. apply negb_true_iff in Q. intro E. rewrite E, streqb_refl in Q. discriminate Q.
    - intros (a & b & E & H). destruct a as [|y a]; [left; exact (f_equal (hd x) E)|]. injection E as -> E. right. apply filter_In. split.
      + apply IH. exists a, b. split; [exact E|]. intros g J. apply H. now right.
      + apply negb_true_iff. apply Bool.not_true_is_false. intro Q. apply streqb_eq in Q. exact (H y (or_introl eq_refl) (eq_sym Q)).
  Qed.
  Lemma map_split {A B} (f : A -> B) l a b : map f l = a ++ b -> exists x y, l = x ++ y /\ a = map f x /\ b = map f y.
  Proof.
    revert l. induction a as [|u a IH]; intros l E; [exists [], l; auto|]. destruct l as [|v l]; [discriminate E|]. cbn [map app] in E. injection E as <- E.
    destruct (IH l E) as (x & y & -> & -> & ->). exists (v :: x), y. auto.
  Qed.
  Lemma heads_fine kvs : Forall (fun kv => length (snd kv) <= 80) kvs -> (headers_fine F general_xsd (map hrec kvs) <-> heads_taken kvs).
  Proof.
    intro L. rewrite Forall_forall in L. unfold headers_fine, heads_taken.
    assert (forall kv, keyword (hrec kv) = fst kv /\ value (hrec kv) = snd kv) as KV by (intro kv; split; reflexivity).
    assert ((forall w : string, In w ["COD"; "CON"; "MEA"; "TEL"]%string -> exists h, In h (map hrec kvs) /\ keyword h = $w) <->
            (forall k, In k [$"COD"; $"CON"; $"MEA"; $"TEL"] -> In k (map fst kvs))) as H1.
    { split.
      - intros H k I. assert (exists w, In w ["COD"; "CON"; "MEA"; "TEL"]%string /\ k = $w) as (w & J & ->).
        { destruct I as [<-|[<-|[<-|[<-|[]]]]]; [exists "COD"%string|exists "CON"%string|exists "MEA"%string|exists "TEL"%string]; split; try reflexivity; [left|right; left|right; right; left|right; right; right; left]; reflexivity. }
        destruct (H w J) as (h & Ih & E). apply in_map_iff in Ih as (kv & <- & Ih). rewrite (proj1 (KV kv)) in E. rewrite <- E. now apply in_map.
      - intros H w J. assert (In $w (map fst kvs)) as I. { apply H. destruct J as [<-|[<-|[<-|[<-|[]]]]]; [left|right; left|right; right; left|right; right; right; left]; reflexivity. }
        apply in_map_iff in I as (kv & E & I). exists (hrec kv). split; [now apply in_map|]. rewrite (proj1 (KV kv)). exact E. }
    assert ((forall h, In h (first_of_each (map hrec kvs)) -> heading_fine F general_xsd h) <->
            (forall a k v b, kvs = a ++ (k, v) :: b -> ~ In k (map fst a) -> says k v)) as H2.
    { split.
      - intros H a k v b E N. apply (says_fine (k, v)); [apply (L (k, v)); rewrite E; apply in_or_app; right; now left|]. apply H. apply first_in.
        exists (map hrec a), (map hrec b). split; [rewrite E, map_app; reflexivity|]. intros g I Q. apply in_map_iff in I as (kv & <- & I). apply N. rewrite (proj1 (KV kv)) in Q. change (fst kv = k) in Q. rewrite <- Q. now apply in_map.
      - intros H h I. apply first_in in I as (a & b & E & N). apply map_split in E as (x & y & E & -> & Eb). destruct y as [|[k v] y]; [discriminate Eb|].
        pose proof (f_equal (hd []) Eb) as Eh. cbn [hd map] in Eh. subst h. apply says_fine; [apply (L (k, v)); rewrite E; apply in_or_app; right; now left|].
        apply (H x k v y E). intro I. apply in_map_iff in I as (kv & Q & I). apply (N (hrec kv)); [now apply in_map|]. exact Q. }
    assert ((forall h, In h (map hrec kvs) -> keyword h = $"COM" -> simple F general_xsd $"StringTypeW100" (value h)) <-> (forall v, In ($"COM", v) kvs -> some_text v)) as H3.
    { split.
      - intros H v I. apply (text100 v (L _ I)). exact (H (hrec ($"COM", v)) (in_map hrec _ _ I) eq_refl).
      - intros H h I K. apply in_map_iff in I as ([k v] & <- & I). rewrite (proj1 (KV (k, v))) in K. cbn [fst] in K. subst k. rewrite (proj2 (KV ($"COM", v))). apply (text100 v (L _ I)). now apply H. }
    rewrite H1, H2, H3. reflexivity.
  Qed.
End Heads.

(** * Blocks *)
Definition divided_block (nosplit : bool) (b : list (str * str) * list (list str)) : list (str * str) * list (list str) := (fst b, flat_map (divided nosplit) (snd b)).
Definition block_seen (b : list (str * str) * list (list str)) (g : DocSpec.group) : Prop := fst g = map hrec (fst b) /\ Forall2 (seen_as true) (snd b) (snd g).
Lemma headers_split kvs rest : Forall (fun kv => In (fst kv) keywords /\ length (header_text kv) <= 80) kvs -> Forall plain_line (map header_text kvs) ->
  split_radar (map header_text kvs ++ rest) = ahead (map header_text kvs) (split_radar rest).
Proof.
  induction 1 as [|kv kvs [I L] _ IH]; intro P; cbn [map] in *; [unfold ahead; cbn [app]; now destruct (split_radar rest)|].
  pose proof (Forall_inv P) as [N _]. destruct (header_read kv I N L) as [_ U].
  change ((header_text kv :: map header_text kvs) ++ rest) with ([header_text kv] ++ (map header_text kvs ++ rest)). rewrite U, (IH (Forall_inv_tail P)). reflexivity.
Qed.
Lemma obs_split chs rest : Forall observation chs -> Forall plain_line (concat chs) -> split_radar (concat chs ++ rest) = ahead (concat (flat_map (divided false) chs)) (split_radar rest).
Proof.
  induction 1 as [|ch chs O _ IH]; intro P; cbn [concat flat_map app] in *; [unfold ahead; cbn [app]; now destruct (split_radar rest)|].
  apply Forall_app in P as [P1 P2]. rewrite <- app_assoc, (split_divided ch _ O P1), (IH P2). unfold ahead. cbn [fst snd]. rewrite concat_app, app_assoc. reflexivity.
Qed.
Lemma headers_read kvs rest : Forall (fun kv => In (fst kv) keywords /\ length (header_text kv) <= 80) kvs -> Forall plain_line (map header_text kvs) ->
  records (read (map header_text kvs ++ rest)) = (map hrec kvs ++ fst (records (read rest)), snd (records (read rest))).
Proof.
  induction 1 as [|kv kvs [I L] _ IH]; intro P; cbn [map] in *; [cbn [app]; now destruct (records (read rest))|].
  pose proof (Forall_inv P) as [N _]. destruct (header_read kv I N L) as [Y _].
  change ((header_text kv :: map header_text kvs) ++ rest) with ([header_text kv] ++ (map header_text kvs ++ rest)). rewrite Y, (IH (Forall_inv_tail P)). reflexivity.
Qed.
Lemma seen_read chs ds rest : Forall2 (seen_as true) chs ds -> records (read (concat chs ++ rest)) = (ds ++ fst (records (read rest)), snd (records (read rest))).
Proof.
  induction 1 as [|ch d chs ds S _ IH]; cbn [concat app]; [now destruct (records (read rest))|].
  rewrite <- app_assoc, (s_yields _ _ _ S), IH. reflexivity.
Qed.
Lemma blocks_lines nosplit bs : Forall good_block bs -> Forall plain_line (flat_map headed bs) ->
  Forall (fun l => length l <= 80) (flat_map headed bs) /\
  split_radar (flat_map headed bs) = (flat_map headed (map (divided_block false) bs), None) /\
  Forall good_block (map (divided_block nosplit) bs) /\ Forall plain_line (flat_map headed (map (divided_block nosplit) bs)).
Proof.
  induction 1 as [|b bs (N1 & N2 & K & O) _ IH]; intro P; cbn [flat_map map] in *; [repeat split; constructor|].
  apply Forall_app in P as [P1 P2]. destruct (IH P2) as (A & B & C & D). unfold headed at 1 in P1. apply Forall_app in P1 as [PH PO].
  destruct (divided_all nosplit (snd b) O PO) as [O' PO']. split; [|split; [|split]].
  - apply Forall_app. split; [|exact A]. unfold headed. apply Forall_app. split; [|now apply obs_short].
    apply Forall_map. eapply Forall_impl; [|exact K]. intros kv [_ L]. exact L.
  - unfold headed at 1. rewrite <- app_assoc, (headers_split (fst b) _ K PH), (obs_split (snd b) _ O PO), B. unfold ahead. cbn [fst snd]. unfold headed at 2. unfold divided_block at 1 2. cbn [fst snd]. rewrite <- app_assoc. reflexivity.
  - constructor; [|exact C]. unfold good_block, divided_block. cbn [fst snd]. split; [exact N1|]. split; [|split; [exact K|exact O']].
    destruct (snd b) as [|ch chs]; [now elim N2|]. cbn [flat_map]. unfold divided. destruct ch as [|l [|m [|n ch]]]; try discriminate. destruct (_ && _ && _); discriminate.
  - apply Forall_app. split; [|exact D]. unfold headed, divided_block. cbn [fst snd]. apply Forall_app. split; [exact PH|exact PO'].
Qed.
Lemma blocks_seen bs : Forall good_block bs -> Forall plain_line (flat_map headed bs) ->
  exists gs, Forall2 block_seen bs gs /\ records (read (flat_map headed bs)) = (ungroup gs, None).
Proof.
  induction 1 as [|b bs (N1 & N2 & K & O) _ IH]; intro P; cbn [flat_map] in *; [exists []; split; [constructor|reflexivity]|].
  apply Forall_app in P as [P1 P2]. destruct (IH P2) as (gs & A & B). unfold headed at 1 in P1. apply Forall_app in P1 as [PH PO].
  destruct (all_seen (snd b) O PO) as (ds & S). exists ((map hrec (fst b), ds) :: gs). split; [constructor; [split; [reflexivity|exact S]|exact A]|].
  unfold headed at 1. rewrite <- app_assoc, (headers_read (fst b) _ K PH), (seen_read (snd b) ds _ S), B. unfold ungroup. cbn [flat_map fst snd]. rewrite <- app_assoc. reflexivity.
Qed.
Lemma blocks_records nosplit bs : Forall good_block bs -> Forall plain_line (flat_map headed bs) ->
  exists gs, Forall2 block_seen (map (divided_block nosplit) bs) gs /\ records_of nosplit (flat_map headed bs) = (ungroup gs, None).
Proof.
  intros G P. destruct (blocks_lines nosplit bs G P) as (L & S & G' & P'). destruct (blocks_seen _ G' P') as (gs & A & B). exists gs. split; [exact A|].
  unfold records_of. rewrite firstn_short by exact L. destruct nosplit.
  - assert (map (divided_block true) bs = bs) as E.
    { clear. induction bs as [|[h c] bs IH]; [reflexivity|]. cbn [map]. rewrite IH. unfold divided_block. cbn [fst snd]. now rewrite divided_true. }
    rewrite E in B. exact B.
  - rewrite S, B. reflexivity.
Qed.
Lemma seen_pair chs ds : Forall2 (seen_as true) chs ds -> (forall ch, In ch chs -> exists d, In d ds /\ seen_as true ch d) /\ (forall d, In d ds -> exists ch, In ch chs /\ seen_as true ch d).
Proof.
  induction 1 as [|ch d chs ds S _ [A B]]; [split; intros x []|]. split.
  - intros x [<-|I]; [exists d; split; [now left|exact S]|]. destruct (A x I) as (y & J & Q). exists y. split; [now right|exact Q].
  - intros x [<-|I]; [exists ch; split; [now left|exact S]|]. destruct (B x I) as (y & J & Q). exists y. split; [now right|exact Q].
Qed.
Lemma data_fine F chs ds : reads_values F -> Forall2 (seen_as true) chs ds -> (forall d, In d ds -> row optical_fields radar_fields d <> None) ->
  (records_fine F general_xsd optical_fields radar_fields ds <-> data_taken chs).
Proof.
  intros RV S R. destruct (seen_pair chs ds S) as [SA SB]. unfold records_fine, data_taken. split.
  - intros (A & rt & (d & I & L) & K). split; [|split].
    + intros ch J O. destruct (SA ch J) as (x & Ix & Q). rewrite <- (s_out _ _ _ Q) in O. apply (s_fine _ _ _ Q F RV O (R x Ix)). now apply A.
    + destruct (SB d I) as (ch & J & Q). exists ch. split; [exact J|]. now rewrite <- (s_out _ _ _ Q).
    + intros ch ch' J J' O O'. destruct (SA ch J) as (x & Ix & Q). destruct (SA ch' J') as (x' & Ix' & Q'). rewrite <- (s_out _ _ _ Q) in O. rewrite <- (s_out _ _ _ Q') in O'.
      rewrite <- (s_radar _ _ _ Q), <- (s_radar _ _ _ Q'). rewrite (K x Ix O), (K x' Ix' O'). reflexivity.
  - intros (A & (ch & J & O) & K). split.
    + intros d I L. destruct (SB d I) as (c & Jc & Q). apply (s_fine _ _ _ Q F RV L (R d I)). apply A; [exact Jc|]. now rewrite <- (s_out _ _ _ Q).
    + exists (by_radar ch). destruct (SA ch J) as (x & Ix & Qx). split; [exists x; split; [exact Ix|now rewrite (s_out _ _ _ Qx)]|].
      intros d I L. destruct (SB d I) as (c & Jc & Q). rewrite (s_radar _ _ _ Q). apply K; auto. now rewrite <- (s_out _ _ _ Q).
Qed.
Lemma rows_none ds : rows optical_fields radar_fields ds = Some [] -> forall d, In d ds -> left_out d = true.
Proof.
  intros E d I. destruct (RecordProofs10.together_in _ _ _ E d I) as (z & Z & J). destruct (left_out d) eqn:L; [reflexivity|]. exfalso. unfold row in Z. rewrite L in Z.
  assert (exists x, z = [x]) as (x & ->).
  { destruct (is_kind "R" d); [|destruct (program d) as [p|]; [|discriminate Z]; destruct (reference d) as [r|]; [|discriminate Z]]; unfold checked in Z; destruct (xml_valid _); try discriminate Z; injection Z as <-; eexists; reflexivity. }
  destruct (J x (or_introl eq_refl)).
Qed.
Theorem blocks_values F nosplit bs doc : reads_values F -> bs <> [] -> Forall good_block bs -> readable (flat_map headed bs) ->
  Forall (fun b => exists ch, In ch (snd (divided_block nosplit b)) /\ omitted ch = false) (removelast bs) ->
  mpc80coltoxml ades_tables nosplit (file (flat_map headed bs)) = Written doc ->
  (valid F general_xsd doc <-> forall b, In b bs -> heads_taken (fst b) /\ data_taken (flat_map (divided nosplit) (snd b))).
Proof.
  intros RV NE G RL NO W. assert (Forall plain_line (flat_map headed bs)) as P by exact (proj1 RL).
  destruct (blocks_records nosplit bs G P) as (gs & S & E). destruct (blocks_lines nosplit bs G P) as (_ & _ & G' & _).
  assert (gs <> []) as NG by (destruct bs; [now elim NE|]; inversion S; discriminate).
  assert (Forall regular gs) as RG.
  { clear -S G'. induction S as [|b g bs' gs' [A B] _ IH]; [constructor|]. pose proof (Forall_inv G') as (N1 & N2 & _ & _). constructor; [|exact (IH (Forall_inv_tail G'))].
    destruct (seen_pair _ _ B) as [_ SB]. unfold regular. rewrite A. split; [destruct (fst b); [now elim N1|discriminate]|]. split; [apply Forall_forall; intros h I; apply in_map_iff in I as (kv & <- & _); reflexivity|].
    split; [destruct B; [now elim N2|discriminate]|]. apply Forall_forall. intros d I. destruct (SB d I) as (c & _ & Q). exact (s_data _ _ _ Q). }
  assert (Forall (fun g => rows optical_fields radar_fields (snd g) <> Some []) (removelast gs)) as RN.
  { clear -S NO. revert gs S. induction bs as [|b bs IH]; intros gs S; cbn [map] in S; inversion S as [|b' g bs' gs' [A B] S' E1 E2]; subst; [constructor|].
    destruct bs as [|b2 bs]; [inversion S'; constructor|]. change (removelast (b :: b2 :: bs)) with (b :: removelast (b2 :: bs)) in NO. inversion S' as [|b2' g2 bs2 gs2 Q2 S2 E3 E4]. subst. change (removelast (g :: g2 :: gs2)) with (g :: removelast (g2 :: gs2)).
    constructor; [|apply IH; [exact (Forall_inv_tail NO)|exact S']].
    destruct (Forall_inv NO) as (ch & I & O). intro Q. destruct (seen_pair _ _ B) as [SA _]. destruct (SA ch I) as (d & J & D). rewrite <- (s_out _ _ _ D), (rows_none _ Q d J) in O. discriminate O. }
  rewrite (C41_blocks F nosplit _ gs doc RL E NG RG RN W).
  pose proof W as W'. rewrite (C39_blocks ades_tables optical_fields radar_fields nosplit _ gs eq_refl eq_refl RL E NG RG RN) in W'.
  destruct (blocks optical_fields radar_fields gs) as [xs|] eqn:Q; [|discriminate W'].
  assert (forall g d, In g gs -> In d (snd g) -> row optical_fields radar_fields d <> None) as RW.
  { intros g d I J N. destruct (RecordProofs10.together_in _ _ _ Q g I) as (z & Z & _). unfold block in Z. destruct (rows optical_fields radar_fields (snd g)) as [rs|] eqn:Y; [|discriminate Z].
    destruct (RecordProofs10.together_in _ _ _ Y d J) as (u & U & _). rewrite N in U. discriminate U. }
  pose proof RV as (RT & RD & _ & _).
  assert (simple F general_xsd $"VersionType" $"2022") as V.
  { apply (enum_type F RT "VersionType" [$"2022"]); [vm_compute; reflexivity|discriminate|now left]. }
  assert (forall b g, In g gs -> good_block b -> block_seen (divided_block nosplit b) g -> (headers_fine F general_xsd (fst g) /\ records_fine F general_xsd optical_fields radar_fields (snd g) <-> heads_taken (fst b) /\ data_taken (flat_map (divided nosplit) (snd b)))) as EQ.
  { intros b g I (_ & _ & K & _) [A B]. rewrite A, (heads_fine F RT RD), (data_fine F _ _ RV B (fun d J => RW g d I J)); [reflexivity|].
    eapply Forall_impl; [|exact K]. intros kv [_ L]. refine (Nat.le_trans _ _ _ _ L). unfold header_text. rewrite !app_length, Nat.add_assoc. apply Nat.le_add_l. }
  clear -S G V EQ. split.
  - intros [_ H]. revert gs S EQ H. induction G as [|b bs Gb _ IH]; intros gs S EQ H x I; [destruct I|]. cbn [map] in S. inversion S as [|b' g bs' gs' B S' E1 E2]. subst. destruct I as [<-|I].
    + apply (EQ b g (or_introl eq_refl) Gb B). apply H. now left.
    + apply (IH gs' S'); [intros u v J; apply EQ; now right|intros u J; apply H; now right|exact I].
  - intro H. split; [exact V|]. revert gs S EQ. induction G as [|b bs Gb _ IH]; intros gs S EQ x I; [inversion S; subst; destruct I|]. cbn [map] in S. inversion S as [|b' g bs' gs' B S' E1 E2]. subst. destruct I as [<-|I].
    + apply (EQ b g (or_introl eq_refl) Gb B). apply H. now left.
    + apply (IH (fun u J => H u (or_intror J)) gs' S'); [intros u v J; apply EQ; now right|exact I].
Qed.
