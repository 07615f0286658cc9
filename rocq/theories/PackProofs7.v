(** Lemmas about PackUtil.v, part 7: the shapes of packed identifiers; tracklets. *)
From Verif Require Export PackProofs6.

Lemma reprel_intro k w : forall mn mx s', forallb k w = true -> (mn <= length w)%nat ->
  match mx with Some m => (length w <= m)%nat | None => True end -> RepRel k mn mx (w ++ s') s'.
Proof.
  induction w as [|c w IH]; intros mn mx s' Hk Hmn Hmx; cbn in *.
  - destruct mn; [constructor|lia].
  - apply andb_prop in Hk as [Hc Hk]. constructor; auto.
    + intros ->. lia.
    + apply IH; auto; [lia|]. destruct mx; cbn; [lia|trivial].
Qed.

Definition blanks (s : str) : bool := forallb (fun c => ceqb c " ") s.
Lemma blanks_eq s : blanks s = true -> s = spaces (length s).
Proof.
  induction s as [|c s IH]; [reflexivity|]. cbn. intro H. apply andb_prop in H as [H1 H2].
  apply ceqb_eq in H1. subst c. rewrite IH at 1 by assumption. reflexivity.
Qed.
Lemma blanks_spaces n : blanks (spaces n) = true.
Proof. induction n; [reflexivity|]. cbn. exact IHn. Qed.
Lemma blanks_cls s : forallb (incls (Cl false [(" ", " ")]%char)) s = true -> blanks s = true.
Proof.
  unfold blanks. rewrite !forallb_forall. intros H x Hx. specialize (H x Hx). apply incls_one in H. subst. reflexivity.
Qed.
Lemma cls_blanks s : blanks s = true -> forallb (incls (Cl false [(" ", " ")]%char)) s = true.
Proof.
  unfold blanks. rewrite !forallb_forall. intros H x Hx. specialize (H x Hx). apply ceqb_eq in H. subst. reflexivity.
Qed.
Lemma trk_cls s : forallb (incls (Cl false [("-", "-"); ("A", "Z"); ("a", "z"); ("0", "9")]%char)) s = forallb trk_char s.
Proof. induction s; [reflexivity|]. cbn. f_equal; [apply k_trk_eq|assumption]. Qed.

Inductive Cap5 : str -> caps -> Prop :=
| cap5_blank : Cap5 [" "; " "; " "; " "; " "]%char []
| cap5_num l d1 d2 d3 d4 u : digit62 l = Some u -> isdig d1 = true -> isdig d2 = true -> isdig d3 = true ->
    isdig d4 = true -> Cap5 [l; d1; d2; d3; d4] [(2%nat, [d1; d2; d3; d4]); (1%nat, [l])]
| cap5_tilde w x y z a b c d : digit62 w = Some a -> digit62 x = Some b -> digit62 y = Some c ->
    digit62 z = Some d -> Cap5 ["~"%char; w; x; y; z] [(3%nat, ["~"%char; w; x; y; z])].
Inductive Cap7 : str -> caps -> Prop :=
| cap7_std c y1 y2 h cl cn o v : incls k_ik c = true -> isdig y1 = true -> isdig y2 = true -> half_month h = true ->
    digit62 cl = Some v -> isdig cn = true -> order_letter o = true ->
    Cap7 [c; y1; y2; h; cl; cn; o] [(9%nat, [o]); (8%nat, [cn]); (7%nat, [cl]); (6%nat, [h]); (5%nat, [y1; y2]); (4%nat, [c])]
| cap7_zero c y1 y2 h cl cn v : incls k_ik c = true -> isdig y1 = true -> isdig y2 = true -> half_month h = true ->
    digit62 cl = Some v -> isdig cn = true ->
    Cap7 [c; y1; y2; h; cl; cn; "0"%char] [(8%nat, [cn]); (7%nat, [cl]); (6%nat, [h]); (5%nat, [y1; y2]); (4%nat, [c])]
| cap7_survey s1 s2 d1 d2 d3 d4 : is_survey s1 s2 = true -> isdig d1 = true -> isdig d2 = true -> isdig d3 = true ->
    isdig d4 = true -> Cap7 [s1; s2; "S"%char; d1; d2; d3; d4] [(11%nat, [d1; d2; d3; d4]); (10%nat, [s1; s2])]
| cap7_trk w pad : forallb trk_char w = true -> (length w <= 8)%nat -> blanks pad = true -> Cap7 (w ++ pad) [(12%nat, w)]
| cap7_ext yl h w x y z a b c d : incls k_pz yl = true -> half_month h = true -> digit62 w = Some a ->
    digit62 x = Some b -> digit62 y = Some c -> digit62 z = Some d ->
    Cap7 ["_"%char; yl; h; w; x; y; z] [(16%nat, [w; x; y; z]); (15%nat, [h]); (14%nat, [yl]); (13%nat, ["_"%char])]
| cap7_blank pad : blanks pad = true -> Cap7 pad [].

Ltac classify7 :=
  repeat match goal with
  | H : incls (Cl false [("0", "9")]%char) ?c = true |- _ => apply k_digit_dig in H
  | H : incls (Cl false [("0", "9"); ("A", "Z"); ("a", "z")]%char) ?c = true |- _ => apply k_an_dig62 in H as [? H]
  | H : incls (Cl false [("a", "z"); ("A", "Z"); ("0", "9")]%char) ?c = true |- _ => apply k_an2_dig62 in H as [? H]
  | H : incls (Cl false [("A", "H"); ("J", "Y")]%char) ?c = true |- _ => change (incls k_hm c = true) in H; rewrite k_hm_eq in H
  | H : incls (Cl false [("A", "H"); ("J", "Z")]%char) ?c = true |- _ => change (incls k_or c = true) in H; rewrite k_or_eq in H
  end.
Ltac fin7 c5 H5 :=
  match goal with
  | |- exists seven tail c c7, _ ++ (?a :: ?b :: ?c0 :: ?d :: ?e :: ?f :: ?g0 :: ?t) = _ /\ _ =>
     exists [a;b;c0;d;e;f;g0], t, c5; eexists
  | |- exists seven tail c c7, _ ++ ?w ++ ?pad ++ ?t = _ /\ _ => exists (w ++ pad), t, c5, [(12%nat, w)]
  | |- exists seven tail c c7, _ ++ ?pad ++ ?t = _ /\ _ => exists pad, t, c5, []
  end;
  split; [cbn [app]; rewrite <- ?app_assoc; reflexivity|]; split; [assumption|]; split; [exact H5|];
  split; [ first [ eapply cap7_std; eassumption
        | eapply cap7_zero; eassumption
        | eapply cap7_survey; first [eassumption | reflexivity]
        | eapply cap7_ext; eassumption
        | constructor; [now rewrite <- trk_cls|auto with arith|now apply blanks_cls]
        | apply cap7_blank; now apply blanks_cls ] | reflexivity ].
Lemma minor_inv s g : re_match minorplanetPackedIDRegex s = Some g ->
  exists five seven tail c5 c7, s = five ++ seven ++ tail /\ eos tail /\ Cap5 five c5 /\ Cap7 seven c7 /\ g = c7 ++ c5.
Proof.
  intro H. unfold minorplanetPackedIDRegex in H.
  apply re_match_inv in H. cbn [inv invn Nat.eqb] in H.
  assert (exists five s1 c5, s = five ++ s1 /\ Cap5 five c5 /\
    inv (RSeq (RAlt (RSeq (RGrp 4 (RCls (Cl false [("I", "K")]%char))) (RSeq (RGrp 5 (RRep (Cl false [("0", "9")]%char) 2 (Some 2%nat)))
      (RSeq (RGrp 6 (RCls (Cl false [("A", "H"); ("J", "Y")]%char))) (RSeq (RGrp 7 (RCls (Cl false [("a", "z"); ("A", "Z"); ("0", "9")]%char)))
      (RSeq (RGrp 8 (RCls (Cl false [("0", "9")]%char))) (RAlt (RGrp 9 (RCls (Cl false [("A", "H"); ("J", "Z")]%char))) (RCls (Cl false [("0", "0")]%char))))))))
      (RAlt (RSeq (RGrp 10 (RAlt (RSeq (RCls (Cl false [("P", "P")]%char)) (RCls (Cl false [("L", "L")]%char)))
         (RAlt (RSeq (RCls (Cl false [("T", "T")]%char)) (RCls (Cl false [("1", "1")]%char)))
         (RAlt (RSeq (RCls (Cl false [("T", "T")]%char)) (RCls (Cl false [("2", "2")]%char)))
               (RSeq (RCls (Cl false [("T", "T")]%char)) (RCls (Cl false [("3", "3")]%char)))))))
           (RSeq (RCls (Cl false [("S", "S")]%char)) (RGrp 11 (RRep (Cl false [("0", "9")]%char) 4 (Some 4%nat)))))
      (RAlt (RSeq (RGrp 12 (RRep (Cl false [("-", "-"); ("A", "Z"); ("a", "z"); ("0", "9")]%char) 0 (Some 8%nat))) (RRep (Cl false [(" ", " ")]%char) 0 None))
      (RAlt (RSeq (RGrp 13 (RCls (Cl false [("_", "_")]%char))) (RSeq (RGrp 14 (RCls (Cl false [("P", "Z")]%char)))
         (RSeq (RGrp 15 (RCls (Cl false [("A", "H"); ("J", "Y")]%char))) (RGrp 16 (RRep (Cl false [("0", "9"); ("A", "Z"); ("a", "z")]%char) 4 (Some 4%nat))))))
         (RRep (Cl false [(" ", " ")]%char) 0 None))))) REos) s1 c5 (fun _ c => g = c)) as K.
  { destruct H as [H|[H|H]].
    - destruct H as (? & ? & -> & H1 & ? & ? & -> & H2 & ? & ? & -> & H3 & ? & ? & -> & H4 & ? & s1 & -> & H5 & H).
      apply incls_one in H1, H2, H3, H4, H5. subst.
      exists [" "; " "; " "; " "; " "]%char, s1, []. split; [reflexivity|]. split; [constructor|exact H].
    - destruct H as (? & ? & -> & H1 & ? & E1 & ? & ? & -> & H2 & ? & ? & -> & H3 & ? & ? & -> & H4 & ? & s1 & -> & H5 & ? & E2 & H).
      revert H; repeat inv_step; intro H. apply k_digit_dig in H2, H3, H4, H5. apply k_an_dig62 in H1 as [u H1].
      eexists [_; _; _; _; _], s1, _. split; [reflexivity|]. split; [|exact H]. econstructor; eassumption.
    - destruct H as (? & ? & -> & H1 & ? & ? & -> & H2 & ? & ? & -> & H3 & ? & ? & -> & H4 & ? & s1 & -> & H5 & ? & E2 & H).
      revert H; repeat inv_step; intro H. apply k_an_dig62 in H2 as [? H2], H3 as [? H3], H4 as [? H4], H5 as [? H5].
      eexists [_; _; _; _; _], s1, _. split; [reflexivity|]. split; [|exact H]. econstructor; eassumption. }
  clear H. destruct K as (five & s1 & c5 & -> & H5 & H). cbn [inv invn Nat.eqb] in H.
  repeat inv_step; cbn [app] in *; classify7; exists five; fin7 c5 H5.
Qed.

Lemma spaces_app_head n t s : spaces (S n) ++ t = s -> exists s', s = " "%char :: s'.
Proof. intros <-. eexists. reflexivity. Qed.

Lemma trk_not_blank c : trk_char c = true -> c <> " "%char.
Proof.
  intros H ->. revert H. vm_compute. discriminate.
Qed.
(** a word of tracklet characters followed by blanks determines the word *)
Lemma trk_pad_inj w : forall p w' p', forallb trk_char w = true -> forallb trk_char w' = true ->
  blanks p = true -> blanks p' = true -> w ++ p = w' ++ p' -> w = w'.
Proof.
  induction w as [|c w IH]; intros p [|c' w'] p' Hw Hw' Hp Hp' E; cbn in *.
  - reflexivity.
  - subst p. apply andb_prop in Hw' as [Hc _]. cbn in Hp. apply andb_prop in Hp as [Hp _]. apply ceqb_eq in Hp.
    now apply trk_not_blank in Hc.
  - subst p'. apply andb_prop in Hw as [Hc _]. cbn in Hp'. apply andb_prop in Hp' as [Hp' _]. apply ceqb_eq in Hp'.
    now apply trk_not_blank in Hc.
  - injection E as -> E. apply andb_prop in Hw as [_ Hw]. apply andb_prop in Hw' as [_ Hw']. f_equal. exact (IH p w' p' Hw Hw' Hp Hp' E).
Qed.

(** * C08 tracklets *)
Lemma trk_inv t g : re_match trksubRegex t = Some g ->
  exists w, (t = w \/ t = w ++ [nl]) /\ (length w <= 8)%nat /\ forallb trk_char w = true /\ g = [(1%nat, w)].
Proof.
  intro H. unfold trksubRegex in H. invert_match H. eexists. split; [|split; [|split; [|reflexivity]]].
  - match goal with H : eos _ |- _ => destruct H as [->| ->] end; [left; apply app_nil_r|now right].
  - auto with arith.
  - now rewrite <- trk_cls.
Qed.
Lemma trk_match t : forallb trk_char t = true -> (length t <= 8)%nat -> re_match trksubRegex t = Some [(1%nat, t)].
Proof.
  intros Ht Hl.
  destruct (re_match trksubRegex t) as [g|] eqn:E.
  - apply trk_inv in E as (w & [->| ->] & _ & _ & ->); [reflexivity|].
    exfalso. rewrite forallb_app in Ht. apply andb_prop in Ht as [_ Ht]. revert Ht. vm_compute. discriminate.
  - exfalso. revert E. apply re_match_iff. exists []. 
    assert (RepRel (incls k_trk) 0 (Some 8%nat) (t ++ []) []) as R.
    { apply reprel_intro; [|lia|exact Hl]. rewrite <- Ht. clear. induction t; [reflexivity|]. cbn. f_equal; [apply k_trk_eq|assumption]. }
    rewrite app_nil_r in R. eexists. unfold trksubRegex.
    eapply m_seq; [apply m_eps|]. eapply m_seq; [apply m_grp, m_rep, R|apply m_eos0].
Qed.
Lemma trk_nomatch t : ~ (exists w, (t = w \/ t = w ++ [nl]) /\ (length w <= 8)%nat /\ forallb trk_char w = true) ->
  re_match trksubRegex t = None.
Proof.
  intro H. destruct (re_match trksubRegex t) as [g|] eqn:E; [|reflexivity].
  apply trk_inv in E as (w & H1 & H2 & H3 & _). exfalso. apply H. eauto.
Qed.
Lemma pack_trkonly t : packTupleID (None, None, Some t) =
  match (match re_match trksubRegex t with
        | None => None
        | Some g => match grp g 1 with
                    | Some tmp => if Nat.ltb 7 (length tmp) then Some (from 1 tmp) else Some tmp
                    | None => None
                    end
        end) with
  | Some (c :: w) => Ok (padr 12 (spaces 5 ++ c :: w))
  | _ => Err RuntimeError
  end.
Proof.
  unfold packTupleID. cbn [pack_perm pack_prov rbind pk0]. unfold pack_trk. cbn [pk_s].
  set (x := match re_match trksubRegex t with None => None | Some _ => _ end). destruct x as [[|c w]|]; reflexivity.
Qed.
Lemma c08_pack t : forallb trk_char t = true -> (1 <= length t <= 7)%nat ->
  packTupleID (None, None, Some t) = Ok (spaces 5 ++ t ++ spaces (7 - length t)).
Proof.
  intros Ht Hl. rewrite pack_trkonly, trk_match by (auto; lia). cbn [grp Nat.eqb].
  destruct (Nat.ltb_spec 7 (length t)); [lia|]. destruct t as [|c w]; [cbn in Hl; lia|].
  unfold padr. rewrite <- app_assoc. reflexivity.
Qed.
Lemma c08_pack8 c t : forallb trk_char (c :: t) = true -> length t = 7%nat ->
  packTupleID (None, None, Some (c :: t)) = Ok (spaces 5 ++ t).
Proof.
  intros Ht Hl. rewrite pack_trkonly, trk_match by (cbn; auto; lia). cbn [grp Nat.eqb length]. rewrite Hl.
  cbn [Nat.ltb Nat.leb from skipn]. destruct t as [|d w]; [discriminate|].
  unfold padr. rewrite app_length, Hl. cbn [Nat.sub spaces repeat]. now rewrite app_nil_r.
Qed.
Lemma c08_reject t : (t = [] \/ t = [nl] \/ ~ (exists w, (t = w \/ t = w ++ [nl]) /\ (length w <= 8)%nat /\ forallb trk_char w = true)) ->
  packTupleID (None, None, Some t) = Err RuntimeError.
Proof.
  intros [->|[->|H]]; [reflexivity|reflexivity|]. rewrite pack_trkonly, trk_nomatch by assumption. reflexivity.
Qed.

(** the packed-designation patterns do not match a blank in column 5 *)
Lemma comet_no_blank5 x s : re_match cometPackedIDRegex (" " :: " " :: " " :: " " :: " " :: x :: s)%char = None.
Proof.
  destruct (re_match cometPackedIDRegex _) as [g|] eqn:H; [|reflexivity].
  apply re_match_inv in H. cbn [inv invn Nat.eqb cometPackedIDRegex] in H. exfalso.
  destruct H as [H|H].
  - destruct H as (? & ? & E1 & _ & ? & ? & E2 & _ & ? & ? & E3 & _ & ? & ? & E4 & _ & ? & ? & E5 & H5 & _).
    injection E1 as <- <-. injection E2 as <- <-. injection E3 as <- <-. injection E4 as <- <-. injection E5 as <- <-.
    revert H5. vm_compute. discriminate.
  - destruct H as (? & ? & E1 & H1 & _). injection E1 as <- <-. revert H1. vm_compute. discriminate.
Qed.
Lemma sat_no_blank5 x s : re_match satellitePackedIDRegex (" " :: " " :: " " :: " " :: " " :: x :: s)%char = None.
Proof.
  destruct (re_match satellitePackedIDRegex _) as [g|] eqn:H; [|reflexivity].
  apply re_match_inv in H. cbn [inv invn Nat.eqb satellitePackedIDRegex] in H. exfalso.
  destruct H as [H|H].
  - destruct H as (? & ? & E1 & _ & ? & ? & E2 & _ & ? & ? & E3 & _ & ? & ? & E4 & _ & ? & ? & E5 & H5 & _).
    injection E1 as <- <-. injection E2 as <- <-. injection E3 as <- <-. injection E4 as <- <-. injection E5 as <- <-.
    revert H5. vm_compute. discriminate.
  - destruct H as (? & ? & E1 & H1 & _). injection E1 as <- <-. revert H1. vm_compute. discriminate.
Qed.

Lemma trk_blank_chars t k x : forallb trk_char t = true -> In x (t ++ spaces k) -> trk_char x = true \/ x = " "%char.
Proof.
  intros Ht Hx. apply in_app_or in Hx as [Hx|Hx].
  - left. rewrite forallb_forall in Ht. auto.
  - right. unfold spaces in Hx. now apply repeat_spec in Hx.
Qed.
Lemma ik_eq : forall c, ceqb c "I" || ceqb c "J" || ceqb c "K" = incls k_ik c.
Proof. apply eq_ascii. vm_compute. reflexivity. Qed.
Lemma minor_trk t k : forallb trk_char t = true -> t <> [] -> (length t + k = 7)%nat -> looks_packed t = false ->
  re_match minorplanetPackedIDRegex (spaces 5 ++ t ++ spaces k) = Some [(12%nat, t)].
Proof.
  intros Ht Hne Hl HL.
  destruct (re_match minorplanetPackedIDRegex _) as [g|] eqn:E.
  - apply minor_inv in E as (five & seven & tail & c5 & c7 & Es & Htail & H5 & H7 & ->).
    assert (five = spaces 5 /\ c5 = [] /\ t ++ spaces k = seven ++ tail) as (-> & -> & Es').
    { destruct H5 as [|l d1 d2 d3 d4 u Hu|]; cbn [app spaces repeat] in Es.
      - split; [reflexivity|]. split; [reflexivity|]. now injection Es.
      - injection Es as <- _. discriminate Hu.
      - discriminate Es. }
    clear Es. rewrite app_nil_r.
    assert (tail = []) as ->.
    { destruct Htail as [->| ->]; [reflexivity|]. exfalso.
      assert (In nl (t ++ spaces k)) as Hin by (rewrite Es'; apply in_or_app; right; now left).
      apply (trk_blank_chars t k nl Ht) in Hin as [H|H]; revert H; vm_compute; discriminate. }
    rewrite app_nil_r in Es'. subst seven.
    assert (blanks (spaces k) = true) as Hbk by apply blanks_spaces.
    assert (forall c0 c1 c2 c3 c4 c5 c6, t ++ spaces k = [c0;c1;c2;c3;c4;c5;c6] -> c6 <> " "%char -> t = [c0;c1;c2;c3;c4;c5;c6]) as Full.
    { intros c0 c1 c2 c3 c4 c5 c6 E Hc. destruct k as [|k].
      - cbn in E. now rewrite app_nil_r in E.
      - exfalso. apply Hc. change (S k) with (1 + k)%nat in E.
        assert (spaces (1 + k) = spaces k ++ [" "%char]) as Esp by (apply repeat_cons).
        rewrite Esp, app_assoc in E. change [c0;c1;c2;c3;c4;c5;c6] with ([c0;c1;c2;c3;c4;c5] ++ [c6]) in E.
        now apply app_inj_tail in E as [_ <-]. }
    remember (t ++ spaces k) as sv eqn:Esv. destruct H7 as
      [c y1 y2 h cl cn o v Hc Hy1 Hy2 Hh Hcl Hcn Ho | c y1 y2 h cl cn v Hc Hy1 Hy2 Hh Hcl Hcn
      | s1 s2 d1 d2 d3 d4 Hs H1 H2 H3 H4 | w pad Hw Hlw Hp | yl h w x y z a b c d | pad Hp].
    + clear Esv. assert (Esv := Full _ _ _ _ _ _ _ eq_refl ltac:(intros ->; discriminate Ho)). exfalso.
      assert (isalnum cl = true) as Han by (rewrite <- k_an_eq; eapply digit62_an; eassumption).
      rewrite Esv in HL. cbn [looks_packed] in HL. rewrite Hy1, Hy2, Hh, Han, Hcn, Ho in HL.
      pose proof (ik_eq c) as Hik; rewrite Hc in Hik.
      rewrite Hik in HL. discriminate HL.
    + clear Esv. assert (Esv := Full _ _ _ _ _ _ _ eq_refl ltac:(discriminate)). exfalso.
      assert (isalnum cl = true) as Han by (rewrite <- k_an_eq; eapply digit62_an; eassumption).
      rewrite Esv in HL. cbn [looks_packed] in HL. rewrite Hy1, Hy2, Hh, Han, Hcn in HL.
      pose proof (ik_eq c) as Hik; rewrite Hc in Hik.
      rewrite Hik in HL. discriminate HL.
    + clear Esv. assert (Esv := Full _ _ _ _ _ _ _ eq_refl ltac:(intros ->; discriminate H4)). exfalso.
      rewrite Esv in HL. cbn [looks_packed] in HL. rewrite Hs, H1, H2, H3, H4 in HL. rewrite orb_true_r in HL. discriminate HL.
    + f_equal. f_equal. f_equal. exact (trk_pad_inj w pad t (spaces k) Hw Ht Hp Hbk Esv).
    + exfalso. destruct t as [|c0 t]; [now elim Hne|]. injection Esv as <- _. discriminate Ht.
    + exfalso. destruct t as [|c0 t]; [now elim Hne|]. subst pad. cbn in Hp, Ht.
      apply andb_prop in Hp as [Hp _]. apply andb_prop in Ht as [Ht _]. apply ceqb_eq in Hp. now apply trk_not_blank in Ht.
  - exfalso. revert E. apply re_match_iff. exists []. eexists. unfold minorplanetPackedIDRegex.
    assert (RepRel (incls (Cl false [(" ", " ")]%char)) 5 (Some 5%nat) (spaces 5 ++ t ++ spaces k) (t ++ spaces k)) as R1
      by (apply reprel_intro; [reflexivity|apply le_n|apply le_n]).
    assert (RepRel (incls k_trk) 0 (Some 8%nat) (t ++ spaces k) (spaces k)) as R2.
    { apply reprel_intro; [|lia|cbn; lia]. rewrite <- Ht. clear. induction t; [reflexivity|]. cbn. f_equal; [apply k_trk_eq|assumption]. }
    assert (RepRel (incls (Cl false [(" ", " ")]%char)) 0 None (spaces k ++ []) []) as R3
      by (apply reprel_intro; [apply cls_blanks, blanks_spaces|lia|trivial]).
    rewrite app_nil_r in R3.
    eapply m_seq; [apply m_eps|]. eapply m_seq; [apply m_altl, m_rep, R1|].
    eapply m_seq; [|apply m_eos0]. apply m_altr, m_altr, m_altl.
    eapply m_seq; [apply m_grp, m_rep, R2|apply m_rep, R3].
Qed.
Lemma nospace_strip_trk t : forallb trk_char t = true -> strip t = t.
Proof.
  intro H. apply strip_trimmed, nospace_trimmed. rewrite forallb_forall in *. intros x Hx. specialize (H x Hx).
  apply negb_true_iff. revert x H Hx. intros x H _. revert x H. apply implf_ascii. vm_compute. reflexivity.
Qed.
Lemma c08_unpack t : forallb trk_char t = true -> (1 <= length t <= 7)%nat -> looks_packed t = false ->
  unpackPackedID (spaces 5 ++ t ++ spaces (7 - length t)) = Ok (None, None, Some t).
Proof.
  intros Ht Hl HL. assert (t <> []) as Hne by (intros ->; cbn in Hl; lia).
  unfold unpackPackedID, unpack_minor. rewrite minor_trk by (auto; lia).
  destruct t as [|c w]; [now elim Hne|]. cbn [app].
  change (spaces 5) with [" "; " "; " "; " "; " "]%char. cbn [app].
  eval_grp. rewrite nospace_strip_trk by assumption.
  unfold unpack_comet. rewrite comet_no_blank5. eval_grp. unfold unpack_sat. rewrite sat_no_blank5. eval_grp. reflexivity.
Qed.
(** tracklets with the shape of a packed designation are never read back as tracklets *)
Lemma c08_ambiguous t : looks_packed t = true -> exists prov, unpackPackedID (spaces 5 ++ t) = Ok (None, Some prov, None).
Proof.
  destruct t as [|a [|b [|c [|d [|e [|f [|g [|]]]]]]]]; try discriminate. cbn [looks_packed]. intro H.
  apply orb_prop in H as [H|H].
  - repeat (apply andb_prop in H as [H ?]).
    assert (incls k_ik a = true) as Ha by (now rewrite <- ik_eq).
    assert (exists v, digit62 e = Some v) as [v Hv] by (apply an_digit62; now rewrite k_an_eq).
    destruct (ik_digit62 a Ha) as (u & Hu & _).
    match goal with H : _ || _ = true |- _ => apply orb_prop in H as [Hg|Hg] end.
    + eexists. rewrite <- k_or_eq in Hg.
      apply (unpack_prov (spaces 5) None a b c d e f g u v); auto; [constructor|now rewrite k_hm_eq].
    + apply ceqb_eq in Hg. subst g. eexists.
      apply (unpack_prov0 (spaces 5) None a b c d e f u v); auto; [constructor|now rewrite k_hm_eq].
  - repeat (apply andb_prop in H as [H ?]). 
    match goal with H : ceqb c "S" = true |- _ => apply ceqb_eq in H; subst c end.
    eexists. apply (unpack_survey (spaces 5) None a b d e f g); auto. constructor.
Qed.
