From Verif Require Import PyStrProofs.
From Verif Require Import Mpc80.
From Verif Require Export DocProofs3.
Local Open Scope nat_scope.

(** * Header records *)
Definition hitem (k v : str) : item := texts [($"headerKeyword", k); ($"headerValue", v); ($"code", $"0")].
Definition comment_lines (hs : list item) : list str := map value (filter (fun h => streqb (keyword h) $"COM") hs).
Lemma comments_eq hs : comments hs = comment_xml (comment_lines hs).
Proof.
  unfold comments, comment_lines. destruct (filter _ hs) as [|h l]; [reflexivity|]. cbn [map comment_xml]. now rewrite map_map.
Qed.
Lemma comma_split v : cfind "," v = None /\ until_comma v = v /\ after_comma v = None \/
  exists n, cfind "," v = Some n /\ until_comma v = firstn n v /\ after_comma v = Some (skipn (S n) v).
Proof.
  induction v as [|c v IH]; [left; auto|]. cbn [cfind until_comma after_comma]. 
  destruct (ceqb c ",") eqn:E; [right; exists 0; auto|].
  destruct IH as [(-> & -> & ->)|(n & -> & -> & ->)]; [left; auto|right; exists (S n); auto].
Qed.
Lemma heading_entry k v :
  heading (hitem k v) = map entry_xml (match header_entry k v with Some e => [e] | None => [] end).
Proof.
  unfold heading, keyword, value. change (text_of (hitem k v) $"headerKeyword") with k. change (text_of (hitem k v) $"headerValue") with v.
  unfold header_entry, called.
  destruct (streqb k $"COD"); [reflexivity|]. destruct (streqb k $"CON").
  { cbn [map]. unfold entry_xml. cbn [fst snd]. unfold split_comma1.
    destruct (comma_split v) as [(-> & -> & ->)|(n & -> & -> & ->)]; reflexivity. }
  destruct (streqb k $"OBS"); [unfold names, entry_xml; cbn [map fst snd]; now rewrite map_map|].
  destruct (streqb k $"MEA"); [unfold names, entry_xml; cbn [map fst snd]; now rewrite map_map|].
  destruct (streqb k $"TEL"); reflexivity.
Qed.
Lemma com_heading h : keyword h = $"COM" -> heading h = [].
Proof. intros E. unfold heading. rewrite E. reflexivity. Qed.
Lemma filter_com p l : flat_map heading (filter p (filter (fun g => negb (streqb (keyword g) $"COM")) l)) = flat_map heading (filter p l).
Proof.
  induction l as [|h l IH]; [reflexivity|]. cbn [filter]. destruct (streqb (keyword h) $"COM") eqn:E; cbn [negb].
  - destruct (p h); [|exact IH]. cbn [flat_map]. apply streqb_eq in E. now rewrite (com_heading _ E).
  - cbn [filter]. destruct (p h); [cbn [flat_map]; now rewrite IH|exact IH].
Qed.
Lemma filter_filter {A} (p q : A -> bool) l : filter p (filter q l) = filter (fun x => q x && p x) l.
Proof. induction l as [|x l IH]; [reflexivity|]. cbn [filter]. destruct (q x); cbn [andb filter]; [destruct (p x); now rewrite IH|exact IH]. Qed.
Lemma filter_ext' {A} (p q : A -> bool) l : (forall x, p x = q x) -> filter p l = filter q l.
Proof. intros H. induction l as [|x l IH]; [reflexivity|]. cbn [filter]. now rewrite H, IH. Qed.
Definition unseen (se : list str) (h : item) : bool := negb (smem (keyword h) se).
Lemma smem_app k a b : smem k (a ++ b) = smem k a || smem k b.
Proof. unfold smem. apply existsb_app. Qed.

Lemma andthen_ok a b s s' : a s = (s', None) -> andthen a b s = b s'.
Proof. intros E. unfold andthen. now rewrite E. Qed.
Lemma convert_hitem T k v s : convertit T (hitem k v) s = convert_header (hitem k v) s.
Proof. reflexivity. Qed.
Section Headers.
  Variable T : tables.
  (** inside a run of headers *)
  Lemma header_inside k v s z co cx se fe : is_at s z fe false true co cx se ->
    exists s' cx' se', convertit T (hitem k v) s = (s', None) /\
      is_at s' z true false true (co ++ comment_lines [hitem k v]) cx' se' /\
      map entry_xml cx' = map entry_xml cx ++ flat_map heading (filter (unseen se) [hitem k v]) /\
      (forall q, smem q se' = smem q se || (streqb q k && negb (streqb k $"COM"))).
  Proof.
    intros A. rewrite !convert_hitem.
    cbv beta iota delta [andthen pass convert_header upd]. rewrite (at_io _ _ _ _ _ _ _ _ A).
    change (iget $"headerKeyword" (hitem k v)) with (Ok k). change (iget $"headerValue" (hitem k v)) with (Ok v). cbv iota.
    unfold comment_lines. cbn [filter]. change (keyword (hitem k v)) with k.
    unfold unseen. change (keyword (hitem k v)) with k.
    destruct (streqb k $"COM") eqn:EC; cbn [map].
    - change (value (hitem k v)) with v. destruct A as [A1 A2 A3 A4 A5 A6 A7 A8].
      eexists _, cx, se. split; [reflexivity|]. split; [constructor; cbn; auto; now rewrite A6|]. split.
      + destruct (negb (smem k se)); cbn [flat_map]; rewrite ?com_heading by (now apply streqb_eq in EC); now rewrite ?app_nil_r.
      + intros q. cbn. now rewrite andb_false_r, orb_false_r.
    - cbn [c_seen set_firstElement set_inObsBlock]. rewrite (at_se _ _ _ _ _ _ _ _ A). rewrite app_nil_r.
      destruct (smem k se) eqn:ES; cbn [negb].
      + destruct A as [A1 A2 A3 A4 A5 A6 A7 A8]. eexists _, cx, se. split; [reflexivity|]. split; [constructor; cbn; auto|]. split.
        * cbn. now rewrite app_nil_r.
        * intros q. destruct (streqb q k) eqn:Q; [apply streqb_eq in Q; subst; now rewrite ES|]. cbn. now rewrite orb_false_r.
      + destruct A as [A1 A2 A3 A4 A5 A6 A7 A8]. eexists _, _, (se ++ [k]). split; [reflexivity|]. split; [constructor; cbn; auto|]. split.
        * cbn [c_context set_lists set_firstElement set_inObsBlock]. rewrite A7, map_app. f_equal. cbn [flat_map]. rewrite app_nil_r. symmetry. apply heading_entry.
        * intros q. rewrite smem_app. cbn. rewrite orb_false_r. now rewrite andb_true_r.
  Qed.
  Lemma headers_inside hs : forall s z co cx se fe rs, is_at s z fe false true co cx se ->
    Forall (fun h => exists k v, h = hitem k v) hs -> hs <> [] ->
    exists s' cx' se', feed (convertit T) (hs ++ rs) s = feed (convertit T) rs s' /\
      is_at s' z true false true (co ++ comment_lines hs) cx' se' /\
      map entry_xml cx' = map entry_xml cx ++ flat_map heading (filter (unseen se) (first_of_each hs)).
  Proof.
    induction hs as [|h hs IH]; intros s z co cx se fe rs A F N; [congruence|].
    destruct (Forall_inv F) as (k & v & ->).
    destruct (header_inside k v s z co cx se fe A) as (s1 & cx1 & se1 & E1 & A1 & M1 & S1).
    cbn [app feed]. rewrite E1.
    assert (map entry_xml cx1 ++ flat_map heading (filter (unseen se1) (first_of_each hs)) =
            map entry_xml cx ++ flat_map heading (filter (unseen se) (first_of_each (hitem k v :: hs)))) as CX.
    { rewrite M1. rewrite <- app_assoc. f_equal. cbn [first_of_each]. change (keyword (hitem k v)) with k.
      transitivity (flat_map heading (filter (unseen se) [hitem k v]) ++
                    flat_map heading (filter (unseen se) (filter (fun g => negb (streqb (keyword g) k)) (first_of_each hs)))).
      - f_equal. destruct (streqb k $"COM") eqn:EC.
        + apply streqb_eq in EC. subst k. rewrite filter_com. f_equal. apply filter_ext'. intros x. unfold unseen. rewrite S1.
          cbn [negb]. now rewrite andb_false_r, orb_false_r.
        + rewrite filter_filter. f_equal. apply filter_ext'. intros x. unfold unseen. rewrite S1. cbn [negb]. rewrite andb_true_r.
          destruct (smem (keyword x) se), (streqb (keyword x) k); reflexivity.
      - cbn [filter]. destruct (unseen se (hitem k v)); cbn [flat_map]; rewrite ?app_nil_r; reflexivity. }
    assert (comment_lines (hitem k v :: hs) = comment_lines [hitem k v] ++ comment_lines hs) as CL.
    { unfold comment_lines. rewrite <- map_app. f_equal. cbn [filter]. destruct (streqb _ _); reflexivity. }
    destruct hs as [|h' hs].
    - exists s1, cx1, se1. split; [reflexivity|]. split; [exact A1|]. cbn [first_of_each filter flat_map] in CX. rewrite app_nil_r in CX. exact CX.
    - destruct (IH s1 z _ cx1 se1 true rs A1 (Forall_inv_tail F)) as (s2 & cx2 & se2 & E2 & A2 & M2); [discriminate|].
      exists s2, cx2, se2. split; [exact E2|]. split; [rewrite CL, app_assoc; exact A2|]. rewrite M2. exact CX.
  Qed.

  (** the first header of a run: a new block *)
  Definition ctx_frame : frame := ($"obsContext", [], [], []).
  Definition blk_frame (kids : list xml) : frame := ($"obsBlock", [], [], kids).
  Definition dat_frame : frame := ($"obsData", [], [], []).
  Lemma first_header s z zb fo fe co cx se k v :
    is_at s z fe fo false co cx se ->
    (if fo then z = zb /\ zb <> []
     else z_ops [OPop; OPop; OAddPopPush $"obsBlock" [] []] z = Some (blk_frame [] :: zb)) ->
    exists s1, convertit T (hitem k v) s = convertit T (hitem k v) s1 /\
      is_at s1 (ctx_frame :: blk_frame [] :: zb) fe false true [] [] [].
  Proof.
    intros A Z.
    assert (exists s0, ((if c_firstObsBlock s
         then andthen (upd (set_firstObsBlock false)) (stk (OAddPush $"obsBlock" [] []))
         else stks [OPop; OPop; OAddPopPush $"obsBlock" [] []]) : cm) s = (s0, None) /\ is_at s0 (blk_frame [] :: zb) fe false false co cx se) as (s0 & E0 & A0).
    { rewrite (at_fo _ _ _ _ _ _ _ _ A). destruct fo.
      - destruct Z as [-> NZ]. unfold andthen, upd.
        apply (stk_ok (OAddPush $"obsBlock" [] []) _ zb (blk_frame [] :: zb)); [|reflexivity|reflexivity].
        destruct A; constructor; auto.
      - apply (stks_ok _ _ _ _ _ _ _ _ _ _ A Z). reflexivity. }
    destruct (stk_ok (OAddPush $"obsContext" [] []) _ _ (ctx_frame :: blk_frame [] :: zb) _ _ _ _ _ _ A0 eq_refl eq_refl) as (s1 & E1 & A1).
    exists (set_inObsBlock true (set_lists [] [] [] s1)). split.
    - rewrite !convert_hitem.
      unfold convert_header. unfold andthen at 1. rewrite (at_io _ _ _ _ _ _ _ _ A).
      rewrite (andthen_ok _ _ _ _ E0), (andthen_ok _ _ _ _ E1). reflexivity.
    - destruct A1; constructor; auto.
  Qed.
End Headers.
