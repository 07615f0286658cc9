(** Headers and blocks of 80-column files. *)
From Verif Require Import SchemaSpec PyStrProofs SchemaProofs3 RecordProofs1 RecordProofs2 RecordProofs3 RecordProofs4 RecordProofs5 RecordProofs6 RecordProofs7 AdesMasterTables.
From Verif Require Import Mpc80 Mpc80Spec Schema XsdSpec SchemaSpec XsdFiles DocSpec ValidSpec.
Local Open Scope nat_scope.

Lemma first_incl hs : incl (first_of_each hs) hs.
Proof. induction hs as [|h hs IH]; [intros x []|]. cbn [first_of_each]. intros x [<-|I]; [now left|]. apply filter_In in I as [I _]. right. now apply IH. Qed.
Lemma first_nodup hs : NoDup (map keyword (first_of_each hs)).
Proof.
  induction hs as [|h hs IH]; [constructor|]. cbn [first_of_each map]. constructor.
  - intro I. apply in_map_iff in I as (g & E & I). apply filter_In in I as [_ I]. rewrite E in I. rewrite (proj2 (streqb_eq _ _) eq_refl) in I. discriminate I.
  - generalize dependent (first_of_each hs). intros l D. induction l as [|g l IHl]; [constructor|]. cbn [map] in D. inversion D as [|a b D1 D2]; subst. cbn [filter].
    destruct (negb _); [|now apply IHl]. cbn [map]. constructor; [|now apply IHl]. intro I. apply D1. apply in_map_iff in I as (x & E & I). apply filter_In in I as [I _]. apply in_map_iff. now exists x.
Qed.
Lemma first_has hs h : In h hs -> exists g, In g (first_of_each hs) /\ keyword g = keyword h.
Proof.
  induction hs as [|x hs IH]; [intros []|]. cbn [first_of_each]. intros [<-|I]; [exists x; split; [now left|reflexivity]|].
  destruct (IH I) as (g & J & E). destruct (streqb (keyword g) (keyword x)) eqn:Q.
  - apply streqb_eq in Q. exists x. split; [now left|congruence].
  - exists g. split; [|exact E]. right. apply filter_In. split; [exact J|]. now rewrite Q.
Qed.
Definition nonempty (s : str) : bool := match s with [] => false | _ => true end.
Lemma heading_tags l : map xtag (flat_map heading l) = filter nonempty (map (fun h => tag_of (keyword h)) l).
Proof.
  induction l as [|h l IH]; [reflexivity|]. cbn [flat_map map filter]. rewrite map_app, IH. pose proof (heading_one h) as H. destruct (heading h) as [|e [|]]; [|destruct H as [H N]|destruct H].
  - now rewrite H.
  - cbn [map app]. rewrite <- H. destruct (xtag e); [now destruct N|reflexivity].
Qed.
Lemma tag_of_cases w : tag_of w = [] \/ (exists k, In k [("COD", "observatory"); ("CON", "submitter"); ("OBS", "observers"); ("MEA", "measurers"); ("TEL", "telescope")]%string /\ w = $(fst k) /\ tag_of w = $(snd k)).
Proof.
  unfold tag_of. destruct (called w "COD") eqn:E1; [right; apply called_eq in E1; exists ("COD", "observatory")%string; split; [left; reflexivity|now split]|].
  destruct (called w "CON") eqn:E2; [right; apply called_eq in E2; exists ("CON", "submitter")%string; split; [right; left; reflexivity|now split]|].
  destruct (called w "OBS") eqn:E3; [right; apply called_eq in E3; exists ("OBS", "observers")%string; split; [right; right; left; reflexivity|now split]|].
  destruct (called w "MEA") eqn:E4; [right; apply called_eq in E4; exists ("MEA", "measurers")%string; split; [right; right; right; left; reflexivity|now split]|].
  destruct (called w "TEL") eqn:E5; [right; apply called_eq in E5; exists ("TEL", "telescope")%string; split; [right; right; right; right; left; reflexivity|now split]|].
  now left.
Qed.
Lemma tag_of_inj v w : tag_of v = tag_of w -> tag_of v <> [] -> v = w.
Proof.
  intros E N. destruct (tag_of_cases v) as [H|(k & I & -> & T)]; [contradiction|]. destruct (tag_of_cases w) as [H|(k' & I' & -> & T')]; [congruence|].
  assert ($(snd k) = $(snd k')) as Q by congruence. clear E N T T'.
  repeat (destruct I as [<-|I]; [repeat (destruct I' as [<-|I']; [first [reflexivity|vm_compute in Q; discriminate Q]|]); destruct I'|]). destruct I.
Qed.
Lemma heading_nodup hs : NoDup (map xtag (flat_map heading (first_of_each hs))).
Proof.
  rewrite heading_tags. pose proof (first_nodup hs) as D. revert D. generalize (first_of_each hs). intros l D. induction l as [|h l IH]; [constructor|].
  cbn [map] in D. inversion D as [|a b D1 D2]; subst. cbn [map filter]. destruct (tag_of (keyword h)) as [|c t] eqn:E; [now apply IH|]. cbn [nonempty]. constructor; [|now apply IH].
  intro I. apply filter_In in I as [I _]. apply in_map_iff in I as (g & Q & I). apply D1. apply in_map_iff. exists g. split; [|exact I]. symmetry. apply tag_of_inj; congruence.
Qed.
Lemma comments_some hs : comments hs = [] /\ (forall h, In h hs -> keyword h <> $"COM") \/
  exists cs, cs <> [] /\ comments hs = [Elem $"comment" [] [] (map (leaf $"line") (map value cs))] /\ cs = filter (fun h => streqb (keyword h) $"COM") hs.
Proof.
  unfold comments. destruct (filter _ hs) as [|c cs] eqn:E.
  - left. split; [reflexivity|]. intros h I Q. assert (In h (filter (fun h => streqb (keyword h) $"COM") hs)) as J by (apply filter_In; split; [exact I|now apply streqb_eq]). now rewrite E in J.
  - right. exists (c :: cs). split; [discriminate|]. split; [|reflexivity]. rewrite map_map. reflexivity.
Qed.
Lemma context_tags_in hs k : In k (map xtag (flat_map heading (first_of_each hs))) -> k <> [] /\ k <> $"comment" /\ In k (map lit context_parts).
Proof.
  rewrite heading_tags. intro I. apply filter_In in I as [I N]. apply in_map_iff in I as (h & E & _). destruct (tag_of_cases (keyword h)) as [H|(x & J & _ & T)]; [rewrite <- E, H in N; discriminate N|].
  rewrite <- E, T. clear - J. do 5 (destruct J as [<-|J]; [split; [discriminate|]; split; [intro Q; vm_compute in Q; discriminate Q|]; vm_compute; tauto|]). destruct J.
Qed.
Section Ctx.
Variable F : derivation -> str -> Prop.
Variable S : xml.
Hypothesis B : In S both.
Lemma context_fine hs : valid F S (context hs) <-> headers_fine F S hs.
Proof.
  rewrite (context_valid F S (context hs) B eq_refl). unfold context. cbn [xkids].
  assert (forall w t, In (w, t) [("COD", "observatory"); ("CON", "submitter"); ("MEA", "measurers"); ("TEL", "telescope")]%string ->
    (In $t (map xtag (flat_map heading (first_of_each hs) ++ comments hs)) <-> exists h, In h hs /\ keyword h = $w)) as Need.
  { intros w t I. assert (tag_of $w = $t /\ $t <> $"comment" /\ $t <> []) as (T & NC & NE).
    { do 4 (destruct I as [E|I]; [injection E as <- <-; split; [reflexivity|]; split; intro Q; vm_compute in Q; discriminate Q|]). destruct I. }
    rewrite map_app, heading_tags. split.
    - intro J. apply in_app_or in J as [J|J].
      + apply filter_In in J as [J _]. apply in_map_iff in J as (h & E & J). exists h. split; [now apply first_incl|]. apply tag_of_inj; congruence.
      + destruct (comments_some hs) as [[E _]|(cs & _ & E & _)]; rewrite E in J; [destruct J|]. destruct J as [J|[]]. cbn [xtag] in J. congruence.
    - intros (h & J & E). destruct (first_has hs h J) as (g & J' & E'). apply in_or_app. left. apply filter_In. split.
      + apply in_map_iff. exists g. split; [|exact J']. rewrite E', E. exact T.
      + destruct $t; [now destruct NE|reflexivity]. }
  assert (incl (map lit context_needed) (map xtag (flat_map heading (first_of_each hs) ++ comments hs)) <-> forall w, In w ["COD"; "CON"; "MEA"; "TEL"]%string -> exists h, In h hs /\ keyword h = $w) as ->.
  { split.
    - intros H w I. destruct I as [<-|[<-|[<-|[<-|[]]]]].
      + apply (Need "COD"%string "observatory"%string); [left; reflexivity|]. apply H. left. reflexivity.
      + apply (Need "CON"%string "submitter"%string); [right; left; reflexivity|]. apply H. right. left. reflexivity.
      + apply (Need "MEA"%string "measurers"%string); [right; right; left; reflexivity|]. apply H. right. right. left. reflexivity.
      + apply (Need "TEL"%string "telescope"%string); [right; right; right; left; reflexivity|]. apply H. right. right. right. left. reflexivity.
    - intros H x I. destruct I as [<-|[<-|[<-|[<-|[]]]]].
      + apply (Need "COD"%string "observatory"%string); [left; reflexivity|]. apply H. left. reflexivity.
      + apply (Need "CON"%string "submitter"%string); [right; left; reflexivity|]. apply H. right. left. reflexivity.
      + apply (Need "MEA"%string "measurers"%string); [right; right; left; reflexivity|]. apply H. right. right. left. reflexivity.
      + apply (Need "TEL"%string "telescope"%string); [right; right; right; left; reflexivity|]. apply H. right. right. right. left. reflexivity. }
  clear Need. unfold headers_fine. split.
  - intros (_ & _ & A & R). split; [exact R|]. split.
    + intros h I. destruct (heading h) as [|e r] eqn:E.
      * pose proof (heading_one h) as O. rewrite E in O. unfold tag_of in O. unfold heading_fine. destruct (called _ "COD"); [discriminate O|]. destruct (called _ "CON"); [discriminate O|].
        destruct (called _ "OBS"); [discriminate O|]. destruct (called _ "MEA"); [discriminate O|]. destruct (called _ "TEL"); [discriminate O|]. exact Logic.I.
      * apply (heading_fine_iff F S B h e); [rewrite E; now left|]. apply A. apply in_or_app. left. apply in_flat_map. exists h. split; [exact I|rewrite E; now left].
    + intros h I E. destruct (comments_some hs) as [[_ N]|(cs & N & C & Q)]; [now destruct (N h I)|]. apply (proj1 (comment_fine F S B (map value cs) ltac:(now destruct cs))).
      * apply A. apply in_or_app. right. rewrite C. now left.
      * apply in_map. rewrite Q. apply filter_In. split; [exact I|now apply streqb_eq].
  - intros (R & A & C). split; [apply bare_elem|]. split; [|split; [|exact R]].
    + rewrite map_app. destruct (comments_some hs) as [[E _]|(cs & _ & E & _)]; rewrite E.
      * rewrite app_nil_r. apply heading_nodup.
      * cbn [map xtag]. apply NoDup_Add with (a := $"comment") (l := map xtag (flat_map heading (first_of_each hs))); [rewrite <- (app_nil_r (map _ _)) at 1; apply Add_app|].
        split; [apply heading_nodup|]. intro J. now apply context_tags_in in J.
    + intros k I. apply in_app_or in I as [I|I].
      * split; [exact (proj2 (proj2 (context_tags_in hs _ (in_map xtag _ _ I))))|]. apply in_flat_map in I as (h & J & I). apply (heading_fine_iff F S B h k I). now apply A.
      * destruct (comments_some hs) as [[E _]|(cs & N & E & Q)]; rewrite E in I; [destruct I|]. destruct I as [<-|[]]. split; [vm_compute; tauto|].
        apply (proj2 (comment_fine F S B (map value cs) ltac:(now destruct cs))). intros v J. apply in_map_iff in J as (h & <- & J). rewrite Q in J. apply filter_In in J as [J K]. apply streqb_eq in K. now apply C.
Qed.
End Ctx.
