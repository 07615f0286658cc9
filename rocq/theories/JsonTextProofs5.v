(** Lemmas of C53, part 5: the conversions from text to text. *)
From Verif Require Import PyStrProofs XmlProofs TablesProofs JsonProofs1 JsonProofs2 JsonProofs3.
From Verif Require Import Json JsonSpec JsonText JsonTextSpec JsonTextProofs1 JsonTextProofs2 JsonTextProofs3 JsonTextProofs4.
Local Open Scope nat_scope.

Lemma plain_pack vs : Forall plain_value vs -> plain_value (pack vs).
Proof. intro F. destruct vs as [|v [|w vs]]; [constructor; constructor|now apply Forall_inv in F|now constructor]. Qed.
Lemma attributes_keys a : map fst (attributes a) = map (fun k => "@"%char :: k) (map fst a).
Proof. unfold attributes. rewrite !map_map. reflexivity. Qed.
Lemma nodup_cons_map (c : ascii) l : NoDup l -> NoDup (map (fun k => c :: k) l).
Proof. induction 1 as [|x l N _ IH]; [constructor|]. cbn [map]. constructor; [|exact IH]. intro I. apply in_map_iff in I as (y & E & I). apply N. assert (y = x) as -> by congruence. exact I. Qed.
Lemma nodup_app {A} (a b : list A) : NoDup a -> NoDup b -> (forall x, In x a -> ~ In x b) -> NoDup (a ++ b).
Proof.
  induction 1 as [|x a N _ IH]; intros B D; [exact B|]. cbn [app]. constructor.
  - intro I. apply in_app_or in I as [I|I]; [now apply N|]. apply (D x); [now left|exact I].
  - apply IH; [exact B|]. intros y I. apply D. now right.
Qed.
Lemma G_keys l : map fst (G l) = firsts (map fst l).
Proof. unfold G. rewrite map_map. cbn [fst]. apply map_id. Qed.
Lemma child_not_marked n : name_like n -> (forall k, n <> "@"%char :: k) /\ n <> $"#text".
Proof. intros (c & t & -> & A & B). split; [intros k E; apply A; congruence|]. intro E. apply B. change $"#text" with ("#"%char :: $"text") in E. congruence. Qed.
Lemma fine_name m : fine m -> name_like (xtag m). Proof. intros [t a s ks N _ _ _ _]. exact N. Qed.
Lemma plain_vx m : fine m -> plain_value (vx m).
Proof.
  induction m as [t a s ks IH] using xml_ind'; intros F. inversion F as [? ? ? ? N D S C K]; subst. rewrite (vx_fine _ _ _ _ K).
  assert (Forall plain_value (map vx ks)) as Pk.
  { apply Forall_map, Forall_forall. intros m I. rewrite Forall_forall in IH, K. apply IH; [exact I|now apply K]. }
  set (o := attributes a ++ G (map (fun k => (xtag k, vx k)) ks)).
  assert (NoDup (map fst o) /\ ~ In $"#text" (map fst o)) as [No Nt].
  { unfold o. rewrite map_app, G_keys, attributes_keys. rewrite (map_map (fun k => (xtag k, vx k)) fst). cbn [fst].
    assert (forall x, In x (firsts (map (fun k => xtag k) ks)) -> name_like x) as Nl.
    { intros x I. apply (proj1 (firsts_in _ _)) in I. apply in_map_iff in I as (k & <- & I). rewrite Forall_forall in K. now apply fine_name, K. }
    split.
    - apply nodup_app; [now apply nodup_cons_map|apply firsts_nodup|]. intros x I J. apply Nl, child_not_marked in J as [J _]. apply in_map_iff in I as (y & <- & _). now apply (J y).
    - intro I. apply in_app_or in I as [I|I]; [apply in_map_iff in I as (y & E & _); discriminate E|]. apply Nl, child_not_marked in I as [_ I]. now apply I. }
  assert (Forall (fun kv => plain_value (snd kv)) o) as Po.
  { apply Forall_forall. intros [k v] I. cbn [snd]. unfold o in I. apply in_app_or in I as [I|I].
    - apply in_map_iff in I as ([x y] & E & _). cbn [fst snd] in E; assert (JStr y = v) as <- by congruence. constructor.
    - unfold G in I. apply in_map_iff in I as (n & E & _). cbv beta in E; assert (pack (vals n (map (fun k => (xtag k, vx k)) ks)) = v) as <- by congruence. apply plain_pack.
      unfold vals. apply Forall_map, Forall_forall. intros [x y] J. apply filter_In in J as [J _]. cbn [snd]. apply in_map_iff in J as (m & E' & J). cbv beta in E'; assert (vx m = y) as <- by congruence.
      rewrite Forall_forall in Pk. apply Pk. now apply in_map. }
  clearbody o. unfold finish. destruct o as [|kv o]; destruct (strip s) as [|c r]; [constructor|constructor|now constructor|].
  assert (push (kv :: o) $"#text" (JStr (c :: r)) = (kv :: o) ++ [($"#text", JStr (c :: r))]) as ->.
  { unfold push. assert (dget $"#text" (kv :: o) = None) as ->; [|reflexivity]. clear -Nt. revert Nt. generalize (kv :: o) as l. induction l as [|[k v] l IH]; intro Nt; [reflexivity|]. cbn [dget map fst] in *. destruct (streqb $"#text" k) eqn:E.
    - apply streqb_eq in E. elim Nt. now left.
    - apply IH. intro I. apply Nt. now right. }
  constructor.
  - rewrite map_app. apply nodup_app; [exact No|constructor; [intros []|constructor]|]. intros x I [<-|[]]. now apply Nt.
  - apply Forall_app. split; [exact Po|]. constructor; [constructor|constructor].
Qed.
Lemma plain_document x : is_element x -> well_formed x -> plain_value (xmltojson x).
Proof.
  intros E W. pose proof (fine_meaning x E W) as F. pose proof (value_meaning x E) as V. destruct E as (t & a & ks & ->). cbn [xmltojson]. rewrite V.
  constructor; [constructor; [intros []|constructor]|]. constructor; [now apply plain_vx|constructor].
Qed.
Lemma dumps_text number v : plain_value v -> json_text number v (dumps v).
Proof. intro P. exists [], (dumps v), []. split; [exact white_nil|]. split; [now apply dump_text|]. split; [exact white_nil|]. now rewrite app_nil_r. Qed.
Lemma read_back number v s : json_text number v s -> loads number (read_text s) = Ok v.
Proof. intro T. now apply loads_exact, broken_text. Qed.
Lemma text_of_document number x : is_element x -> well_formed x -> json_text number (xmltojson x) (xml_to_json_text x).
Proof. intros E W. now apply dumps_text, plain_document. Qed.
Lemma from_text number repr x s : is_element x -> well_formed x -> json_text number (xmltojson x) s ->
  exists y, json_text_to_xml number repr s = Ok (Some y) /\ is_element y /\ meaning y = grouped (meaning x).
Proof.
  intros E W T. destruct (round repr x E W) as (y & R & H). exists y. split; [|exact H]. unfold json_text_to_xml. rewrite (read_back number _ s T). exact R.
Qed.
(** one value per text *)
Lemma one_value number v w s : json_text number v s -> json_text number w s -> v = w.
Proof. intros A B. apply loads_exact in A, B. congruence. Qed.
(** nothing but JSON is taken *)
Lemma not_json number repr s : (forall v, ~ json_text number v (read_text s)) -> exists e, json_text_to_xml number repr s = Err e.
Proof.
  intro N. unfold json_text_to_xml. destruct (loads number (read_text s)) as [v|e] eqn:E; [|now exists e]. apply loads_exact in E. now elim (N v).
Qed.

(** * Values that are no elements *)
Lemma unified_ends s t : unified s t -> line_ends s = t.
Proof.
  induction 1 as [|s t _ IH|s t N U IH|c s t N _ IH].
  - reflexivity.
  - change (line_ends (char_of 13 :: char_of 10 :: s)) with (nl :: line_ends s). now rewrite IH.
  - destruct s as [|d s]; [inversion U; subst; reflexivity|]. assert (ceqb d nl = false) as E by (destruct (ceqb d nl) eqn:E; [apply Ascii.eqb_eq in E; subst d; now elim N|reflexivity]).
    change (line_ends (char_of 13 :: d :: s)) with (nl :: (if ceqb d nl then line_ends s else line_ends (d :: s))). rewrite E, IH. reflexivity.
  - cbn [line_ends]. destruct (code c =? 13)%N eqn:E; [|now rewrite IH]. apply N.eqb_eq in E. elim N. rewrite <- (char_number c). unfold number_of. unfold code in E. now rewrite E.
Qed.
Lemma text_element repr n s t : unified s t -> exists y, jsontoxml repr (JObj [(n, JStr s)]) = Ok (Some y) /\ is_element y /\ meaning y = Elem n [] (strip t) [].
Proof.
  intro U. apply unified_ends in U. destruct s as [|c s].
  - cbn [line_ends] in U. subst t. eexists. split; [reflexivity|]. split; [repeat eexists|reflexivity].
  - eexists. split; [cbn; reflexivity|]. split; [repeat eexists|]. cbn [meaning flat_map chars map concat]. rewrite app_nil_r. change (line_ends (c :: s)) with (line_ends (c :: s)) in U. 
    rewrite <- U. reflexivity.
Qed.
Lemma number_text repr n s : ~ In s [$"0"; $"0.0"; $"-0.0"] -> jsontoxml repr (JObj [(n, JObj [($"#text", JNum s)])]) = Err TypeError.
Proof.
  intro N. assert (smem s [$"0"; $"0.0"; $"-0.0"] = false) as E. { destruct (smem s _) eqn:E; [|reflexivity]. apply smem_In in E. now elim N. }
  cbn [jsontoxml]. rewrite emit_obj. change (dget $"#text" [($"#text", JNum s)]) with (Some (JNum s)). cbv iota. cbn [characters]. rewrite E. reflexivity.
Qed.
Lemma escape_plain c : (32 <= number_of c)%N -> number_of c <> 34%N -> number_of c <> 92%N -> escape c = [c].
Proof.
  intros L Q B. unfold escape. rewrite (not_quote c Q), (not_bslash c B).
  assert (ceqb c nl = false) as ->. { destruct (ceqb c nl) eqn:E; [|reflexivity]. apply Ascii.eqb_eq in E. subst c. now elim L. }
  unfold code. unfold number_of in L. destruct (_ =? 13)%N eqn:E1; [apply N.eqb_eq in E1; lia|]. destruct (_ =? 9)%N eqn:E2; [apply N.eqb_eq in E2; lia|].
  destruct (_ =? 12)%N eqn:E3; [apply N.eqb_eq in E3; lia|]. destruct (_ =? 8)%N eqn:E4; [apply N.eqb_eq in E4; lia|]. destruct (_ <? 32)%N eqn:E5; [apply N.ltb_lt in E5; lia|]. reflexivity.
Qed.
Lemma dump_plain s : (forall c, In c s -> (32 <= number_of c)%N /\ number_of c <> 34%N /\ number_of c <> 92%N) -> dumps (JStr s) = dquote ++ s ++ dquote.
Proof.
  intro H. change (dumps (JStr s)) with (dquote ++ flat_map escape s ++ dquote). do 2 f_equal. induction s as [|c s IH]; [reflexivity|]. cbn [flat_map].
  destruct (H c (or_introl eq_refl)) as (L & Q & B). rewrite (escape_plain c L Q B). cbn [app]. f_equal. apply IH. intros d I. apply H. now right.
Qed.
