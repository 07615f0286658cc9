From Verif Require Import PipeSpec PyStrProofs TablesProofs DocProofs2.
From Verif Require Import Pipe PipeSpec.
Local Open Scope nat_scope.

Lemma streqb_refl' s : streqb s s = true. Proof. now apply streqb_eq. Qed.
Lemma streqb_false a b : a <> b -> streqb a b = false.
Proof. intros H. destruct (streqb a b) eqn:E; [apply streqb_eq in E; congruence|reflexivity]. Qed.

Lemma remove_gone n f : dget n (remove n f) = None.
Proof. induction f as [|[m b] f IH]; [reflexivity|]. cbn [remove]. destruct (streqb n m) eqn:E; [exact IH|]. cbn [dget]. now rewrite E. Qed.
Lemma remove_other n m f : n <> m -> dget n (remove m f) = dget n f.
Proof.
  intros H. induction f as [|[k b] f IH]; [reflexivity|]. cbn [remove dget]. destruct (streqb m k) eqn:E.
  - apply streqb_eq in E. subst k. rewrite streqb_false by exact H. exact IH.
  - cbn [dget]. now rewrite IH.
Qed.
Lemma remove_id n f : dget n f = None -> remove n f = f.
Proof. induction f as [|[m b] f IH]; [reflexivity|]. cbn [remove dget]. destruct (streqb n m); [discriminate|]. intros H. now rewrite IH. Qed.
Lemma remove_set n v f : remove n (dset n v f) = remove n f.
Proof.
  induction f as [|[m b] f IH]; cbn [dset remove]; [now rewrite streqb_refl'|].
  destruct (streqb n m) eqn:E; cbn [remove]; [now rewrite streqb_refl'|]. now rewrite E, IH.
Qed.
Lemma remove_set_other n m v f : n <> m -> remove n (dset m v f) = dset m v (remove n f).
Proof.
  intros H. induction f as [|[k b] f IH]; cbn [dset remove]; [now rewrite streqb_false by exact H|].
  destruct (streqb m k) eqn:E.
  - apply streqb_eq in E. subst k. cbn [remove]. rewrite (streqb_false n m) by exact H. cbn [dset]. now rewrite streqb_refl'.
  - cbn [remove]. destruct (streqb n k); [exact IH|]. cbn [dset]. now rewrite E, IH.
Qed.

Lemma newlines_id s : ~ In 13%N s -> newlines s = s.
Proof.
  induction s as [|c s IH]; [reflexivity|]. intros H. cbn [newlines]. destruct (c =? 13)%N eqn:E.
  - apply N.eqb_eq in E. exfalso. apply H. now left.
  - rewrite IH; [reflexivity|]. intros I. apply H. now right.
Qed.
Lemma newlines_no_cr s : ~ In 13%N (newlines s).
Proof.
  assert (K : forall n s, length s <= n -> ~ In 13%N (newlines s)).
  { induction n as [|n IH]; intros [|c t] L; cbn [length] in L; try lia; [intros []..|].
    cbn [newlines]. destruct (c =? 13)%N eqn:E.
    - destruct t as [|d t]; [intros [H|[]]; discriminate H|]. cbn [length] in L.
      destruct (d =? 10)%N; (intros [H|H]; [discriminate H|]); revert H; apply IH; cbn [length]; lia.
    - intros [H|H]; [subst; discriminate E|]. revert H. apply IH. lia. }
  now apply (K (length s)).
Qed.
Lemma newlines_idem s : newlines (newlines s) = newlines s.
Proof. apply newlines_id, newlines_no_cr. Qed.

(** * Temporary files *)
Lemma close_gone {A} n (rw : res A * world) : dget n (fs (snd (close_temp n rw))) = None.
Proof. destruct rw as [r w]. unfold close_temp. destruct (dget n (fs w)) eqn:E; cbn; [apply remove_gone|exact E]. Qed.
Lemma close_keeps {A} m n (rw : res A * world) : dget m (fs (snd rw)) = None -> dget m (fs (snd (close_temp n rw))) = None.
Proof.
  destruct rw as [r w]. cbn [snd]. intros H. unfold close_temp. destruct (dget n (fs w)) eqn:E; cbn [snd with_files fs]; [|exact H].
  destruct (streqb m n) eqn:F; [apply streqb_eq in F; subst; apply remove_gone|].
  rewrite remove_other; [exact H|]. intros ->. rewrite streqb_refl' in F. discriminate.
Qed.
Lemma temp_removed cin cout call input output tmp_i tmp_o w :
  dget tmp_i (fs (snd (call_with_files cin cout call input output tmp_i tmp_o w))) = None /\
  dget tmp_o (fs (snd (call_with_files cin cout call input output tmp_i tmp_o w))) = None.
Proof. unfold call_with_files. split; [apply close_gone|apply close_keeps, close_gone]. Qed.

(** * Results *)
Lemma input_taken cin input b t tmp_i tmp_o w : lossless cin -> fresh tmp_i tmp_o w -> input_is input b w ->
  match input with Std => True | Name i => i <> tmp_i /\ i <> tmp_o | _ => False end ->
  read_text cin b = Ok t ->
  exists i f b', take_input cin input tmp_i (with_files (dset tmp_o [] (dset tmp_i [] (fs w))) w) =
      Ok (Some i, {| fs := f; stdin := match input with Std => [] | _ => stdin w end; stdout := stdout w |}) /\
    dget i f = Some b' /\ read_text cin b' = Ok t /\
    (match input with Std => i = tmp_i | Name n => i = n | _ => False end) /\
    exists v, f = dset tmp_o [] (dset tmp_i v (fs w)).
Proof.
  intros L (F1 & F2 & F3) I P R. unfold take_input. destruct input as [|i| |]; try contradiction.
  - cbn [input_is] in I. cbn [with_files stdin fs stdout]. rewrite I, R. cbn [rbind].
    unfold read_text in R. destruct (decode cin b) as [s|] eqn:D; [|discriminate R]. cbn [rbind] in R.
    assert (newlines s = t) by congruence. subst t. destruct (L b s D) as (b' & E & D'). rewrite E. cbn [rbind].
    exists tmp_i. eexists. exists b'. split; [reflexivity|]. split; [now rewrite get_set, streqb_refl'|].
    split; [unfold read_text; rewrite D'; cbn [rbind]; now rewrite newlines_idem|]. split; [reflexivity|]. exists b'.
    clear -F1 F2 F3. induction (fs w) as [|[m c] f IH]; cbn [dset].
    + rewrite !(streqb_false tmp_o tmp_i) by congruence. cbn [dset]. now rewrite streqb_refl'.
    + cbn [dget] in F1, F2. destruct (streqb tmp_i m) eqn:E1; [discriminate F1|]. destruct (streqb tmp_o m) eqn:E2; [discriminate F2|].
      repeat (progress (cbn [dset]; rewrite ?E1, ?E2)). f_equal. now apply IH.
  - cbn [input_is] in I. cbn [verify rbind]. exists i. eexists. exists b. split; [reflexivity|].
    split; [rewrite !get_set, !streqb_false by tauto; exact I|]. split; [exact R|]. split; [reflexivity|]. now exists [].
Qed.

Lemma restored {A} (r : res A) tmp_i tmp_o v v' f0 a b : dget tmp_i f0 = None -> dget tmp_o f0 = None -> tmp_i <> tmp_o ->
  forall part o, o <> tmp_i -> o <> tmp_o ->
  close_temp tmp_i (close_temp tmp_o (r, {| fs := part_of o part (dset tmp_o v (dset tmp_i v' f0)); stdin := a; stdout := b |})) =
  (r, {| fs := part_of o part f0; stdin := a; stdout := b |}).
Proof.
  intros F1 F2 F3 part o O1 O2. unfold close_temp. cbn [fs stdin stdout with_files].
  assert (G : exists x, dget tmp_o (part_of o part (dset tmp_o v (dset tmp_i v' f0))) = Some x).
  { destruct part; cbn [part_of]; rewrite !get_set, ?(streqb_false tmp_o o), ?streqb_refl' by congruence; eexists; reflexivity. }
  destruct G as (x & ->). unfold with_files. cbn [fs stdin stdout].
  assert (K : remove tmp_o (part_of o part (dset tmp_o v (dset tmp_i v' f0))) = part_of o part (dset tmp_i v' f0)).
  { destruct part; cbn [part_of]; rewrite ?remove_set_other, remove_set, remove_set_other by congruence; now rewrite remove_id by exact F2. }
  rewrite K.
  assert (G : exists x, dget tmp_i (part_of o part (dset tmp_i v' f0)) = Some x).
  { destruct part; cbn [part_of]; rewrite !get_set, ?(streqb_false tmp_i o), ?streqb_refl' by congruence; eexists; reflexivity. }
  destruct G as (y & ->). do 2 f_equal.
  destruct part; cbn [part_of]; rewrite ?remove_set_other, remove_set by congruence; now rewrite remove_id by exact F1.
Qed.

Lemma restored' {A} (r : res A) tmp_i tmp_o v v' f0 a b : dget tmp_i f0 = None -> dget tmp_o f0 = None -> tmp_i <> tmp_o ->
  close_temp tmp_i (close_temp tmp_o (r, {| fs := dset tmp_o v (dset tmp_i v' f0); stdin := a; stdout := b |})) =
  (r, {| fs := f0; stdin := a; stdout := b |}).
Proof.
  intros F1 F2 F3. set (o := ("x"%char :: tmp_i ++ tmp_o)).
  refine (restored r tmp_i tmp_o v v' f0 a b F1 F2 F3 None o _ _); unfold o; intros H; apply (f_equal (@length _)) in H; cbn [length] in H; rewrite app_length in H; lia.
Qed.

Lemma set_set {A} k (v v' : A) d : dset k v (dset k v' d) = dset k v d.
Proof.
  induction d as [|[m w] d IH]; cbn [dset]; [now rewrite streqb_refl'|].
  destruct (streqb k m) eqn:E; cbn [dset]; [now rewrite streqb_refl'|]. now rewrite E, IH.
Qed.

Lemma succeeds cin cout call conv input output b t out tmp_i tmp_o w :
  lossless cin -> converts cin call conv -> fresh tmp_i tmp_o w -> proper input output tmp_i tmp_o ->
  input_is input b w -> read_text cin b = Ok t -> conv t = Ok out ->
  (output = Std -> plain_text cout out) ->
  call_with_files cin cout call input output tmp_i tmp_o w = (Ok tt, delivered input output out w).
Proof.
  intros L C F (P1 & P2 & P3) I R V PT. unfold call_with_files.
  destruct (input_taken cin input b t tmp_i tmp_o w L F I P1 R) as (i & f & b' & E & D & R' & Ni & v & Ef). rewrite E.
  destruct F as (F1 & F2 & F3).
  destruct output as [|o| |]; try contradiction.
  - cbn [take_output fs]. assert (N : i <> tmp_o) by (destruct input; try contradiction; subst i; tauto).
    pose proof (C i tmp_o f b' N D) as K. rewrite R' in K. cbn [rbind] in K. rewrite V in K. rewrite K. cbn [with_files give_output fs stdin stdout].
    rewrite get_set, streqb_refl'. destruct (PT eq_refl) as (s & D1 & N1 & E1). unfold read_text. rewrite D1. cbn [rbind].
    rewrite newlines_id by exact N1. rewrite E1. cbn [fs stdin stdout]. subst f. rewrite set_set.
    rewrite restored' by assumption. reflexivity.
  - cbn [take_output verify fs]. assert (N : i <> o) by (destruct input; try contradiction; subst i; [intros ->; tauto|tauto]).
    pose proof (C i o f b' N D) as K. rewrite R' in K. cbn [rbind] in K. rewrite V in K. rewrite K. cbn [with_files give_output fs stdin stdout].
    subst f. refine (restored (Ok tt) tmp_i tmp_o [] v (fs w) _ _ F1 F2 F3 (Some out) o _ _); tauto.
Qed.

Lemma fails_alike cin cout call conv input output b e tmp_i tmp_o w :
  lossless cin -> converts cin call conv -> fresh tmp_i tmp_o w -> proper input output tmp_i tmp_o ->
  input_is input b w -> (do t <- read_text cin b; conv t) = Err e ->
  exists part, call_with_files cin cout call input output tmp_i tmp_o w =
    (Err e, {| fs := match output with Name o => part_of o part (fs w) | _ => fs w end;
               stdin := match input, read_text cin b with Std, Ok _ => [] | _, _ => stdin w end; stdout := stdout w |}).
Proof.
  intros L C F (P1 & P2 & P3) I R. unfold call_with_files.
  destruct (read_text cin b) as [t|e'] eqn:RT; cbn [rbind] in R.
  - destruct (input_taken cin input b t tmp_i tmp_o w L F I P1 RT) as (i & f & b' & E & D & R' & Ni & v & Ef). rewrite E.
    destruct F as (F1 & F2 & F3).
    destruct output as [|o| |]; try contradiction.
    + cbn [take_output fs]. assert (N : i <> tmp_o) by (destruct input; try contradiction; subst i; tauto).
      pose proof (C i tmp_o f b' N D) as K. rewrite R' in K. cbn [rbind] in K. rewrite R in K. destruct K as (part & K). rewrite K.
      exists part. cbn [with_files fs stdin stdout].
      assert (exists v2, part_of tmp_o part f = dset tmp_o v2 (dset tmp_i v (fs w))) as (v2 & ->).
      { subst f. destruct part; cbn [part_of]; [rewrite set_set|]; eexists; reflexivity. }
      unfold with_files. cbn [stdin stdout]. rewrite restored' by assumption. now destruct input.
    + cbn [take_output verify fs]. assert (N : i <> o) by (destruct input; try contradiction; subst i; [intros ->; tauto|tauto]).
      pose proof (C i o f b' N D) as K. rewrite R' in K. cbn [rbind] in K. rewrite R in K. destruct K as (part & K). rewrite K.
      exists part. unfold with_files. cbn [fs stdin stdout]. subst f. rewrite restored by tauto. now destruct input.
  - assert (e' = e) by congruence. subst e'. destruct F as (F1 & F2 & F3). destruct input as [|i| |]; try contradiction.
    + cbn [take_input with_files stdin fs stdout]. cbn [input_is] in I. rewrite I, RT. cbn [rbind].
      exists None. unfold with_files. rewrite restored' by assumption. rewrite I. now destruct output.
    + cbn [take_input verify rbind]. cbn [input_is] in I.
      assert (D : dget i (dset tmp_o [] (dset tmp_i [] (fs w))) = Some b) by (rewrite !get_set, !streqb_false by tauto; exact I).
      destruct output as [|o| |]; try contradiction.
      * cbn [take_output fs with_files]. assert (N : i <> tmp_o) by tauto.
        pose proof (C i tmp_o _ b N D) as K. rewrite RT in K. cbn [rbind] in K. destruct K as (part & K).
        rewrite K. exists part.
        assert (exists v2, part_of tmp_o part (dset tmp_o [] (dset tmp_i [] (fs w))) = dset tmp_o v2 (dset tmp_i [] (fs w))) as (v2 & ->).
        { destruct part; cbn [part_of]; [rewrite set_set|]; eexists; reflexivity. }
        unfold with_files. cbn [stdin stdout]. rewrite restored' by assumption. reflexivity.
      * cbn [take_output verify fs with_files]. assert (N : i <> o) by tauto.
        pose proof (C i o _ b N D) as K. rewrite RT in K. cbn [rbind] in K. destruct K as (part & K).
        rewrite K. exists part. unfold with_files. cbn [fs stdin stdout]. rewrite restored by tauto. reflexivity.
Qed.

(** * utf-8 *)
Ltac divs :=
  repeat match goal with
  | |- context [(?a / ?b)%N] => let q := fresh "q" in
      pose proof (N.div_mod' a b); pose proof (N.mod_lt a b ltac:(discriminate)); set (q := (a / b)%N) in *; clearbody q
  | |- context [(?a mod ?b)%N] => let r := fresh "r" in
      pose proof (N.div_mod' a b); pose proof (N.mod_lt a b ltac:(discriminate)); set (r := (a mod b)%N) in *; clearbody r
  end.
Lemma b2 c : (128 <= c < 2048)%N -> exists x y, (c = x * 64 + y /\ y < 64 /\ 2 <= x < 32 /\ c / 64 = x /\ c mod 64 = y)%N.
Proof.
  intros H. exists (c / 64)%N, (c mod 64)%N. pose proof (N.div_mod' c 64). pose proof (N.mod_lt c 64 ltac:(discriminate)). lia.
Qed.
Lemma split64 c : (exists x y, c = x * 64 + y /\ y < 64 /\ c / 64 = x /\ c mod 64 = y)%N.
Proof. exists (c / 64)%N, (c mod 64)%N. pose proof (N.div_mod' c 64). pose proof (N.mod_lt c 64 ltac:(discriminate)). lia. Qed.
Lemma div4096 c : (c / 4096 = c / 64 / 64)%N. Proof. now rewrite N.div_div. Qed.
Lemma div262144 c : (c / 262144 = c / 64 / 64 / 64)%N. Proof. now rewrite !N.div_div. Qed.

Lemma next_char c a r : utf8_char c = Ok a -> utf8_next (a ++ r) = Ok (c, r).
Proof.
  unfold utf8_char. destruct (c <? 128)%N eqn:E1.
  { intros H. assert (a = [c]) by congruence. subst. cbn [app utf8_next]. now rewrite E1. }
  apply N.ltb_ge in E1. destruct (c <? 2048)%N eqn:E2.
  { apply N.ltb_lt in E2. destruct (split64 c) as (x & y & Ec & Y & Dx & Dy). rewrite Dx, Dy.
    intros H. assert (a = [192 + x; 128 + y]%N) by congruence. subst a. cbn [app utf8_next].
    assert ((192 + x <? 128)%N = false) as -> by lia.
    assert ((194 <=? 192 + x)%N && (192 + x <? 224)%N = true) as -> by lia.
    assert (cont (128 + y) = true) as -> by (unfold cont; lia). do 2 f_equal. lia. }
  apply N.ltb_ge in E2. destruct (c <? 65536)%N eqn:E3.
  { apply N.ltb_lt in E3. destruct ((55296 <=? c) && (c <? 57344))%N eqn:SU; [discriminate|].
    rewrite div4096. destruct (split64 c) as (x & z & Ec & Z & Dx & Dz). rewrite Dx, Dz.
    destruct (split64 x) as (u & y & Ex & Y & Du & Dy). rewrite Du, Dy.
    intros H. assert (a = [224 + u; 128 + y; 128 + z]%N) by congruence. subst a. cbn [app utf8_next].
    assert ((224 + u <? 128)%N = false) as -> by lia.
    assert ((194 <=? 224 + u)%N && (224 + u <? 224)%N = false) as -> by lia.
    assert ((224 <=? 224 + u)%N && (224 + u <? 240)%N = true) as -> by lia.
    assert (cont (128 + y) = true) as -> by (unfold cont; lia). assert (cont (128 + z) = true) as -> by (unfold cont; lia).
    assert (((224 + u - 224) * 4096 + (128 + y - 128) * 64 + (128 + z - 128) = c)%N) as -> by lia.
    rewrite SU. assert ((2048 <=? c)%N = true) as -> by lia. reflexivity. }
  apply N.ltb_ge in E3. destruct (c <? 1114112)%N eqn:E4; [|discriminate]. apply N.ltb_lt in E4.
  rewrite div262144, div4096. destruct (split64 c) as (x & t & Ec & T & Dx & Dt). rewrite Dx, Dt.
  destruct (split64 x) as (u & z & Ex & Z & Du & Dz). rewrite Du, Dz.
  destruct (split64 u) as (v & y & Eu & Y & Dv & Dy). rewrite Dv, Dy.
  intros H. assert (a = [240 + v; 128 + y; 128 + z; 128 + t]%N) by congruence. subst a. cbn [app utf8_next].
  assert ((240 + v <? 128)%N = false) as -> by lia.
  assert ((194 <=? 240 + v)%N && (240 + v <? 224)%N = false) as -> by lia.
  assert ((224 <=? 240 + v)%N && (240 + v <? 240)%N = false) as -> by lia.
  assert ((240 <=? 240 + v)%N && (240 + v <? 245)%N = true) as -> by lia.
  assert (cont (128 + y) = true) as -> by (unfold cont; lia). assert (cont (128 + z) = true) as -> by (unfold cont; lia).
  assert (cont (128 + t) = true) as -> by (unfold cont; lia).
  assert (((240 + v - 240) * 262144 + (128 + y - 128) * 4096 + (128 + z - 128) * 64 + (128 + t - 128) = c)%N) as -> by lia.
  assert ((65536 <=? c)%N = true) as -> by lia. assert ((c <? 1114112)%N = true) as -> by lia. reflexivity.
Qed.
Lemma next_encodable b c r : utf8_next b = Ok (c, r) -> exists a, utf8_char c = Ok a.
Proof.
  assert (K : forall c, (c <? 1114112)%N && negb ((55296 <=? c) && (c <? 57344))%N = true -> exists a, utf8_char c = Ok a).
  { intros d H. apply andb_true_iff in H as [H1 H2]. unfold utf8_char. rewrite H1. apply negb_true_iff in H2. rewrite H2.
    destruct (d <? 128)%N, (d <? 2048)%N, (d <? 65536)%N; eexists; reflexivity. }
  unfold utf8_next. destruct b as [|x b]; [discriminate|].
  destruct (x <? 128)%N eqn:E1; [intros H; apply K; assert (x = c) by congruence; lia|].
  destruct ((194 <=? x) && (x <? 224))%N eqn:E2.
  { destruct b as [|y b]; [discriminate|]. destruct (cont y) eqn:Cy; [|discriminate]. unfold cont in Cy. intros H. apply K.
    assert ((x - 192) * 64 + (y - 128) = c)%N by congruence. lia. }
  destruct ((224 <=? x) && (x <? 240))%N eqn:E3.
  { destruct b as [|y [|z b]]; [discriminate..|]. cbv zeta. destruct (cont y && cont z && _ && _) eqn:Cy; [|discriminate]. unfold cont in Cy. intros H. apply K.
    assert ((x - 224) * 4096 + (y - 128) * 64 + (z - 128) = c)%N by congruence. subst c. lia. }
  destruct ((240 <=? x) && (x <? 245))%N eqn:E4; [|discriminate].
  destruct b as [|y [|z [|t b]]]; [discriminate..|]. cbv zeta. destruct (cont y && cont z && _ && _ && _) eqn:Cy; [|discriminate]. unfold cont in Cy. intros H. apply K.
  assert ((x - 240) * 262144 + (y - 128) * 4096 + (z - 128) * 64 + (t - 128) = c)%N by congruence. subst c. lia.
Qed.
Lemma char_length c a : utf8_char c = Ok a -> exists x a', a = x :: a'.
Proof.
  unfold utf8_char. repeat match goal with |- context [if ?b then _ else _] => destruct b end; try discriminate;
    intros H; match type of H with Ok ?l = Ok _ => assert (a = l) by congruence end; subst a; eexists; eexists; reflexivity.
Qed.
Lemma decode_encode s b n : utf8_encode s = Ok b -> length b <= n -> utf8_decode_fuel n b = Ok s.
Proof.
  revert b n. induction s as [|c s IH]; intros b n; cbn [utf8_encode].
  - intros H _. assert (b = []) by congruence. subst. now destruct n.
  - destruct (utf8_char c) as [a|] eqn:E; [|discriminate]. cbn [rbind]. destruct (utf8_encode s) as [b'|] eqn:E'; [|discriminate]. cbn [rbind].
    intros H L. assert (b = a ++ b') by congruence. subst b. destruct (char_length c a E) as (x & a' & Ea).
    pose proof (next_char c a b' E) as NC. rewrite Ea in *. cbn [app length] in *. destruct n as [|n]; [lia|]. cbn [utf8_decode_fuel].
    rewrite NC. cbn [rbind fst snd]. rewrite (IH b' n eq_refl); [reflexivity|]. rewrite app_length in L. lia.
Qed.
Lemma decode_encodable n b s : utf8_decode_fuel n b = Ok s -> Forall (fun c => exists a, utf8_char c = Ok a) s.
Proof.
  revert b s. induction n as [|n IH]; intros b s; cbn [utf8_decode_fuel].
  - destruct b; [|discriminate]. intros H. assert (s = []) by congruence. subst. constructor.
  - destruct b as [|x b]; [intros H; assert (s = []) by congruence; subst; constructor|].
    destruct (utf8_next (x :: b)) as [[c r]|] eqn:E; [|discriminate]. cbn [rbind fst snd].
    destruct (utf8_decode_fuel n r) as [s'|] eqn:E'; [|discriminate]. cbn [rbind]. intros H.
    assert (s = c :: s') by congruence. subst. constructor; [now apply next_encodable in E|now apply (IH r)].
Qed.
Lemma encode_all s : Forall (fun c => exists a, utf8_char c = Ok a) s -> exists b, utf8_encode s = Ok b.
Proof.
  induction 1 as [|c s (a & E) _ (b & IH)]; cbn [utf8_encode]; [eexists; reflexivity|]. rewrite E, IH. eexists; reflexivity.
Qed.
Lemma newlines_forall (P : N -> Prop) s : P 10%N -> Forall P s -> Forall P (newlines s).
Proof.
  intros P10. assert (K : forall n s, length s <= n -> Forall P s -> Forall P (newlines s)).
  { induction n as [|n IH]; intros [|c t] L F; cbn [length] in L; try lia; [constructor..|].
    apply Forall_cons_iff in F as [F1 F2]. cbn [newlines]. destruct (c =? 13)%N.
    - constructor; [exact P10|]. destruct t as [|d t]; [constructor|]. cbn [length] in L. apply Forall_cons_iff in F2 as [F2 F3].
      destruct (d =? 10)%N; apply IH; cbn [length]; try lia; [exact F3|now constructor].
    - constructor; [exact F1|]. apply IH; [lia|exact F2]. }
  apply (K (length s)). lia.
Qed.
Lemma utf8_lossless : lossless utf8.
Proof.
  intros b t D. cbn [utf8 decode] in D. apply decode_encodable in D. apply (newlines_forall _ t) in D; [|eexists; reflexivity].
  destruct (encode_all _ D) as (b' & E). exists b'. split; [exact E|]. cbn [utf8 decode]. now apply decode_encode.
Qed.
Lemma latin1_lossless : lossless latin1.
Proof.
  intros b t D. cbn [latin1 decode encode] in *. destruct (forallb _ b) eqn:E; [|discriminate]. assert (b = t) by congruence. subst t.
  exists (newlines b). assert (forallb (fun c => (c <? 256)%N) (newlines b) = true) as ->; [|now split].
  apply forallb_forall. apply Forall_forall. apply newlines_forall; [reflexivity|]. apply Forall_forall. now apply forallb_forall.
Qed.
(** what utf-8 writes for a text is plain if the text is *)
Lemma utf8_plain t b : utf8_encode t = Ok b -> ~ In 13%N t -> plain_text utf8 b.
Proof. intros E N. exists t. cbn [utf8 decode encode]. split; [now apply decode_encode|]. now split. Qed.
