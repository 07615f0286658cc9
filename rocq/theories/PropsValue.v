(** C43: which 80-column files become documents whose values the general schema takes. *)
From Verif Require Import PyStrProofs PackSpec AdesMasterTables FileLines Back80Spec.
From Verif Require Import XsdPattern XsdFiles DocSpec ValidSpec.
From Verif Require Import ValueSpec ObsSpec RecordProofs1 ValueProofs2 ValueProofs4 ValueProofs17 ValueProofs18.
From Verif Require Import PropsMpc80 PropsDoc PropsRecord PropsBack PropsSchema Back80Spec DocSpec Mpc80 Mpc80Spec.
Local Open Scope nat_scope.

(** A file without headers that is converted gives a document that is valid for the
    general schema exactly when the columns of every observation for which an element
    is written hold values as [takes] ... say. *)
Theorem C43_file F nosplit chs doc : reads_values F ->
  Forall observation chs -> readable (concat chs) ->
  mpc80coltoxml ades_tables nosplit (file (concat chs)) = Written doc ->
  (valid F general_xsd doc <-> forall ch, In ch (flat_map (divided nosplit) chs) -> omitted ch = false -> taken ch).
Proof. exact (file_values F nosplit chs doc). Qed.
(** The same with headers: every block has the headers COD, CON, MEA, TEL with proper
    contents, and observations that are all taken, all radar or none. *)
Theorem C43_blocks F nosplit bs doc : reads_values F ->
  bs <> [] -> Forall good_block bs -> readable (flat_map headed bs) ->
  Forall (fun b => exists ch, In ch (flat_map (divided nosplit) (snd b)) /\ omitted ch = false) (removelast bs) ->
  mpc80coltoxml ades_tables nosplit (file (flat_map headed bs)) = Written doc ->
  (valid F general_xsd doc <-> forall b, In b bs -> heads_taken (fst b) /\ data_taken (flat_map (divided nosplit) (snd b))).
Proof. exact (blocks_values F nosplit bs doc). Qed.

(** * There are readings of the schema as assumed *)
Definition reading (d : derivation) (s : str) : Prop :=
  let (b, steps) := d in
  if streqb b $"xsd:decimal" then exists q, decimal_value (trim s) q /\ Forall (number_allows (trim s) q) steps
  else if streqb b $"xsd:integer" then ~ In "."%char (trim s) /\ exists q, decimal_value (trim s) q /\ Forall (number_allows (trim s) q) steps
  else Forall (step_allows s) steps.
Example C43_reading : reads_values reading.
Proof. split; [|split; [|split]]; repeat intro; reflexivity. Qed.

(** * Examples *)
Definition ex_R7 : str := $"00433         R2017 01 01.500000   123456      +     123456     8560251 JPLRS251".
Definition ex_r7 : str := $"00433         r2017 01 01.500000S         12             345        251 JPLRS251".
Ltac dec := eexists; split; vm_compute; reflexivity.
Ltac member := first [left; vm_compute; reflexivity|right; member].
(** a numeral: its sign, its digits before and behind the point *)
Lemma numeral sg a b : In sg [[]; $"+"; $"-"] -> forallb isdig (a ++ b) = true -> a ++ b <> [] ->
  decimal_value (sg ++ a ++ $"." ++ b) ((if streqb sg $"-" then -1 else 1) * (inject_Z (decval (a ++ b)) / inject_Z (10 ^ Z.of_nat (length b)))).
Proof. intros I D N. exists sg, a, b. split; [now right|]. split; [exact I|]. split; [exact D|]. split; [exact N|]. apply Qeq_refl. Qed.
Lemma plain_numeral sg c a b : In sg [[]; $"+"; $"-"] -> forallb isdig (c :: a ++ b) = true -> (c = "0"%char -> a = []) ->
  plain_number (sg ++ (c :: a) ++ $"." ++ b) ((if streqb sg $"-" then -1 else 1) * (inject_Z (decval (c :: a ++ b)) / inject_Z (10 ^ Z.of_nat (length b)))).
Proof.
  intros I D Z. split; [apply (numeral sg (c :: a) b I D); discriminate|]. exists sg, c, (a ++ $"." ++ b). split; [reflexivity|]. split; [exact I|].
  cbn [app forallb] in D. apply andb_prop in D as [D _]. split; [exact D|]. intros E x t H. rewrite (Z E) in H. cbn [app] in H. injection H as <- <-. reflexivity.
Qed.
Lemma whole_number c a : forallb isdig (c :: a) = true -> (c = "0"%char -> a = []) -> plain_number (c :: a) (inject_Z (decval (c :: a))).
Proof.
  intros D Z. split.
  - exists [], (c :: a), []. rewrite (app_nil_r (c :: a)). split; [now left|]. split; [now left|]. split; [exact D|]. split; [discriminate|].
    change (inject_Z (10 ^ Z.of_nat (length (@nil ascii)))) with 1%Q. change (if streqb [] $"-" then (-1)%Q else 1%Q) with 1%Q. field.
  - exists [], c, a. split; [reflexivity|]. split; [now left|]. cbn [forallb] in D. apply andb_prop in D as [D _]. split; [exact D|]. intros E x t H. rewrite (Z E) in H. discriminate H.
Qed.
Ltac number sg c a b := eexists; match goal with |- plain_number ?s ?q => let s' := eval vm_compute in s in change s with s' end; apply (plain_numeral sg c a b); [member|vm_compute; reflexivity|discriminate].
Ltac bounds := split; reflexivity || discriminate.
Lemma takes_dec l : refused_designation (cols 1 12 l) = false -> forallb alnum_ (cols 78 80 l) = true ->
  cols 33 44 l = $"01 02 03.45 " -> cols 45 56 l = $"+01 02 03.4 " ->
  blank (cols 66 70 l) = true \/ cols 66 71 l = $"18.5 V" -> cmem "|" (cols 73 77 l) = false -> streqb (cols 72 72 l) $"6" = false ->
  cols 66 70 l = firstn 5 (cols 66 71 l) -> cols 71 71 l = skipn 5 (cols 66 71 l) -> takes l.
Proof.
  intros A B C D E G H K K'. split.
  - exact A.
  - exact B.
  - rewrite C. exists $"01 02 03.45". do 3 eexists. split; [exact (sx_sec 2 1 2 345 (le_S _ _ (le_n 1)) ltac:(bounds) ltac:(bounds) ltac:(bounds))|]. split; [vm_compute; reflexivity|vm_compute; reflexivity].
  - rewrite D. exists false, $"01 02 03.4". do 3 eexists. split; [exact (sx_sec 1 1 2 34 (le_n 1) ltac:(bounds) ltac:(bounds) ltac:(bounds))|]. split; [vm_compute; reflexivity|vm_compute; discriminate].
  - destruct E as [E|E]; [now left|]. right. rewrite K, K', E. split; [|right; vm_compute; reflexivity].
    eexists. split; [exact (plain_numeral [] "1" $"8" $"5" (or_introl eq_refl) eq_refl ltac:(discriminate))|]. split; vm_compute; discriminate.
  - intro I. apply cmem_in in I. rewrite I in G. discriminate G.
  - intro I. rewrite I in H. discriminate H.
Qed.
Ltac takes1 := apply takes_dec; first [vm_compute; reflexivity|left; vm_compute; reflexivity|right; vm_compute; reflexivity].
Lemma ex_takes : takes ex_opt /\ takes ex_S /\ takes ex_V6.
Proof. split; [takes1|]. split; takes1. Qed.
Lemma ex_satellite : takes_satellite ex_s.
Proof.
  split; [|split].
  - exists "+"%char, $" 1234.5678". eexists. split; [vm_compute; reflexivity|]. exact (plain_numeral $"+" "1" $"234" $"5678" (or_intror (or_introl eq_refl)) eq_refl ltac:(discriminate)).
  - exists "-"%char, $" 2345.6789". eexists. split; [vm_compute; reflexivity|]. exact (plain_numeral $"-" "2" $"345" $"6789" (or_intror (or_intror (or_introl eq_refl))) eq_refl ltac:(discriminate)).
  - exists "+"%char, $" 3456.7890". eexists. split; [vm_compute; reflexivity|]. exact (plain_numeral $"+" "3" $"456" $"7890" (or_intror (or_introl eq_refl)) eq_refl ltac:(discriminate)).
Qed.
Lemma ex_rover : takes_rover ex_v6.
Proof.
  intros w [<-|[<-|[<-|[]]]]; eexists.
  - exact (plain_numeral [] "1" $"23" $"123456" (or_introl eq_refl) eq_refl ltac:(discriminate)).
  - exact (plain_numeral $"+" "1" $"2" $"123456" (or_intror (or_introl eq_refl)) eq_refl ltac:(discriminate)).
  - exact (whole_number "1" $"23" eq_refl ltac:(discriminate)).
Qed.
Lemma ex_delay : takes_radar (keep_delay ex_R7) (keep_delay ex_r7).
Proof.
  split; [vm_compute; reflexivity| |vm_compute; reflexivity|vm_compute; reflexivity| | |].
  - eexists. eexists. eexists. split; [vm_compute; reflexivity|]. left. discriminate.
  - eexists. split; [exact (numeral [] $"856" $"0" (or_introl eq_refl) eq_refl ltac:(discriminate))|]. reflexivity.
  - vm_compute. intuition discriminate.
  - left. split; [vm_compute; reflexivity|]. split; [vm_compute; reflexivity|]. split.
    + eexists. split; [exact (plain_numeral [] "1" $"2" $"3456" (or_introl eq_refl) eq_refl ltac:(discriminate))|]. split; [reflexivity|]. split; [reflexivity|]. split; [vm_compute; reflexivity|]. apply Nat.leb_le. vm_compute. reflexivity.
    + eexists. split; [exact (plain_numeral [] "1" [] $"2" (or_introl eq_refl) eq_refl ltac:(discriminate))|]. split; [reflexivity|]. split; [reflexivity|]. split; [vm_compute; reflexivity|]. apply Nat.leb_le. vm_compute. reflexivity.
Qed.
Lemma ex_doppler : takes_radar (keep_doppler ex_R7) (keep_doppler ex_r7).
Proof.
  split; [vm_compute; reflexivity| |vm_compute; reflexivity|vm_compute; reflexivity| | |].
  - eexists. eexists. eexists. split; [vm_compute; reflexivity|]. left. discriminate.
  - eexists. split; [exact (numeral [] $"856" $"0" (or_introl eq_refl) eq_refl ltac:(discriminate))|]. reflexivity.
  - vm_compute. intuition discriminate.
  - right. split; [vm_compute; reflexivity|]. split; [vm_compute; reflexivity|]. split.
    + exists $"+12345.6". eexists. split; [vm_compute; reflexivity|]. split; [exact (plain_numeral $"+" "1" $"2345" $"6" (or_intror (or_introl eq_refl)) eq_refl ltac:(discriminate))|]. apply Nat.leb_le. vm_compute. reflexivity.
    + eexists. split; [exact (plain_numeral [] "3" [] $"45" (or_introl eq_refl) eq_refl ltac:(discriminate))|]. split; [reflexivity|]. split; [reflexivity|]. split; [vm_compute; reflexivity|]. apply Nat.leb_le. vm_compute. reflexivity.
Qed.
Definition ex_obs : list (list str) := [[ex_opt]; [ex_S; ex_s]; [ex_V6; ex_v6]; [ex_R7; ex_r7]; [ex_x]].
Ltac obs1 c := apply (obs_line _ c); [dec|vm_compute; reflexivity|apply cmem_in; vm_compute; reflexivity].
Ltac obs2 c c' := apply (obs_pair _ _ c c'); [dec|dec|vm_compute; reflexivity|vm_compute; reflexivity|member|vm_compute; reflexivity|vm_compute; reflexivity|vm_compute; reflexivity|
  first [discriminate|intros _; vm_compute; reflexivity]].
Lemma ex_observations : Forall observation ex_obs.
Proof.
  constructor; [obs1 "C"%char|]. constructor; [obs2 "S"%char "s"%char|]. constructor; [obs2 "V"%char "v"%char|]. constructor; [obs2 "R"%char "r"%char|]. constructor; [obs1 "x"%char|]. constructor.
Qed.
Lemma ex_readable : readable (concat ex_obs).
Proof. apply readable_dec. vm_compute. reflexivity. Qed.
Lemma ex_written : mpc80coltoxml ades_tables false (file (concat ex_obs)) = Written (document (concat ex_obs)).
Proof. vm_compute. reflexivity. Qed.
Lemma ex_divided : flat_map (divided false) ex_obs = [[ex_opt]; [ex_S; ex_s]; [ex_V6; ex_v6]; [keep_delay ex_R7; keep_delay ex_r7]; [keep_doppler ex_R7; keep_doppler ex_r7]; [ex_x]].
Proof. vm_compute. reflexivity. Qed.
Lemma ex_taken ch : In ch [[ex_opt]; [ex_S; ex_s]; [ex_V6; ex_v6]; [keep_delay ex_R7; keep_delay ex_r7]; [keep_doppler ex_R7; keep_doppler ex_r7]; [ex_x]] -> omitted ch = false -> taken ch.
Proof.
  destruct ex_takes as (T1 & T2 & T3). intros [<-|[<-|[<-|[<-|[<-|[<-|[]]]]]]] O.
  - exact T1.
  - split; [exact T2|exact ex_satellite].
  - split; [exact T3|exact ex_rover].
  - exact ex_delay.
  - exact ex_doppler.
  - discriminate O.
Qed.
Example C43_example_file :
  Forall observation ex_obs /\ readable (concat ex_obs) /\
  mpc80coltoxml ades_tables false (file (concat ex_obs)) = Written (document (concat ex_obs)) /\
  length (flat_map (divided false) ex_obs) = 6 /\ length (xkids (document (concat ex_obs))) = 5 /\
  forall F, reads_values F -> valid F general_xsd (document (concat ex_obs)).
Proof.
  split; [exact ex_observations|]. split; [exact ex_readable|]. split; [exact ex_written|]. split; [rewrite ex_divided; reflexivity|].
  split; [vm_compute; reflexivity|]. intros F RV.
  apply (C43_file F false ex_obs _ RV ex_observations ex_readable ex_written). rewrite ex_divided. exact ex_taken.
Qed.

(** two blocks *)
Definition ex_heads : list (str * str) := [($"COD", $"I41"); ($"CON", $"A. Bee, There"); ($"OBS", $"A. Bee"); ($"MEA", $"A. Bee, C. Dee"); ($"TEL", $"1.0-m f/2"); ($"COM", $"one")].
Definition ex_blocks : list (list (str * str) * list (list str)) := [(ex_heads, [[ex_opt]; [ex_S; ex_s]; [ex_x]]); (ex_heads, [[ex_R7; ex_r7]])].
Lemma some_text_dec s : cmem "|" s = false -> existsb (fun c => negb (xsd_space c)) s = true -> some_text s.
Proof.
  intros A B. split; [intro I; apply cmem_in in I; rewrite I in A; discriminate A|]. apply existsb_exists in B as (c & I & B). exists c. split; [exact I|]. now apply negb_true_iff in B.
Qed.
Ltac texty := apply some_text_dec; vm_compute; reflexivity.
Lemma ex_good : Forall good_block ex_blocks.
Proof.
  assert (Forall (fun kv => In (fst kv) keywords /\ length (header_text kv) <= 80) ex_heads) as H.
  { apply Forall_forall. intros kv I. split.
    - assert (forallb (fun kv => smem (fst kv) keywords) ex_heads = true) as Q by (vm_compute; reflexivity). rewrite forallb_forall in Q. apply smem_iff. exact (Q kv I).
    - assert (forallb (fun kv => Nat.leb (length (header_text kv)) 80) ex_heads = true) as Q by (vm_compute; reflexivity). rewrite forallb_forall in Q. apply Nat.leb_le. exact (Q kv I). }
  pose proof ex_observations as O. rewrite Forall_forall in O.
  constructor; [|constructor; [|constructor]]; (split; [discriminate|]; split; [discriminate|]; split; [exact H|]); apply Forall_forall; intros ch I; apply O; destruct I as [<-|I].
  - now left.
  - destruct I as [<-|[<-|[]]]; [right; now left|do 4 right; now left].
  - do 3 right. now left.
  - destruct I.
Qed.
Lemma ex_heads_taken : heads_taken ex_heads.
Proof.
  split; [|split].
  - intros k [<-|[<-|[<-|[<-|[]]]]]; member.
  - intros a k v b E _.
    assert (In (k, v) ex_heads) as I by (rewrite E; apply in_or_app; right; now left). clear E.
    destruct I as [I|[I|[I|[I|[I|[I|[]]]]]]]; injection I as <- <-; (split; [|split; [|split]]); intro Q; try discriminate Q; try (destruct Q as [Q|Q]; discriminate Q).
    + split; [split; repeat constructor|vm_compute; reflexivity].
    + split; [texty|]. intros i J. vm_compute in J. injection J as <-. texty.
    + intros n J. change (splitc "," $"A. Bee") with [$"A. Bee"] in J. destruct J as [<-|[]]. texty.
    + intros n J. change (splitc "," $"A. Bee, C. Dee") with [$"A. Bee"; $" C. Dee"] in J. destruct J as [<-|[<-|[]]]; texty.
    + texty.
  - intros v I. destruct I as [I|[I|[I|[I|[I|[I|[]]]]]]]; try discriminate (f_equal fst I). injection I as <-. texty.
Qed.
Lemma ex_blocks_written : mpc80coltoxml ades_tables false (file (flat_map headed ex_blocks)) = Written (document (flat_map headed ex_blocks)).
Proof. vm_compute. reflexivity. Qed.
Lemma ex_blocks_readable : readable (flat_map headed ex_blocks).
Proof. apply readable_dec. vm_compute. reflexivity. Qed.
Example C43_example_blocks :
  Forall good_block ex_blocks /\ readable (flat_map headed ex_blocks) /\
  mpc80coltoxml ades_tables false (file (flat_map headed ex_blocks)) = Written (document (flat_map headed ex_blocks)) /\
  forall F, reads_values F -> valid F general_xsd (document (flat_map headed ex_blocks)).
Proof.
  split; [exact ex_good|]. split; [exact ex_blocks_readable|]. split; [exact ex_blocks_written|]. intros F RV.
  apply (C43_blocks F false ex_blocks _ RV ltac:(discriminate) ex_good ex_blocks_readable); [|exact ex_blocks_written|].
  - constructor; [|constructor]. exists [ex_opt]. split; [now left|reflexivity].
  - pose proof ex_divided as E. intros b [<-|[<-|[]]]; (split; [exact ex_heads_taken|]).
    + change (flat_map (divided false) (snd (ex_heads, [[ex_opt]; [ex_S; ex_s]; [ex_x]]))) with [[ex_opt]; [ex_S; ex_s]; [ex_x]]. split; [|split].
      * intros ch I. apply ex_taken. destruct I as [<-|[<-|[<-|[]]]]; [now left|right; now left|do 5 right; now left].
      * exists [ex_opt]. split; [now left|reflexivity].
      * intros ch ch' [<-|[<-|[<-|[]]]] [<-|[<-|[<-|[]]]]; reflexivity.
    + assert (flat_map (divided false) (snd (ex_heads, [[ex_R7; ex_r7]])) = [[keep_delay ex_R7; keep_delay ex_r7]; [keep_doppler ex_R7; keep_doppler ex_r7]]) as -> by (vm_compute; reflexivity). split; [|split].
      * intros ch I. apply ex_taken. destruct I as [<-|[<-|[]]]; [do 3 right; now left|do 4 right; now left].
      * exists [keep_delay ex_R7; keep_delay ex_r7]. split; [now left|vm_compute; reflexivity].
      * intros ch ch' [<-|[<-|[]]] [<-|[<-|[]]]; intros; vm_compute; reflexivity.
Qed.

(** * What is converted although the schema does not take it *)
(** a line that is converted, and the document is valid under no reading of the schema *)
Definition refused_line (l : str) : Prop :=
  decodable l /\ exists doc, mpc80coltoxml ades_tables false (file [l]) = Written doc /\ forall F, reads_values F -> ~ valid F general_xsd doc.
Lemma codes_more c : cmem c $"A PeCBTMcEOHNnX" = true -> cmem c $"A PeCBTMcEOHNnXx" = true.
Proof. revert c. apply impl_ascii. vm_compute. reflexivity. Qed.
Lemma line_refused l c : decodable l -> kind_is c l -> cmem c $"A PeCBTMcEOHNnX" = true ->
  forallb (fun l => plainb l && (negb (radar_line l) || Nat.leb 61 (length l))) [l] = true ->
  match mpc80coltoxml ades_tables false (file [l]) with Written _ => true | _ => false end = true -> ~ takes l -> refused_line l.
Proof.
  intros D K I R W N. split; [exact D|]. destruct (some_document false [l] W) as (doc & E). exists doc. split; [exact E|]. intros F RV V.
  apply N. apply (proj1 (C43_file F false [[l]] doc RV
    (Forall_cons [l] (obs_line l c D K (proj1 (cmem_in c _) (codes_more c I))) (Forall_nil _)) (readable_dec [l] R) E) V [l]); [now left|].
  unfold omitted. rewrite K. revert I. clear. destruct (streqb [c] $"x") eqn:Q; [|reflexivity]. apply streqb_eq in Q. injection Q as ->. intro I. discriminate I.
Qed.

Ltac refused := apply (line_refused _ "C"%char); [dec|vm_compute; reflexivity|vm_compute; reflexivity|vm_compute; reflexivity|vm_compute; reflexivity|].
(** catalogue 6 in column 72, a station that is not given, a bar in the reference; *)
Theorem C43_catalogue_refuted : exists l, refused_line l /\ cols 72 72 l = $"6".
Proof. exists (over 72 $"6" ex_opt). split; [|vm_compute; reflexivity]. refused. intros [_ _ _ _ _ _ N]. apply N. vm_compute. reflexivity. Qed.
Theorem C43_station_refuted : exists l, refused_line l /\ cols 78 80 l = $"   ".
Proof. exists (over 78 $"   " ex_opt). split; [|vm_compute; reflexivity]. refused. intros [_ N _ _ _ _ _]. vm_compute in N. discriminate N. Qed.
Theorem C43_reference_refuted : exists l, refused_line l /\ cols 73 77 l = $"MPC |".
Proof. exists (over 73 $"MPC |" ex_opt). split; [|vm_compute; reflexivity]. refused. intros [_ _ _ _ _ N _]. apply N. apply cmem_in. vm_compute. reflexivity. Qed.
(** an interstellar object, a comet of the year 917; *)
Theorem C43_interstellar_refuted : exists l, refused_line l /\ cols 1 12 l = $"    IK17U010".
Proof. exists (over 1 $"    IK17U010" ex_opt). split; [|vm_compute; reflexivity]. refused. intros [N _ _ _ _ _ _]. vm_compute in N. discriminate N. Qed.
Theorem C43_old_comet_refuted : exists l, refused_line l /\ cols 1 12 l = $"    C917U010".
Proof. exists (over 1 $"    C917U010" ex_opt). split; [|vm_compute; reflexivity]. refused. intros [N _ _ _ _ _ _]. vm_compute in N. discriminate N. Qed.
(** a right ascension of 25 hours, a declination of 91 degrees, a magnitude of 99.9 *)
Theorem C43_ra_refuted : exists l, refused_line l /\ cols 33 44 l = $"25 02 03.45 ".
Proof.
  exists (over 33 $"25" ex_opt). split; [|vm_compute; reflexivity]. refused. intros [_ _ N _ _ _ _].
  change (cols 33 44 (over 33 $"25" ex_opt)) with $"25 02 03.45 " in N. destruct C43_reading as (_ & RD & _ & _).
  apply (ra_fine reading RD $"25 02 03.45 " (decimal_text false 5 37551437) (PTen 2) eq_refl ltac:(vm_compute; reflexivity)) in N.
  apply (ra_type reading RD 5 37551437 ltac:(split; repeat constructor) ltac:(discriminate)) in N. vm_compute in N. discriminate N.
Qed.
Theorem C43_declination_refuted : exists l, refused_line l /\ cols 45 56 l = $"+91 02 03.4 ".
Proof.
  exists (over 45 $"+91" ex_opt). split; [|vm_compute; reflexivity]. refused. intros [_ _ _ N _ _ _].
  change (cols 45 56 (over 45 $"+91" ex_opt)) with $"+91 02 03.4 " in N. destruct C43_reading as (_ & RD & _ & _).
  apply (dec_fine reading RD $"+91 02 03.4 " (decimal_text false 5 9103428) (PTen 1) eq_refl ltac:(vm_compute; reflexivity)) in N.
  apply (dec_type reading RD false 5 9103428 ltac:(split; repeat constructor) ltac:(discriminate)) in N. vm_compute in N. now elim N.
Qed.
Theorem C43_magnitude_refuted : exists l, refused_line l /\ cols 66 70 l = $"99.9 ".
Proof.
  exists (over 66 $"99.9" ex_opt). split; [|vm_compute; reflexivity]. refused. intros [_ _ _ _ N _ _].
  destruct N as [N|[(q & [N _] & _ & B) _]]; [vm_compute in N; discriminate N|].
  pose proof (numeral [] $"99" $"9" (or_introl eq_refl) eq_refl ltac:(discriminate)) as D. pose proof (decimal_fun _ _ _ N D) as E. rewrite E in B. vm_compute in B. now elim B.
Qed.

Print Assumptions C43_file.
Print Assumptions C43_blocks.
Print Assumptions C43_catalogue_refuted.
Print Assumptions C43_station_refuted.
Print Assumptions C43_reference_refuted.
Print Assumptions C43_interstellar_refuted.
Print Assumptions C43_old_comet_refuted.
Print Assumptions C43_ra_refuted.
Print Assumptions C43_declination_refuted.
Print Assumptions C43_magnitude_refuted.
