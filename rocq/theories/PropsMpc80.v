(** C24 (80-column part), C26, C27, C28: reading 80-column files. *)
From Verif Require Import PyStrProofs SexSpec AdesMasterTables FileLines.
From Verif Require Import Mpc80 Mpc80Spec Mpc80Proofs13.
Local Open Scope nat_scope.

Definition ex_opt : str := $"     K17A00A  C2017 01 01.12345 01 02 03.45 +01 02 03.4          18.5 V      I41".
Definition ex_R : str := $"00433         R2017 01 01.50000   0012345600000+0000012345600 023800251      251".
Definition ex_r : str := $"00433         r2017 01 01.50000 S 00000000120000000000001234  023800251      251".
Definition ex_S : str := $"     K17A00A  S2017 01 01.12345 01 02 03.45 +01 02 03.4          18.5 V      250".
Definition ex_s : str := $"     K17A00A  s2017 01 01.12345 1 + 1234.5678 - 2345.6789 + 3456.7890        250".
Definition ex_v : str := $"     K17A00A  v2017 01 01.12345 1 123.123456 +12.123456   123                247".
Definition got (l : str) : item := match decode80 l with Ok d => d | Err _ => [] end.
Lemma no_nl_dec l : plainb l = true -> ~ In nl l.
Proof. intros H. apply plainb_ok in H. apply H. Qed.

(** * C26 *)
(** A line (no newline in it) is decoded exactly when it is laid out in the MPC's
    columns with a valid date, position, note and designation, and then into its
    columns ([decodes], Mpc80Spec). *)
Theorem C26_decode l d : ~ In nl l -> (decode80 l = Ok d <-> decodes l d).
Proof. exact (decode_iff l d). Qed.
(** The columns can be put together again: optical lines, ... *)
Theorem C26_optical_columns l d : ~ In nl l -> decode80 l = Ok d -> dget $"raSexagesimal" d <> None ->
  flat_map (text_of d) optical_columns = l.
Proof. exact (optical_reproduced l d). Qed.
(** ... first radar lines (the Doppler columns w up to the packing of signed numbers), ... *)
Theorem C26_radar1_columns l d : ~ In nl l -> decode80 l = Ok d -> is_kind "R" d = true ->
  exists w, length w = 15 /\ shift_of w (text_of d $"shift") /\
  flat_map (text_of d) head_columns ++ unpoint 5 15 (text_of d $"delay") ++ w ++ unpoint 5 6 (text_of d $"frq") ++
  text_of d $"trx" ++ flat_map (text_of d) tail_columns = l.
Proof. exact (radar1_reproduced l d). Qed.
(** ... second radar lines, ... *)
Theorem C26_radar2_columns l d : ~ In nl l -> decode80 l = Ok d -> is_kind "r" d = true ->
  flat_map (text_of d) head_columns ++ text_of d $"sc" ++ unpoint 10 14 (text_of d $"delay uncertainty") ++
  unpoint 11 15 (text_of d $"shift uncertainty") ++ text_of d $"frq continuation" ++ text_of d $"trx" ++
  flat_map (text_of d) tail_columns = l.
Proof. exact (radar2_reproduced l d). Qed.
(** ... satellite lines, except for columns 34, 46 and 58, which are ignored, ... *)
Theorem C26_satellite_columns l d : ~ In nl l -> decode80 l = Ok d -> is_kind "s" d = true ->
  exists a b c w1 w2 w3, let dp := if streqb (text_of d $"sys") $"ICRF_KM" then 7%Z else 3%Z in
  unPackSigned (text_of d $"pos1") 11 dp = Ok w1 /\ unPackSigned (text_of d $"pos2") 11 dp = Ok w2 /\
  unPackSigned (text_of d $"pos3") 11 dp = Ok w3 /\
  flat_map (text_of d) head_columns ++ text_of d $"parallax_type" ++ [a] ++ w1 ++ [b] ++ w2 ++ [c] ++ w3 ++ spaces 2 ++
  flat_map (text_of d) tail_columns = l.
Proof. exact (satellite_reproduced l d). Qed.
(** ... and roving-observer lines. *)
Theorem C26_rover_columns l d : ~ In nl l -> decode80 l = Ok d -> is_kind "v" d = true ->
  flat_map (text_of d) head_columns ++ $"1 " ++ text_of d $"pos1" ++ $" " ++ text_of d $"pos2" ++ $" " ++ text_of d $"pos3" ++
  spaces 10 ++ flat_map (text_of d) tail_columns = l.
Proof. exact (rover_reproduced l d). Qed.
(** Longer lines are refused. *)
Theorem C26_long l : 80 < length l -> decode80 l = Err RuntimeError.
Proof. exact (decode80_long l). Qed.
(** Nothing but an empty line, a header line of at most 80 columns, or 80 columns
    whose note is known is accepted. *)
Theorem C26_width_and_note l d : ~ In nl l -> decode80 l = Ok d ->
  l = [] \/ (header_line l /\ length l <= 80) \/ (length l = 80 /\ note_ok (cols 78 80 l) (cols 14 14 l)).
Proof.
  intros NL H. apply decode_iff in H; auto.
  destruct H as [k v Le I E|t p perm prov trk ra pra de pde NH F (D & NO & U) R0 DE
                            |t p perm prov trk shift NH F (D & NO & U) S|t p perm prov trk NH F (D & NO & U)
                            |t p perm prov trk x y z dp sys NH F (D & NO & U) SY P1 P2 P3|t p perm prov trk NH F (D & NO & U)|E].
  1: right; left; split; [exists k, v; auto|auto].
  6: now left.
  all: right; right; split; [apply laid_out_fitp in F; now apply lay80 in F|exact NO].
Qed.
(** Only these exceptions occur. *)
Theorem C26_exceptions l e : ~ In nl l -> decode80 l = Err e -> tame e.
Proof. exact (decode_tame l e). Qed.
(** Of a whole file, however, the columns behind the 80th are silently ignored. *)
Theorem C26_file_long_refuted T nosplit ls : Forall plain_line ls ->
  pairs_whole ls ->
  mpc80coltoxml T nosplit (file ls) = mpc80coltoxml T nosplit (file (map (firstn 80) ls)).
Proof. exact (cut_at_80 T nosplit ls). Qed.
(** A line with a day that does not exist is not refused like others: ValueError
    leaves the decoder, and with it one bad line stops the whole conversion. *)
Theorem C26_nonexistent_day_refuted l y m d k N : ~ In nl l -> ~ header_line l -> laid_out optical_layout l ->
  cols 16 32 l = date_text y m d k N ->
  (1600 <= y <= 9999)%Z -> (1 <= m <= 12)%Z -> (month_days y m < d <= 31)%Z -> 1 <= k -> (0 <= N < 10 ^ Z.of_nat k)%Z ->
  decode80 l = Err ValueError.
Proof. exact (nonexistent_day l y m d k N). Qed.
Theorem C26_one_line_stops_all_refuted T p l q e : Forall plain_line (p ++ l :: q) -> length l <= 80 ->
  l <> spaces (length l) -> decode80 l = Err e -> e <> RuntimeError ->
  exists e', mpc80coltoxml T true (file (p ++ l :: q)) = Raised e'.
Proof. exact (stop_file T p l q e). Qed.
Example C26_example :
  (exists d, decode80 ex_opt = Ok d /\ text_of d $"provID" = $"2017 AA" /\ text_of d $"ra" = $"15.51437" /\
             text_of d $"dec" = $"1.03428" /\ text_of d $"obsTime" = $"2017-01-01T02:57:46.080Z" /\
             dget $"raSexagesimal" d <> None) /\
  (exists d, decode80 ex_R = Ok d /\ is_kind "R" d = true /\ text_of d $"delay" = $"  001.2345600000" /\ text_of d $"shift" = $"+0000012345.600") /\
  (exists d, decode80 ex_r = Ok d /\ is_kind "r" d = true /\ text_of d $"shift uncertainty" = $"00000000012.34  ") /\
  (exists d, decode80 ex_s = Ok d /\ is_kind "s" d = true /\ text_of d $"pos2" = $"-2345.6789") /\
  (exists d, decode80 ex_v = Ok d /\ is_kind "v" d = true /\ text_of d $"pos2" = $"+12.123456") /\
  decode80 (ex_opt ++ $" ") = Err RuntimeError /\
  decode80 (firstn 13 ex_opt ++ $"!" ++ skipn 14 ex_opt) = Err RuntimeError.
Proof.
  split; [|split; [|split; [|split; [|split; [|split]]]]]; try (eexists; split; [vm_compute; reflexivity|]); try (vm_compute; reflexivity).
  - do 4 (split; [vm_compute; reflexivity|]). vm_compute. discriminate.
  - do 2 (split; [vm_compute; reflexivity|]). vm_compute. reflexivity.
  - split; vm_compute; reflexivity.
  - split; vm_compute; reflexivity.
  - split; vm_compute; reflexivity.
Qed.
Definition ex_feb30 : str := $"     K17A00A  C2017 02 30.12345 01 02 03.45 +01 02 03.4          18.5 V      I41".
Example C26_feb30 : cols 16 32 ex_feb30 = date_text 2017 2 30 5 12345 /\ laid_out optical_layout ex_feb30 /\
  decode80 ex_feb30 = Err ValueError /\
  mpc80coltoxml ades_tables true (file [ex_opt; ex_feb30; ex_opt]) = Raised ValueError.
Proof.
  split; [vm_compute; reflexivity|]. split; [apply laid_out_fitp; vm_compute; reflexivity|]. split; vm_compute; reflexivity.
Qed.

(** * C27 *)
(** parseFile hands exactly the [records] of the file (Mpc80Spec) to the callback,
    one after the other. *)
Theorem C27_parse {C} (cb : item -> C -> C * option exn) ls g c :
  Forall (fun x => ~ In nl (removelast x)) ls ->
  parseFile cb (ls, g) c =
    let '(rs, e) := records (read (map (@removelast ascii) ls)) in then_end (then_end (feed cb rs c) e) g.
Proof. exact (parseFile_records cb ls g c). Qed.
(** A record comes from a line that is no half of a pair, or from a pair of
    neighbouring decoded lines, of matching kinds, with the same object, date and
    station (and transmitter). *)
Theorem C27_origin evs d : In d (fst (records evs)) ->
  (exists p q, evs = p ++ Got d :: q /\ first_line d = false /\ second_line d = false) \/
  (exists a b p q, evs = p ++ Got a :: Got b :: q /\ pairs_with a b = true /\ same_record a b = true /\ d = joined a b).
Proof. exact (records_origin evs d). Qed.
(** The whole conversion works on these records. *)
Theorem C27_file T ls : Forall plain_line ls ->
  mpc80coltoxml T true (file ls) = conclude T (records (read (map (firstn 80) ls))).
Proof. exact (nosplit_file T ls). Qed.
(** Matched lines give one record. *)
Theorem C27_pair T la lb ls a b : Forall plain_line (la :: lb :: ls) -> length la = 80 -> length lb = 80 ->
  decode80 la = Ok a -> decode80 lb = Ok b -> la <> spaces 80 -> lb <> spaces 80 ->
  first_line a = true -> pairs_with a b = true -> same_record a b = true ->
  mpc80coltoxml T true (file (la :: lb :: ls)) =
    let '(rs, e) := records (read (map (firstn 80) ls)) in conclude T (joined a b :: rs, e).
Proof.
  intros F La Lb Da Db Sa Sb H1 H2 H3. rewrite (two_lines T la lb ls a b) by auto. cbn [records]. rewrite H1, H2, H3.
  destruct (records _); reflexivity.
Qed.
(** Lines of matching kind that disagree do not just produce no output: the
    warning itself fails and nothing at all is written. *)
Theorem C27_mismatch_refuted T la lb ls a b : Forall plain_line (la :: lb :: ls) -> length la = 80 -> length lb = 80 ->
  decode80 la = Ok a -> decode80 lb = Ok b -> la <> spaces 80 -> lb <> spaces 80 ->
  first_line a = true -> pairs_with a b = true -> same_record a b = false ->
  mpc80coltoxml T true (file (la :: lb :: ls)) = Raised NameError.
Proof.
  intros F La Lb Da Db Sa Sb H1 H2 H3. rewrite (two_lines T la lb ls a b) by auto. cbn [records]. now rewrite H1, H2, H3.
Qed.
(** A first line without its second one takes the next record with it. *)
Theorem C27_orphan_refuted T la lb ls a b : Forall plain_line (la :: lb :: ls) -> length la = 80 -> length lb = 80 ->
  decode80 la = Ok a -> decode80 lb = Ok b -> la <> spaces 80 -> lb <> spaces 80 ->
  first_line a = true -> pairs_with a b = false -> first_line b = false ->
  mpc80coltoxml T true (file (la :: lb :: ls)) = mpc80coltoxml T true (file ls).
Proof.
  intros F La Lb Da Db Sa Sb H1 H2 H3. rewrite (two_lines T la lb ls a b) by auto. cbn [records]. rewrite H1, H2, H3.
  rewrite nosplit_file; [reflexivity|]. now inversion F as [|? ? _ F2]; inversion F2.
Qed.
(** A lone second line is dropped. *)
Theorem C27_lone T l ls b : Forall plain_line (l :: ls) -> length l = 80 -> l <> spaces 80 ->
  decode80 l = Ok b -> second_line b = true ->
  mpc80coltoxml T true (file (l :: ls)) = mpc80coltoxml T true (file ls).
Proof.
  intros F L B D S. rewrite !nosplit_file by (auto; now inversion F). cbn [map]. rewrite (firstn_all2 l) by lia.
  unfold read. cbn [flat_map]. rewrite (read_got l b) by (rewrite ?L; auto). cbn [app records]. rewrite S.
  replace (first_line b) with false; [reflexivity|]. unfold first_line, second_line, is_kind in *.
  apply orb_prop in S as [S|S]; [apply orb_prop in S as [S|S]|]; apply streqb_eq in S; rewrite S; reflexivity.
Qed.
Definition tags (o : outcome) : list (list (str * str)) :=
  match o with Written t => map (fun r => map (fun k => (xtag k, xtext k)) (xkids r)) (xkids t) | _ => [] end.
Example C27_example :
  first_line (got ex_S) = true /\ pairs_with (got ex_S) (got ex_s) = true /\ same_record (got ex_S) (got ex_s) = true /\
  map (fun r => filter (fun kv => smem (fst kv) [$"pos1"; $"pos2"; $"ra"]) r) (tags (mpc80coltoxml ades_tables true (file [ex_opt; ex_S; ex_s; ex_opt]))) =
    [[($"ra", $"15.51437")]; [($"pos1", $"+1234.5678"); ($"pos2", $"-2345.6789"); ($"ra", $"15.51437")]; [($"ra", $"15.51437")]] /\
  mpc80coltoxml ades_tables true (file [ex_S; ex_opt; ex_s; ex_opt]) = mpc80coltoxml ades_tables true (file [ex_opt]) /\
  pairs_with (got ex_S) (got ex_opt) = false /\ second_line (got ex_s) = true /\
  same_record (got ex_S) (got (firstn 79 ex_s ++ $"1")) = false /\
  mpc80coltoxml ades_tables true (file [ex_opt; ex_S; firstn 79 ex_s ++ $"1"]) = Raised NameError.
Proof. repeat (split; [vm_compute; reflexivity|]). vm_compute. reflexivity. Qed.

(** * C28 *)
(** In the default mode the lines of a file go through [split_radar] (Mpc80Spec). *)
Theorem C28_file T ls : Forall plain_line ls -> pairs_whole ls ->
  mpc80coltoxml T false (file ls) =
  let '(ls', e) := split_radar (map (firstn 80) ls) in conclude T (ended (records (read ls')) e).
Proof. exact (split_file T ls). Qed.
(** Files without radar lines pass unchanged. *)
Theorem C28_others ls : Forall (fun l => is_header_line l = true \/ 14 <= length l /\ column15 l <> $"R") ls ->
  split_radar ls = (ls, None).
Proof. exact (split_others ls). Qed.
(** Of a pair with both values the first copy has the delay and no Doppler shift,
    the second one the Doppler shift and no delay, all other fields are the same -
    when the outermost columns of the two fields are blank. *)
Theorem C28_delay_copy l d : ~ In nl l -> decode80 l = Ok d -> is_kind "R" d = true -> cols 62 62 l = $" " ->
  decode80 (keep_delay l) = Ok (iset $"shift" [] d).
Proof.
  intros NL H K S. apply decode_iff in H; auto. apply decode_iff; [|now apply delay_line].
  unfold keep_delay. repeat apply no_nl_app; try apply no_nl_cols; try apply no_nl_spaces; auto.
Qed.
Theorem C28_doppler_copy l d : ~ In nl l -> decode80 l = Ok d -> is_kind "R" d = true -> cols 33 34 l = spaces 2 ->
  decode80 (keep_doppler l) = Ok (iset $"delay" [] d).
Proof.
  intros NL H K S. apply decode_iff in H; auto. apply decode_iff; [|now apply doppler_line].
  unfold keep_doppler. repeat apply no_nl_app; try apply no_nl_cols; try apply no_nl_spaces; auto.
Qed.
Theorem C28_delay_copy2 l d : ~ In nl l -> decode80 l = Ok d -> is_kind "r" d = true -> cols 62 62 l = $" " ->
  decode80 (keep_delay l) = Ok (iset $"shift uncertainty" [] d).
Proof.
  intros NL H K S. apply decode_iff in H; auto. apply decode_iff; [|now apply delay_line2].
  unfold keep_delay. repeat apply no_nl_app; try apply no_nl_cols; try apply no_nl_spaces; auto.
Qed.
Theorem C28_doppler_copy2 l d : ~ In nl l -> decode80 l = Ok d -> is_kind "r" d = true -> cols 34 34 l = $" " ->
  decode80 (keep_doppler l) = Ok (iset $"delay uncertainty" [] d).
Proof.
  intros NL H K S. apply decode_iff in H; auto. apply decode_iff; [|now apply doppler_line2].
  unfold keep_doppler. repeat apply no_nl_app; try apply no_nl_cols; try apply no_nl_spaces; auto.
Qed.
(** Otherwise the copies do not hold one value each: digits of the delay in columns
    33-34 (1000 and more) stay in the Doppler copy as a delay of their own. *)
Theorem C28_one_value_refuted l d : ~ In nl l -> decode80 l = Ok d -> is_kind "R" d = true -> cols 33 34 l <> spaces 2 ->
  exists d', decode80 (keep_doppler l) = Ok d' /\ is_kind "R" d' = true /\
    text_of d' $"delay" = cols 33 34 l ++ spaces 3 ++ $"." ++ spaces 10 /\ text_of d' $"shift" = text_of d $"shift".
Proof. exact (doppler_leftover l d). Qed.
(** A line of less than 14 columns that is no header - a blank line, for example -
    ends the whole conversion. *)
Theorem C28_short_line_refuted T p l q : Forall plain_line (p ++ l :: q) ->
  pairs_whole (p ++ l :: q) ->
  length l < 14 -> ~ header_line l -> exists e, mpc80coltoxml T false (file (p ++ l :: q)) = Raised e.
Proof. exact (short_line T p l q). Qed.
Definition ex_R2 : str := $"00433         R2017 01 01.50000 120012345600000+0000012345600 023800251      251".
Example C28_example :
  split_radar [ex_opt; ex_R; ex_r; ex_opt] =
    ([ex_opt; keep_delay ex_R; keep_delay ex_r; keep_doppler ex_R; keep_doppler ex_r; ex_opt], None) /\
  keep_doppler ex_R = $"00433         R2017 01 01.50000                +0000012345600 023800251      251" /\
  cols 62 62 ex_R = $" " /\ cols 33 34 ex_R = spaces 2 /\ cols 62 62 ex_r = $" " /\ cols 34 34 ex_r = $" " /\
  map (fun r => filter (fun kv => smem (fst kv) [$"delay"; $"doppler"]) r) (tags (mpc80coltoxml ades_tables false (file [ex_R; ex_r]))) =
    [[($"delay", $"001.2345600000")]; [($"doppler", $"+0000012345.600")]] /\
  map (fun r => filter (fun kv => smem (fst kv) [$"delay"; $"doppler"]) r) (tags (mpc80coltoxml ades_tables false (file [ex_R2; ex_r]))) =
    [[($"delay", $"12001.2345600000")]; [($"doppler", $"+0000012345.600"); ($"delay", $"12   .")]] /\
  mpc80coltoxml ades_tables false (file [ex_opt; ex_R; ex_opt]) = Raised RuntimeError /\
  mpc80coltoxml ades_tables false (file [ex_opt; []]) = Raised RuntimeError.
Proof. repeat (split; [vm_compute; reflexivity|]). vm_compute. reflexivity. Qed.

(** * C24 for 80-column files *)
(** A last line without its newline loses its last character; an observation line
    is then too short and silently lost. *)
Theorem C24_obs80_last_line T nosplit ls l : Forall plain_line ls -> plain_line l -> 62 <= length l ->
  pairs_whole ls ->
  mpc80coltoxml T nosplit (file ls ++ l) = mpc80coltoxml T nosplit (file (ls ++ [removelast l])).
Proof. exact (last_line T nosplit ls l). Qed.
Theorem C24_obs80_lost T ls l : Forall plain_line ls -> plain_line l -> length l = 80 -> ~ header_line (removelast l) ->
  pairs_whole ls ->
  mpc80coltoxml T true (file ls ++ l) = mpc80coltoxml T true (file ls).
Proof. exact (lost_line T ls l). Qed.
Theorem C24_obs80_line_ends T nosplit e ls : Forall plain_line ls -> In e [[cr; nl]; [cr]] ->
  mpc80coltoxml T nosplit (file_with e ls) = mpc80coltoxml T nosplit (file ls).
Proof. intros F I. unfold mpc80coltoxml. now rewrite univ_file_with. Qed.
Example C24_obs80_example :
  length (tags (mpc80coltoxml ades_tables false (file [ex_opt; ex_opt]))) = 2 /\
  length (tags (mpc80coltoxml ades_tables false (file [ex_opt] ++ ex_opt))) = 1.
Proof. split; vm_compute; reflexivity. Qed.

Print Assumptions C26_decode.
Print Assumptions C26_optical_columns.
Print Assumptions C26_radar1_columns.
Print Assumptions C26_radar2_columns.
Print Assumptions C26_satellite_columns.
Print Assumptions C26_rover_columns.
Print Assumptions C26_long.
Print Assumptions C26_width_and_note.
Print Assumptions C26_exceptions.
Print Assumptions C26_file_long_refuted.
Print Assumptions C26_nonexistent_day_refuted.
Print Assumptions C26_one_line_stops_all_refuted.
Print Assumptions C27_parse.
Print Assumptions C27_origin.
Print Assumptions C27_file.
Print Assumptions C27_pair.
Print Assumptions C27_mismatch_refuted.
Print Assumptions C27_orphan_refuted.
Print Assumptions C27_lone.
Print Assumptions C28_file.
Print Assumptions C28_others.
Print Assumptions C28_delay_copy.
Print Assumptions C28_doppler_copy.
Print Assumptions C28_delay_copy2.
Print Assumptions C28_doppler_copy2.
Print Assumptions C28_one_value_refuted.
Print Assumptions C28_short_line_refuted.
Print Assumptions C24_obs80_last_line.
Print Assumptions C24_obs80_lost.
Print Assumptions C24_obs80_line_ends.
