(** Vocabulary of C34: the 80-column files that survive the way to XML and back. *)
From Verif Require Import JustSpec PackSpec. From Verif Require Import Mpc80 Mpc80Spec FileLines.
Local Open Scope nat_scope.

(** no white space at either end *)
Definition tidy (s : str) : Prop := strip s = s.
(** the columns w hold a number (or anything like it) with blanks around it, its point,
    or the column behind it when there is none, behind the first n columns *)
Definition placed (n : nat) (w : str) : Prop :=
  exists a u b, w = spaces a ++ u ++ spaces b /\ tidy u /\ u <> [] /\ points u <= 1 /\ a + length (before_point u) = n.
Definition digits_only (w : str) : Prop := points w = 0.

(** * Optical lines *)
(** columns 73-77: nothing; a packed reference; or some text, which is neither
    taken for a packed reference nor for one that is to be packed *)
Inductive ref_kept : str -> Prop :=
| ref_none : ref_kept (spaces 5)
| ref_packed r : packed_ref r = true -> ref_lossy r = false -> ref_kept r
| ref_text c u b : tidy (c :: u) -> length (c :: u ++ spaces b) = 5 ->
    isdig c = false -> islower c = false -> ~ In c $"@#~" -> ~ In (firstn 2 u) [$"PC"; $"PS"] \/ c <> "M"%char ->
    ref_kept (c :: u ++ spaces b).
(** catalogue letters, column 72 *)
Definition catalogue_letters : str := $" abcdefghijklmnopqrstuvwxyzABCDEFGHIJKLMNOPQRSTUVWXYZ0123456".
Record optical_kept (l : str) : Prop := {
  k_id : lossy (cols 1 12 l) = false;
  k_blank : cols 57 65 l = spaces 9;
  k_mag : cols 66 71 l = spaces 6 \/
          placed 2 (cols 66 70 l) /\ tidy (cols 71 71 l);       (* a magnitude and its band *)
  k_cat : exists c, cols 72 72 l = [c] /\ In c catalogue_letters;
  k_ref : ref_kept (cols 73 77 l);
  k_stn : tidy (cols 78 80 l) /\ ~ In (cols 78 80 l) [$"275"; $"244"] }.
Definition kind_is (c : ascii) (l : str) : Prop := cols 15 15 l = [c].
(** a data line that is accepted *)
Definition decodable (l : str) : Prop := exists d, decode80 l = Ok d /\ is_kind "0" d = false.
Definition agree (a b : nat) (l m : str) : Prop := cols a b l = cols a b m.

(** * Radar lines *)
Record radar_kept (l m : str) : Prop := {
  kr_id : lossy (cols 1 12 l) = false;
  kr_notes : cols 13 14 l = spaces 2 /\ cols 13 14 m = spaces 2;
  kr_date : cols 32 32 l <> $" ";                                (* six decimals of a day *)
  kr_delay : digits_only (cols 33 47 l);
  kr_shift : cols 48 62 l = spaces 15 \/ digits_only (cols 48 62 l) /\ cols 48 48 l <> $" ";
  kr_frq : digits_only (cols 63 68 l) /\ cols 63 68 m = spaces 6;
  kr_rms : digits_only (cols 34 47 m) /\ digits_only (cols 48 62 m);
  kr_trx : tidy (cols 69 71 l);
  kr_ref : cols 72 72 l = $" " /\ tidy (cols 73 77 l) /\ ~ In (firstn 3 (cols 73 77 l)) [$"MPC"; $"MPS"];
  kr_rcv : tidy (cols 78 80 l) }.

(** * One or two lines of the file that make one record *)
Inductive kept : list str -> Prop :=
| kept_line l c : decodable l -> kind_is c l -> In c $"A PeCBTMcEOHNnX" -> optical_kept l -> kept [l]
| kept_satellite l m : decodable l -> decodable m -> kind_is "S" l -> kind_is "s" m -> optical_kept l ->
    agree 1 14 l m -> agree 16 32 l m -> agree 73 80 l m ->
    cols 34 34 m = $" " -> cols 46 46 m = $" " -> cols 58 58 m = $" " -> kept [l; m]
| kept_rover l m a u : decodable l -> decodable m -> kind_is "V" l -> kind_is "v" m -> optical_kept l ->
    agree 1 14 l m -> agree 16 32 l m -> agree 72 80 l m ->
    placed 3 (cols 35 44 m) -> placed 3 (cols 46 55 m) -> cols 57 61 m = spaces a ++ u -> tidy u -> u <> [] -> kept [l; m]
| kept_radar l m : decodable l -> decodable m -> kind_is "R" l -> kind_is "r" m -> radar_kept l m ->
    agree 1 12 l m -> agree 16 32 l m -> agree 69 80 l m -> kept [l; m].
(** radar pairs are not divided into two *)
Definition whole (nosplit : bool) (ls : list str) : Prop := nosplit = true \/ Forall (fun l => kind_is "R" l -> has_both l = false) ls.

(** * Header lines *)
Definition header_text (kv : str * str) : str := fst kv ++ $" " ++ snd kv.
Definition comma_list (v : str) : Prop :=
  exists ns, ns <> [] /\ Forall (fun n => tidy n /\ ~ In ","%char n) ns /\ v = joinc $", " ns.
Inductive value_kept : str -> str -> Prop :=
| kept_cod v : tidy v -> value_kept $"COD" v
| kept_tel v : tidy v -> value_kept $"TEL" v
| kept_con1 v : tidy v -> ~ In ","%char v -> value_kept $"CON" v
| kept_con2 v w : tidy v -> ~ In ","%char v -> tidy w -> value_kept $"CON" (v ++ $", " ++ w)
| kept_obs v : comma_list v -> value_kept $"OBS" v
| kept_mea v : comma_list v -> value_kept $"MEA" v.
Definition header_lines (hs : list (str * str)) (coms : list str) : list str :=
  map header_text (hs ++ map (fun c => ($"COM", c)) coms).
(** the headers, at most one of each keyword, and then the comments *)
Definition headers_kept (hs : list (str * str)) (coms : list str) : Prop :=
  NoDup (map fst hs) /\ Forall (fun kv => value_kept (fst kv) (snd kv)) hs /\ Forall tidy coms /\
  Forall (fun l => length l <= 80) (header_lines hs coms).
(** headers and comments, and the records they belong to: either all of them radar
    records, or none *)
Record block80 := { b_heads : list (str * str); b_comments : list str; b_chunks : list (list str) }.
Definition one_kind (chs : list (list str)) : Prop :=
  Forall (fun ch => kind_is "R" (hd [] ch)) chs \/ Forall (fun ch => ~ kind_is "R" (hd [] ch)) chs.
Definition block_kept (b : block80) : Prop :=
  headers_kept (b_heads b) (b_comments b) /\ header_lines (b_heads b) (b_comments b) <> [] /\
  b_chunks b <> [] /\ Forall kept (b_chunks b) /\ one_kind (b_chunks b).
Definition block_lines (noHeader : bool) (b : block80) : list str :=
  (if noHeader then [] else header_lines (b_heads b) (b_comments b)) ++ concat (b_chunks b).
