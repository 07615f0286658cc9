(** Vocabulary of C43: the observations of an 80-column file, and the ones whose
    values the general schema takes. *)
From Verif Require Export ValueSpec.
From Verif Require Import Mpc80 Mpc80Spec Back80Spec DocSpec.
From Verif Require Import Mpc80 Mpc80Spec.
Local Open Scope nat_scope.

(** one line, or the two lines of a satellite, of a roving observer, of a radar: accepted
    lines (decodable, Back80Spec) that agree on object, time and station *)
Inductive observation : list str -> Prop :=
| obs_line l c : decodable l -> kind_is c l -> In c $"A PeCBTMcEOHNnXx" -> observation [l]
| obs_pair l m c c' : decodable l -> decodable m -> kind_is c l -> kind_is c' m ->
    In (c, c') [("R", "r"); ("S", "s"); ("V", "v")]%char ->
    agree 1 12 l m -> agree 16 32 l m -> agree 78 80 l m -> (c = "R"%char -> agree 69 71 l m) -> observation [l; m].
(** no element is written for replaced discovery observations, and for roving observers without a height *)
Definition omitted (ch : list str) : bool :=
  match ch with
  | [l] => streqb (cols 15 15 l) $"x"
  | [l; m] => streqb (cols 15 15 l) $"V" && blank (cols 57 61 m)
  | _ => false
  end.
Definition taken (ch : list str) : Prop :=
  match ch with
  | [l] => takes l
  | [l; m] =>
      if streqb (cols 15 15 l) $"R" then takes_radar l m
      else takes l /\ if streqb (cols 15 15 l) $"S" then takes_satellite m else takes_rover m
  | _ => True
  end.
(** a radar pair with a delay and a Doppler shift is divided into two *)
Definition divided (nosplit : bool) (ch : list str) : list (list str) :=
  match ch with
  | [l; m] =>
      if negb nosplit && streqb (cols 15 15 l) $"R" && has_both l
      then [[keep_delay l; keep_delay m]; [keep_doppler l; keep_doppler m]] else [ch]
  | _ => [ch]
  end.

(** * Headers: keywords and what is said behind them *)
Definition some_text (s : str) : Prop := ~ In "|"%char s /\ exists c, In c s /\ xsd_space c = false.
Definition says (k v : str) : Prop :=
  (k = $"COD" -> 3 <= length v <= 4 /\ forallb alnum_ v = true) /\
  (k = $"CON" -> some_text (until_comma v) /\ forall i, after_comma v = Some i -> some_text i) /\
  (k = $"OBS" \/ k = $"MEA" -> forall n, In n (splitc "," v) -> some_text n) /\
  (k = $"TEL" -> some_text v).
Definition heads_taken (kvs : list (str * str)) : Prop :=
  (forall k, In k [$"COD"; $"CON"; $"MEA"; $"TEL"] -> In k (map fst kvs)) /\
  (forall a k v b, kvs = a ++ (k, v) :: b -> ~ In k (map fst a) -> says k v) /\
  (forall v, In ($"COM", v) kvs -> some_text v).
(** the observations behind one header: some, all of them radar or none *)
Definition by_radar (ch : list str) : bool := streqb (cols 15 15 (hd [] ch)) $"R".
Definition data_taken (chs : list (list str)) : Prop :=
  (forall ch, In ch chs -> omitted ch = false -> taken ch) /\
  (exists ch, In ch chs /\ omitted ch = false) /\
  (forall ch ch', In ch chs -> In ch' chs -> omitted ch = false -> omitted ch' = false -> by_radar ch = by_radar ch').
Definition headed (b : list (str * str) * list (list str)) : list str := map header_text (fst b) ++ concat (snd b).
(** a block: headers of at most 80 columns, then observations *)
Definition good_block (b : list (str * str) * list (list str)) : Prop :=
  fst b <> [] /\ snd b <> [] /\ Forall (fun kv => In (fst kv) keywords /\ length (header_text kv) <= 80) (fst b) /\ Forall observation (snd b).
