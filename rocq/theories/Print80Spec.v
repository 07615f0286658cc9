(** Vocabulary of C44: the 80-column lines of an ADES document, part by part. *)
From Verif Require Export RoundSpec.
From Verif Require Export PsvSpec2 LayoutSpec. From Verif Require Import XmlToMpc80.
Local Open Scope nat_scope.

(** the texts of a record by the names of its fields *)
Definition texts_of (r : xml) (d : list (str * str)) : Prop :=
  forall k, dget k d = match rec_value r k with [] => None | v => Some v end.
(** the lines of one record; offsets and residuals have none *)
Definition record80 (o : opts80) (r : xml) (ls : list str) : Prop :=
  exists d, texts_of r d /\
    if is_tag $"optical" r || is_tag $"occultation" r then printOpticalLine o d = Ok ls
    else if is_tag $"radar" r then printRadarLine d = Ok ls
    else ls = [].

(** * Headers *)
(** the texts of the children with one of these tags *)
Definition said (tags : list str) (e : xml) : list str :=
  map (fun k => strip (xtext k)) (filter (fun k => existsb (fun t => is_tag t k) tags) (xkids e)).
Fixpoint commas (l : list str) : str := match l with [] => [] | [x] => x | x :: l' => x ++ $", " ++ commas l' end.
(** the lines of one element of a header *)
Definition heading80 (e : xml) : list str :=
  if is_tag $"comment" e then map (fun x => $"COM " ++ x) (said [$"line"] e)
  else if is_tag $"observatory" e then map (fun x => $"COD " ++ x) (said [$"mpcCode"] e)
  else if is_tag $"telescope" e then map (fun x => $"TEL " ++ x) (said [$"name"] e)
  else if is_tag $"submitter" e then [$"CON " ++ commas (said [$"name"; $"institution"] e)]
  else if is_tag $"observers" e then [$"OBS " ++ commas (said [$"name"] e)]
  else if is_tag $"measurers" e then [$"MEA " ++ commas (said [$"name"] e)]
  else [].
Definition block_header80 (b : xml) : list str :=
  flat_map (fun k => if is_tag $"obsContext" k then flat_map heading80 (xkids k) else []) (xkids b).

(** * Blocks and records *)
Definition observation_tags : list str := [$"optical"; $"offset"; $"occultation"; $"radar"].
Definition proper_block (b : xml) : Prop :=
  (forall k, In k (xkids b) -> In (xtag k) [$"obsContext"; $"obsData"]) /\
  exists t, In t observation_tags /\ forall r, In r (block_data_of b) -> xtag r = t.
(** The run of records that was read last, of the parts [before], the nearest first:
    those of a block, or records of one kind next to each other. *)
Fixpoint same_kind (t : str) (es : list xml) : list xml :=
  match es with e :: es' => if is_tag t e then e :: same_kind t es' else [] | [] => [] end.
Fixpoint run_before (before : list xml) : list xml :=
  match before with
  | [] => []
  | e :: before' =>
      if is_tag $"obsBlock" e then match block_data_of e with [] => run_before before' | rs => rs end
      else rev (same_kind (xtag e) before)
  end.
(** The lines of one part of a document: a record, or a block: its header and its
    records, or, when it has none, the last run of records before it once more. *)
Definition part80 (o : opts80) (before : list xml) (e : xml) (ls : list str) : Prop :=
  if is_tag $"obsBlock" e then
    proper_block e /\ exists rl,
      Forall2 (record80 o) (match block_data_of e with [] => run_before before | rs => rs end) rl /\
      ls = (if o_noHeader o then [] else block_header80 e) ++ concat rl
  else In (xtag e) (observation_tags ++ [$"opticalResidual"; $"radarResidual"]) /\ record80 o e ls.
Fixpoint parts80 (o : opts80) (before es : list xml) (ls : list str) : Prop :=
  match es with
  | [] => ls = []
  | e :: es' => exists l ls', part80 o before e l /\ parts80 o (e :: before) es' ls' /\ ls = l ++ ls'
  end.
(** the fields d, and the field k with the text v if it is not among them *)
Definition or_else (k v : str) (d : list (str * str)) : list (str * str) :=
  match dget k d with Some _ => d | None => d ++ [(k, v)] end.
