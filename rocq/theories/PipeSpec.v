(** Vocabulary of C38. *)
From Verif Require Export Pipe.

(** * Encodings *)
(** A text that can be read can also be written, with its line ends made line
    feeds, and is then read back. *)
Definition lossless (c : codec) : Prop := forall b t, decode c b = Ok t ->
  exists b', encode c (newlines t) = Ok b' /\ decode c b' = Ok (newlines t).
(** Bytes that are some text without carriage returns in this encoding *)
Definition plain_text (c : codec) (b : bytes) : Prop := exists t, decode c b = Ok t /\ ~ In 13%N t /\ encode c t = Ok b.

(** * Converters *)
(** A converter that reads its input as text in the encoding [c] and writes
    [conv] of this text to its output file.  When it fails it may leave part
    of the output. *)
Definition part_of (o : str) (part : option bytes) (f : files) : files :=
  match part with None => f | Some b => dset o b f end.
Definition converts (c : codec) (call : converter) (conv : chars -> res bytes) : Prop :=
  forall i o f b, i <> o -> dget i f = Some b ->
    match (do t <- read_text c b; conv t) with
    | Ok out => call (Some i) (Some o) f = (Ok tt, dset o out f)
    | Err e => exists part, call (Some i) (Some o) f = (Err e, part_of o part f)
    end.

(** * Runs *)
(** the names of the temporary files are new *)
Definition fresh (tmp_i tmp_o : str) (w : world) : Prop :=
  dget tmp_i (fs w) = None /\ dget tmp_o (fs w) = None /\ tmp_i <> tmp_o.
(** the bytes the input argument stands for *)
Definition input_is (a : arg) (b : bytes) (w : world) : Prop :=
  match a with Std => stdin w = b | Name f => dget f (fs w) = Some b | _ => False end.
(** a user's input and output are different and none of the temporary files *)
Definition proper (input output : arg) (tmp_i tmp_o : str) : Prop :=
  (match input with Std => True | Name i => i <> tmp_i /\ i <> tmp_o | _ => False end) /\
  (match output with Std => True | Name o => o <> tmp_i /\ o <> tmp_o | _ => False end) /\
  (match input, output with Name i, Name o => i <> o | _, _ => True end).
(** the world after a successful run: the output where it belongs, the
    standard input used up, nothing else *)
Definition delivered (input output : arg) (out : bytes) (w : world) : world :=
  {| fs := match output with Name o => dset o out (fs w) | _ => fs w end;
     stdin := match input with Std => [] | _ => stdin w end;
     stdout := match output with Std => stdout w ++ out | _ => stdout w end |}.
