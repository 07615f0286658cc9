(** C38: standard streams instead of files (model: Pipe.v; vocabulary: PipeSpec.v). *)
From Verif Require Import PipeSpec PipeProofs.
From Verif Require Import Pipe PipeSpec.

(** Whatever the converter does, succeeds or fails: the temporary files are
    gone afterwards. *)
Theorem C38_temporary_files_removed cin cout call input output tmp_i tmp_o w :
  dget tmp_i (fs (snd (call_with_files cin cout call input output tmp_i tmp_o w))) = None /\
  dget tmp_o (fs (snd (call_with_files cin cout call input output tmp_i tmp_o w))) = None.
Proof. exact (temp_removed cin cout call input output tmp_i tmp_o w). Qed.

(** A converter that turns the text of its input into [out]: the bytes [out]
    arrive at the output, be the input a file or standard input and the output
    a file or standard output; all other files are as before. *)
Theorem C38_same_bytes cin cout call conv input output b t out tmp_i tmp_o w :
  lossless cin -> converts cin call conv -> fresh tmp_i tmp_o w -> proper input output tmp_i tmp_o ->
  input_is input b w -> read_text cin b = Ok t -> conv t = Ok out ->
  (output = Std -> plain_text cout out) ->
  call_with_files cin cout call input output tmp_i tmp_o w = (Ok tt, delivered input output out w).
Proof. exact (succeeds cin cout call conv input output b t out tmp_i tmp_o w). Qed.

(** If the conversion fails, it fails with the same exception however it is
    called, nothing is written on standard output and no file other than the
    named output file changes. *)
Theorem C38_same_failure cin cout call conv input output b e tmp_i tmp_o w :
  lossless cin -> converts cin call conv -> fresh tmp_i tmp_o w -> proper input output tmp_i tmp_o ->
  input_is input b w -> (do t <- read_text cin b; conv t) = Err e ->
  exists part, call_with_files cin cout call input output tmp_i tmp_o w =
    (Err e, {| fs := match output with Name o => part_of o part (fs w) | _ => fs w end;
               stdin := match input, read_text cin b with Std, Ok _ => [] | _, _ => stdin w end; stdout := stdout w |}).
Proof. exact (fails_alike cin cout call conv input output b e tmp_i tmp_o w). Qed.

(** The default encoding and latin-1 are lossless; what utf-8 writes for a text
    without carriage returns is plain. *)
Theorem C38_utf8_lossless : lossless utf8.
Proof. exact utf8_lossless. Qed.
Theorem C38_latin1_lossless : lossless latin1.
Proof. exact latin1_lossless. Qed.
Theorem C38_utf8_plain t b : utf8_encode t = Ok b -> ~ In 13%N t -> plain_text utf8 b.
Proof. exact (utf8_plain t b). Qed.

(** * Example: a converter that doubles every character *)
Definition twice (t : chars) : res bytes :=
  if existsb (N.eqb 33) t then Err RuntimeError else utf8_encode (flat_map (fun c => [c; c]) t).
Definition twice_files : converter := fun i o f =>
  match i, o with
  | Some i, Some o =>
      match dget i f with
      | Some b => match (do t <- read_text utf8 b; twice t) with
                  | Ok out => (Ok tt, dset o out f)
                  | Err e => (Err e, dset o [] f)
                  end
      | None => (Err OSError, f)
      end
  | _, _ => (Err TypeError, f)
  end.
Example twice_converts : converts utf8 twice_files twice.
Proof.
  intros i o f b N D. unfold twice_files. rewrite D. destruct (do t <- read_text utf8 b; twice t); [reflexivity|]. now exists (Some []).
Qed.
Definition ex_world : world :=
  {| fs := [($"in.psv", [97; 195; 169; 13; 10])%N]; stdin := [97; 195; 169; 10]%N; stdout := [] |}.
Example ex_proper : fresh $"/tmp/a" $"/tmp/b" ex_world /\ proper Std Std $"/tmp/a" $"/tmp/b" /\
  proper (Name $"in.psv") (Name $"out.xml") $"/tmp/a" $"/tmp/b".
Proof. repeat split; discriminate. Qed.
Example ex_runs :
  call_with_files utf8 utf8 twice_files (Name $"in.psv") (Name $"out.xml") $"/tmp/a" $"/tmp/b" ex_world
    = (Ok tt, {| fs := fs ex_world ++ [($"out.xml", [97; 97; 195; 169; 195; 169; 10; 10])%N]; stdin := stdin ex_world; stdout := [] |}) /\
  call_with_files utf8 utf8 twice_files Std Std $"/tmp/a" $"/tmp/b" ex_world
    = (Ok tt, {| fs := fs ex_world; stdin := []; stdout := [97; 97; 195; 169; 195; 169; 10; 10]%N |}).
Proof. split; vm_compute; reflexivity. Qed.

(** * What is not the same *)
(** Output with a carriage return arrives changed on standard output. *)
Theorem C38_carriage_return_refuted : exists call conv out w,
  converts utf8 call conv /\ fresh $"/tmp/a" $"/tmp/b" w /\
  call_with_files utf8 utf8 call (Name $"in") (Name $"out") $"/tmp/a" $"/tmp/b" w = (Ok tt, delivered (Name $"in") (Name $"out") out w) /\
  exists out', call_with_files utf8 utf8 call (Name $"in") Std $"/tmp/a" $"/tmp/b" w = (Ok tt, delivered (Name $"in") Std out' w) /\ out' <> out.
Proof.
  exists (fun i o f => match i, o with Some i, Some o =>
            match dget i f with Some b => match read_text utf8 b with Ok _ => (Ok tt, dset o [13]%N f) | Err e => (Err e, f) end
            | None => (Err OSError, f) end | _, _ => (Err TypeError, f) end),
         (fun _ => Ok [13]%N), [13]%N, {| fs := [($"in", [])]; stdin := []; stdout := [] |}.
  split; [|split; [|split]].
  - intros i o f b N D. rewrite D. destruct (read_text utf8 b); [reflexivity|]. now exists None.
  - repeat split; discriminate.
  - vm_compute. reflexivity.
  - exists [10]%N. split; [vm_compute; reflexivity|discriminate].
Qed.
(** A converter that reads bytes (the XML readers) sees other bytes when piped:
    an XML document in latin-1 can be read as a file, but not from standard
    input with the default encoding. *)
Theorem C38_bytes_refuted : exists b w (call : converter),
  (forall i o f, dget i f = Some b -> call (Some i) (Some o) f = (Ok tt, dset o b f)) /\
  fresh $"/tmp/a" $"/tmp/b" w /\
  call_with_files utf8 utf8 call (Name $"in") (Name $"out") $"/tmp/a" $"/tmp/b" w = (Ok tt, delivered (Name $"in") (Name $"out") b w) /\
  fst (call_with_files utf8 utf8 call Std (Name $"out") $"/tmp/a" $"/tmp/b" {| fs := []; stdin := b; stdout := [] |}) = Err ValueError.
Proof.
  exists [233]%N, {| fs := [($"in", [233]%N)]; stdin := []; stdout := [] |},
    (fun i o f => match i, o with Some i, Some o => match dget i f with Some b => (Ok tt, dset o b f) | None => (Err OSError, f) end | _, _ => (Err TypeError, f) end).
  split; [|split; [|split]].
  - intros i o f D. now rewrite D.
  - repeat split; discriminate.
  - vm_compute. reflexivity.
  - vm_compute. reflexivity.
Qed.

Print Assumptions C38_temporary_files_removed.
Print Assumptions C38_same_bytes.
Print Assumptions C38_same_failure.
Print Assumptions C38_utf8_lossless.
Print Assumptions C38_latin1_lossless.
Print Assumptions C38_utf8_plain.
Print Assumptions C38_carriage_return_refuted.
Print Assumptions C38_bytes_refuted.
