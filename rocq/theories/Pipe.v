(** Model of Python/ades/convertutility.py:call_with_files, with a file system
    and the standard streams.

    Bytes and code points are numbers; an encoding is a pair of functions (the
    codec the user names with --input-encoding, --output-encoding).  Text files
    are opened with newline=None: reading makes line feeds of CR LF and CR,
    writing leaves line feeds alone (os.linesep is a line feed).
    Not modelled: what the converters print on the terminal; interrupted
    writes (a file written is written as a whole); the flush of sys.stdout. *)
From Verif Require Export AdesTables.

Definition bytes := list N.
Definition chars := list N.
Record codec := { decode : bytes -> res chars; encode : chars -> res bytes }.

(** universal newlines when reading *)
Fixpoint newlines (s : chars) : chars :=
  match s with
  | [] => []
  | c :: s' =>
      if (c =? 13)%N then 10%N :: match s' with d :: s'' => if (d =? 10)%N then newlines s'' else newlines s' | [] => [] end
      else c :: newlines s'
  end.
Definition files := list (str * bytes).
Record world := { fs : files; stdin : bytes; stdout : bytes }.
(** open(.., "r", encoding=..).read() on these bytes *)
Definition read_text (c : codec) (b : bytes) : res chars := do t <- decode c b; Ok (newlines t).
Fixpoint remove (n : str) (f : files) : files :=
  match f with
  | [] => []
  | (m, b) :: f' => if streqb n m then remove n f' else (m, b) :: remove n f'
  end.
Definition with_files (f : files) (w : world) : world := {| fs := f; stdin := stdin w; stdout := stdout w |}.

(** args.input or args.output: a standard stream (the default), a file name,
    None (the validators have no output), or something else *)
Inductive arg := Std | Name (f : str) | NoArg | Other.
(** a converter: input and output name, and the files; a result and the files *)
Definition converter := option str -> option str -> files -> res unit * files.

(** the end of "with NamedTemporaryFile() as": close() unlinks the name, which
    fails if somebody else did *)
Definition close_temp {A} (n : str) (rw : res A * world) : res A * world :=
  let (r, w) := rw in
  match dget n (fs w) with
  | Some _ => (r, with_files (remove n (fs w)) w)
  | None => (Err OSError, w)
  end.

Section Call.
Variables (cin cout : codec) (call : converter).

(** convertutility.py:28-38 verify_filename, for a stream that is not standard *)
Definition verify (a : arg) : res (option str) :=
  match a with Name f => Ok (Some f) | NoArg => Ok None | Std | Other => Err ValueError end.
(** convertutility.py:42-58: the input name; standard input is copied to the temporary file *)
Definition take_input (a : arg) (tmp_i : str) (w : world) : res (option str * world) :=
  match a with
  | Std =>
      do t <- read_text cin (stdin w);
      do b <- encode cin t;
      Ok (Some tmp_i, {| fs := dset tmp_i b (fs w); stdin := []; stdout := stdout w |})
  | _ => do n <- verify a; Ok (n, w)
  end.
(** convertutility.py:60-70: the output name *)
Definition take_output (a : arg) (tmp_o : str) : res (option str) :=
  match a with Std => Ok (Some tmp_o) | _ => verify a end.
(** convertutility.py:75-81: the temporary output is copied to standard output *)
Definition give_output (a : arg) (tmp_o : str) (w : world) : res unit * world :=
  match a with
  | Std =>
      match dget tmp_o (fs w) with
      | None => (Err OSError, w)
      | Some b =>
          match (do t <- read_text cout b; encode cout t) with
          | Ok out => (Ok tt, {| fs := fs w; stdin := stdin w; stdout := stdout w ++ out |})
          | Err e => (Err e, w)
          end
      end
  | _ => (Ok tt, w)
  end.
(** convertutility.py:17-81 *)
Definition call_with_files (input output : arg) (tmp_i tmp_o : str) (w : world) : res unit * world :=
  let w1 := with_files (dset tmp_o [] (dset tmp_i [] (fs w))) w in
  let body : res unit * world :=
    match take_input input tmp_i w1 with
    | Err e => (Err e, w1)
    | Ok (i, w2) =>
        match take_output output tmp_o with
        | Err e => (Err e, w2)
        | Ok o =>
            let (r, f) := call i o (fs w2) in
            let w3 := with_files f w2 in
            match r with
            | Err e => (Err e, w3)
            | Ok _ => give_output output tmp_o w3
            end
        end
    end in
  close_temp tmp_i (close_temp tmp_o body).
End Call.

(** * The codec utf-8 (the default of both options), strict *)
Definition utf8_char (c : N) : res bytes :=
  if (c <? 128)%N then Ok [c]
  else if (c <? 2048)%N then Ok [192 + c / 64; 128 + c mod 64]%N
  else if (c <? 65536)%N then
    if ((55296 <=? c) && (c <? 57344))%N then Err ValueError
    else Ok [224 + c / 4096; 128 + c / 64 mod 64; 128 + c mod 64]%N
  else if (c <? 1114112)%N then Ok [240 + c / 262144; 128 + c / 4096 mod 64; 128 + c / 64 mod 64; 128 + c mod 64]%N
  else Err ValueError.
Fixpoint utf8_encode (s : chars) : res bytes :=
  match s with
  | [] => Ok []
  | c :: s' => do a <- utf8_char c; do b <- utf8_encode s'; Ok (a ++ b)
  end.
Definition cont (b : N) : bool := ((128 <=? b) && (b <? 192))%N.
(** one character: the lead byte tells how many bytes follow; overlong forms,
    surrogates and numbers above 10FFFF are refused *)
Definition utf8_next (b : bytes) : res (N * bytes) :=
  match b with
  | [] => Err ValueError
  | x :: r =>
      if (x <? 128)%N then Ok (x, r)
      else if ((194 <=? x) && (x <? 224))%N then
        match r with
        | y :: r' => if cont y then Ok (((x - 192) * 64 + (y - 128))%N, r') else Err ValueError
        | _ => Err ValueError
        end
      else if ((224 <=? x) && (x <? 240))%N then
        match r with
        | y :: z :: r' =>
            let c := ((x - 224) * 4096 + (y - 128) * 64 + (z - 128))%N in
            if cont y && cont z && (2048 <=? c)%N && negb ((55296 <=? c) && (c <? 57344))%N then Ok (c, r') else Err ValueError
        | _ => Err ValueError
        end
      else if ((240 <=? x) && (x <? 245))%N then
        match r with
        | y :: z :: t :: r' =>
            let c := ((x - 240) * 262144 + (y - 128) * 4096 + (z - 128) * 64 + (t - 128))%N in
            if cont y && cont z && cont t && (65536 <=? c)%N && (c <? 1114112)%N then Ok (c, r') else Err ValueError
        | _ => Err ValueError
        end
      else Err ValueError
  end.
Fixpoint utf8_decode_fuel (n : nat) (b : bytes) : res chars :=
  match b, n with
  | [], _ => Ok []
  | _, O => Err ValueError
  | _, S n' => do cr <- utf8_next b; do s <- utf8_decode_fuel n' (snd cr); Ok (fst cr :: s)
  end.
Definition utf8 : codec := {| decode := fun b => utf8_decode_fuel (length b) b; encode := utf8_encode |}.
(** The codec latin-1 *)
Definition latin1 : codec :=
  {| decode := fun b => if forallb (fun c => (c <? 256)%N) b then Ok b else Err ValueError;
     encode := fun s => if forallb (fun c => (c <? 256)%N) s then Ok s else Err ValueError |}.
