(** Model of Python/ades/psvtoxml.py.  [T] are the tables returned by
    adesutility.getAdesTables() (psvtoxml.py:36-37).

    Not modelled: the text of error messages; the byte encodings (a file is the
    string it decodes to); the XML serializer (the result is the element tree
    handed to lxml's write). *)
From Verif Require Export AdesTables.

(** psvtoxml.py:74-77 *)
Inductive linekind := TOP_HEADER_LINE | SECOND_HEADER_LINE | KEYWORD_RECORD_LINE | DATA_RECORD_LINE.
(** psvtoxml.py:84-89 *)
Inductive pstate := EMPTY | OBSCONTEXT | FIRST_OBSDATA | OBSDATA | FIRST_DATA | DATA.

(** s.split(None, 1) *)
Fixpoint span_word (s : str) : str * str :=
  match s with
  | [] => ([], [])
  | c :: s' => if pyspace c then ([], s) else let '(w, r) := span_word s' in (c :: w, r)
  end.
Definition split1 (s : str) : list str :=
  match lstrip s with
  | [] => []
  | s' => let '(w, r) := span_word s' in
          match lstrip r with [] => [w] | r' => [w; r'] end
  end.

(** psvtoxml.py:96 allAlpha = ^[A-Za-z_]*$ *)
Definition is_alpha_ (c : ascii) : bool := isupper c || islower c || ceqb c "_".

(** psvtoxml.py:160-170: the last type of the list whose allowed elements
    include, and whose required elements are included in, the set of fields *)
Fixpoint header_type (T : tables) (fields possibles : list str) (tag : option str) : res (option str) :=
  match possibles with
  | [] => Ok tag
  | p :: ps =>
      match dget p (allowed T) with
      | None => Err KeyError
      | Some al =>
          if forallb (fun f => smem f al) fields then
            match dget p (required T) with
            | None => Err KeyError
            | Some rq =>
                header_type T fields ps (if forallb (fun r => smem r fields) rq then Some p else tag)
            end
          else header_type T fields ps tag
      end
  end.

(** psvtoxml.py:98-178 parsePSVLine *)
Definition parsePSVLine (T : tables) (line : str) : res (option (linekind * list str)) :=
  let l := strip line in
  match l with
  | [] => Ok None                                                          (* 113-114 *)
  | c :: rest =>
      if ceqb c "#" then Ok (Some (TOP_HEADER_LINE, split1 rest))          (* 116-117 *)
      else if ceqb c "!" then Ok (Some (SECOND_HEADER_LINE, split1 rest))  (* 119-120 *)
      else
        let fields := map strip (splitc "|" l) in                          (* 124 *)
        let firstChars := flat_map (firstn 1) fields in                    (* 145 *)
        if forallb is_alpha_ firstChars then                               (* 146 *)
          match dget $"ades" (allowed T) with
          | None => Err KeyError
          | Some possibles =>
              do tag <- header_type T fields possibles None;
              match tag with
              | None | Some [] => Err RuntimeError                         (* 171-172 *)
              | Some t => Ok (Some (KEYWORD_RECORD_LINE, fields ++ [t]))   (* 174-176 *)
              end
          end
        else Ok (Some (DATA_RECORD_LINE, fields))                          (* 178 *)
  end.

(** The module's global variables.  [None]: not yet assigned. *)
Record glob := {
  g_firstLine : bool; g_state : pstate;
  g_headerVals : list str;
  g_headerType : option (option str);
  g_stack : option estack }.

(** psvtoxml.py:187, 436, 438: the globals after import *)
Definition g_init : glob :=
  {| g_firstLine := true; g_state := EMPTY; g_headerVals := []; g_headerType := None; g_stack := None |}.

(** a sequence of method calls on the global stack *)
Definition on_stack (ops : list op) (g : glob) : res glob :=
  match g_stack g with
  | None => Err NameError
  | Some s => do s' <- run_ops ops s;
              Ok {| g_firstLine := g_firstLine g; g_state := g_state g; g_headerVals := g_headerVals g;
                    g_headerType := g_headerType g; g_stack := Some s' |}
  end.
Definition set_state (n : pstate) (g : glob) : glob :=
  {| g_firstLine := g_firstLine g; g_state := n; g_headerVals := g_headerVals g;
     g_headerType := g_headerType g; g_stack := g_stack g |}.
Definition set_header (vals : list str) (ty : option str) (g : glob) : glob :=
  {| g_firstLine := g_firstLine g; g_state := g_state g; g_headerVals := vals;
     g_headerType := Some ty; g_stack := g_stack g |}.

Definition action : Type := pstate -> list str -> glob -> res glob.

(** psvtoxml.py:195-207 errorAction.  The message is built by actionStatus from
    the global name lineNumber, which no statement of the module ever assigns
    (psvtoxml() assigns a local variable of that name, 524): the NameError this
    raises is what the caller sees. *)
Definition errorAction : action := fun _ _ _ => Err NameError.

(** the text of a header line; None when absent (265-268, 278-281) *)
Definition ctx_op (mk : str -> str -> list (str * str) -> op) (fields : list str) : res op :=
  match fields with
  | [] => Err IndexError
  | [n] => Ok (mk n [] [])
  | n :: t :: _ => Ok (mk n t [])
  end.

(** psvtoxml.py:257-269 obsContextAction, with the stack method to use *)
Definition obsContextAction_with (mk : str -> str -> list (str * str) -> op) : action :=
  fun nextState fields g =>
    do o <- ctx_op mk fields; do g' <- on_stack [o] g; Ok (set_state nextState g').
Definition obsContextAction : action := obsContextAction_with OAddPopPush.

(** psvtoxml.py:210-233 firstObsBlockAction *)
Definition firstObsBlockAction : action :=
  fun nextState fields g =>
    let g := set_header (g_headerVals g) None g in
    do g <- on_stack [OAddPush $"obsBlock" [] []; OAddPush $"obsContext" [] []] g;
    obsContextAction_with OAddPush nextState fields g.

(** psvtoxml.py:236-247 closeObsBlockOpenObsBlockAction *)
Definition closeObsBlockOpenObsBlockAction : action :=
  fun nextState fields g =>
    let g := set_header (g_headerVals g) None g in
    do g <- on_stack [OPop; OPop; OPop] g; firstObsBlockAction nextState fields g.

(** psvtoxml.py:249-255 closeDataOpenObsBlockAction *)
Definition closeDataOpenObsBlockAction : action :=
  fun nextState fields g => do g <- on_stack [OPop] g; firstObsBlockAction nextState fields g.

(** psvtoxml.py:271-283 subObsContextAction *)
Definition subObsContextAction : action :=
  fun nextState fields g =>
    do o <- ctx_op OAdd fields; do g <- on_stack [o] g; Ok (set_state nextState g).

(** psvtoxml.py:285-306 keywordHeaderAction; the tag is the last field *)
Definition keywordHeaderAction : action :=
  fun nextState fields g =>
    match rev fields with
    | [] => Err IndexError
    | t :: rvals =>
        match g_headerType g with
        | None => Err NameError
        | Some old =>
            match old with
            | Some ((_ :: _) as o) =>
                if streqb t o then Ok (set_state nextState (set_header (rev rvals) (Some t) g))
                else Err RuntimeError
            | _ => Ok (set_state nextState (set_header (rev rvals) (Some t) g))
            end
        end
    end.

(** psvtoxml.py:308-317 openDataKeywordHeaderAction *)
Definition openDataKeywordHeaderAction : action :=
  fun nextState fields g =>
    match rev fields with
    | [] => Err IndexError
    | t :: rvals => Ok (set_state nextState (set_header (rev rvals) (Some t) g))
    end.

(** psvtoxml.py:319-325 closeDataKeywordHeaderAction *)
Definition closeDataKeywordHeaderAction : action :=
  fun nextState fields g => do g <- on_stack [OPop] g; openDataKeywordHeaderAction nextState fields g.

(** psvtoxml.py:327-335 closeObsBlockKeywordHeaderAction *)
Definition closeObsBlockKeywordHeaderAction : action :=
  fun nextState fields g => do g <- on_stack [OPop; OPop; OPop] g; openDataKeywordHeaderAction nextState fields g.

(** dict(zip(headerVals, fields)) *)
Fixpoint zip_dict (hs fs : list str) (d : list (str * str)) : list (str * str) :=
  match hs, fs with
  | h :: hs', f :: fs' => zip_dict hs' fs' (dset h f d)
  | _, _ => d
  end.

(** psvtoxml.py:356-369: the (tag, text) pairs of a record, in schema order *)
Definition record_items (al : list str) (hs fs : list str) : list (str * str) :=
  let d := zip_dict hs fs [] in
  flat_map (fun item => match dget item d with Some ((_ :: _) as v) => [(item, v)] | _ => [] end) al.

(** psvtoxml.py:337-371 dataAction, with the stack method to use.  The message
    for a line with too many fields also uses the global lineNumber: NameError. *)
Definition dataAction_with (T : tables) (mk : str -> str -> list (str * str) -> op) : action :=
  fun nextState fields g =>
    if (length (g_headerVals g) <? length fields)%nat then Err NameError     (* 344-346 *)
    else
      match g_headerType g with
      | None => Err NameError
      | Some None => Err TypeError
      | Some (Some ty) =>
          do g1 <- on_stack [mk ty [] []] g;                                 (* 350 *)
          match dget ty (allowed T) with
          | None => Err KeyError
          | Some al =>
              do g2 <- on_stack [OAddList (record_items al (g_headerVals g) fields)] g1;
              Ok (set_state nextState g2)
          end
      end.
Definition dataAction (T : tables) : action := dataAction_with T OAddPopPush.

(** psvtoxml.py:374-381 firstObsDataAction *)
Definition firstObsDataAction (T : tables) : action :=
  fun nextState fields g =>
    do g <- on_stack [OPop; OPop; OAddPush $"obsData" [] []] g;
    dataAction_with T OAddPush nextState fields g.

(** psvtoxml.py:383-386 firstDataAction *)
Definition firstDataAction (T : tables) : action := dataAction_with T OAddPush.

(** psvtoxml.py:397-434 stateTransitions *)
Definition stateTransitions (T : tables) (s : pstate) (k : linekind) : pstate * action :=
  match s, k with
  | EMPTY, TOP_HEADER_LINE => (OBSCONTEXT, firstObsBlockAction)
  | EMPTY, SECOND_HEADER_LINE => (EMPTY, errorAction)
  | EMPTY, KEYWORD_RECORD_LINE => (FIRST_DATA, openDataKeywordHeaderAction)
  | EMPTY, DATA_RECORD_LINE => (EMPTY, errorAction)
  | OBSCONTEXT, TOP_HEADER_LINE => (OBSCONTEXT, obsContextAction)
  | OBSCONTEXT, SECOND_HEADER_LINE => (OBSCONTEXT, subObsContextAction)
  | OBSCONTEXT, KEYWORD_RECORD_LINE => (FIRST_OBSDATA, keywordHeaderAction)
  | OBSCONTEXT, DATA_RECORD_LINE => (EMPTY, errorAction)
  | FIRST_OBSDATA, TOP_HEADER_LINE => (EMPTY, errorAction)
  | FIRST_OBSDATA, SECOND_HEADER_LINE => (EMPTY, errorAction)
  | FIRST_OBSDATA, KEYWORD_RECORD_LINE => (EMPTY, errorAction)
  | FIRST_OBSDATA, DATA_RECORD_LINE => (OBSDATA, firstObsDataAction T)
  | OBSDATA, TOP_HEADER_LINE => (OBSCONTEXT, closeObsBlockOpenObsBlockAction)
  | OBSDATA, SECOND_HEADER_LINE => (EMPTY, errorAction)
  | OBSDATA, KEYWORD_RECORD_LINE => (FIRST_DATA, closeObsBlockKeywordHeaderAction)
  | OBSDATA, DATA_RECORD_LINE => (OBSDATA, dataAction T)
  | FIRST_DATA, TOP_HEADER_LINE => (EMPTY, errorAction)
  | FIRST_DATA, SECOND_HEADER_LINE => (EMPTY, errorAction)
  | FIRST_DATA, KEYWORD_RECORD_LINE => (EMPTY, errorAction)
  | FIRST_DATA, DATA_RECORD_LINE => (DATA, firstDataAction T)
  | DATA, TOP_HEADER_LINE => (OBSCONTEXT, closeDataOpenObsBlockAction)
  | DATA, SECOND_HEADER_LINE => (EMPTY, errorAction)
  | DATA, KEYWORD_RECORD_LINE => (FIRST_DATA, closeDataKeywordHeaderAction)
  | DATA, DATA_RECORD_LINE => (DATA, dataAction T)
  end.

(** ''.join(s.split()) *)
Definition squeeze (s : str) : str := concat (split_ws s).

(** psvtoxml.py:440-483 parsePSV *)
Definition parsePSV (T : tables) (line : str) (g : glob) : res glob :=
  do parsed <- parsePSVLine T line;
  match parsed with
  | None => Ok g                                                             (* 453-454 *)
  | Some (kind, fields) =>
      if g_firstLine g then                                                  (* 463-476 *)
        match splitc "=" line with
        | [a; b] =>
            if streqb (squeeze a) $"#version" then
              do s <- es_init $"ades" [] [($"version", squeeze b)];
              Ok {| g_firstLine := false; g_state := g_state g; g_headerVals := g_headerVals g;
                    g_headerType := g_headerType g; g_stack := Some s |}
            else Err RuntimeError
        | _ => Err RuntimeError
        end
      else
        let '(nextState, act) := stateTransitions T (g_state g) kind in      (* 478-483 *)
        act nextState fields g
  end.
Fixpoint parse_all (T : tables) (lines : list str) (g : glob) : res glob :=
  match lines with
  | [] => Ok g
  | l :: ls => do g' <- parsePSV T l g; parse_all T ls g'
  end.

(** * Reading a text file in Python *)
(** open(..) in text mode: \r\n and \r become \n *)
Definition cr : ascii := ascii_of_N 13.
Fixpoint univ_newlines (s : str) : str :=
  match s with
  | [] => []
  | c :: s' =>
      if ceqb c cr then
        match s' with
        | d :: s'' => if ceqb d nl then nl :: univ_newlines s'' else nl :: univ_newlines s'
        | [] => [nl]
        end
      else c :: univ_newlines s'
  end.
(** for line in f: the lines with their terminating newline *)
Fixpoint file_lines (s : str) : list str :=
  match s with
  | [] => []
  | c :: s' =>
      if ceqb c nl then [c] :: file_lines s'
      else match file_lines s' with
           | l :: ls => (c :: l) :: ls
           | [] => [[c]]
           end
  end.

(** psvtoxml.py:521-538 psvtoxml: the element tree written, and the globals
    left behind.  A RuntimeError is printed and the process exits (529-531). *)
Definition psvtoxml (T : tables) (content : str) (g : glob) : res (xml * glob) :=
  let lines := map (fun l => removelast l) (file_lines (univ_newlines content)) in   (* 528: line[:-1] *)
  match parse_all T lines g with
  | Err RuntimeError => Err SystemExit
  | Err e => Err e
  | Ok g' =>
      match g_stack g' with
      | None => Err NameError
      | Some s =>
          do (t, s') <- es_takeTreeAndClear s;
          Ok (t, {| g_firstLine := g_firstLine g'; g_state := g_state g'; g_headerVals := g_headerVals g';
                    g_headerType := g_headerType g'; g_stack := Some s' |})
      end
  end.
