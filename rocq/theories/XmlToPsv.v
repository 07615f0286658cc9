(** Model of Python/ades/xmltopsv.py.  [T] are the tables returned by
    adesutility.getAdesTables() (xmltopsv.py:309-310).

    The input is the element tree lxml's parser returns; the result is the text
    written to the PSV file.  Not modelled: comments and processing instructions
    in the tree, the output encoding, and what has been written to the file
    before an exception. *)
From Verif Require Export AdesTables Just.

(** headerItem = [name, width, fmt, dpos, seen] (xmltopsv.py:81); a Python list,
    shared by headerInfo and headerDict.  [h_id] is its identity. *)
Record hitem := { h_id : nat; h_name : str; h_width : Z; h_fmt : str; h_dpos : Z; h_seen : bool }.

(** the globals headerInfo, headerDict (name to identity), psvList, dataDicts;
    [x_next] is the next free identity *)
Record xglob := {
  x_info : list hitem; x_dict : list (str * nat); x_psv : list str;
  x_data : list (list (str * str)); x_next : nat }.

(** l.insert(-1, x) *)
Fixpoint insert_last {A} (x : A) (l : list A) : list A :=
  match l with
  | [] => [x]
  | [y] => [x; y]
  | y :: l' => y :: insert_last x l'
  end.

(** s.index('.'); None: ValueError *)
Definition index_dot (s : str) : option nat := cfind "." s.

(** xmltopsv.py:47-52 the dictionary of the non-empty texts of the children *)
Definition subDict_of (e : xml) : list (str * str) :=
  fold_left (fun d k => let '(t, x) := getElementTagText k in
                        match x with [] => d | _ => dset t x d end) (xkids e) [].

(** xmltopsv.py:57-103 the tables for a new type; [None]: KeyError *)
Definition header_item (i : nat) (j : psvitem) : hitem :=
  let n := p_name j in
  {| h_id := i; h_name := n; h_width := if p_width j <? zlen n then zlen n else p_width j;
     h_fmt := p_just j; h_dpos := p_dpos j; h_seen := false |}.
Fixpoint items_from (i : nat) (l : list psvitem) : list hitem :=
  match l with [] => [] | j :: l' => header_item i j :: items_from (S i) l' end.
Definition dict_of (l : list hitem) : list (str * nat) :=
  fold_left (fun d h => dset (h_name h) (h_id h) d) l [].
(** xmltopsv.py:93-101 *)
Definition add_allowed (j : str) (g : xglob) : xglob :=
  if smem j (x_psv g) then g
  else {| x_info := insert_last {| h_id := x_next g; h_name := j; h_width := zlen j; h_fmt := $"R"; h_dpos := 0; h_seen := false |} (x_info g);
          x_dict := dset j (x_next g) (x_dict g); x_psv := x_psv g; x_data := x_data g; x_next := S (x_next g) |}.
Definition new_header (T : tables) (tag : str) (g : xglob) : res xglob :=
  match dget tag (psvFormat T) with
  | None => Err KeyError
  | Some fs =>
      let items := items_from (x_next g) fs in
      let g1 := {| x_info := items; x_dict := dict_of items; x_psv := map p_name fs; x_data := x_data g;
                   x_next := (x_next g + length fs)%nat |} in
      match dget tag (allowed T) with
      | None => Err KeyError
      | Some al =>
          let g2 := fold_left (fun g j => add_allowed j g) al g1 in
          Ok {| x_info := x_info g2; x_dict := x_dict g2; x_psv := x_psv g2; x_data := []; x_next := x_next g2 |}
      end
  end.

(** headerItem[..] = ..: replace the item with this identity *)
Definition set_item (h : hitem) (l : list hitem) : list hitem :=
  map (fun h' => if Nat.eqb (h_id h') (h_id h) then h else h') l.
Definition get_item (i : nat) (l : list hitem) : option hitem :=
  find (fun h => Nat.eqb (h_id h) i) l.

(** xmltopsv.py:110-137 one known field *)
Definition see_item (h : hitem) (psv : list str) (v : str) : res hitem :=
  let '(just, n) :=
    if negb (smem (h_name h) psv) && negb (h_seen h) && smem (h_fmt h) [[]; $"R"; $"L"; $"RL"] then
      match index_dot v with
      | Some k => ($"D", Z.of_nat k + 1)
      | None => (h_fmt h, 0)
      end
    else (h_fmt h, h_dpos h) in
  do (_, width, dposnew) <- applyPaddingAndJustification v (h_width h) just n;
  Ok {| h_id := h_id h; h_name := h_name h; h_width := width; h_fmt := just; h_dpos := dposnew; h_seen := true |}.

(** xmltopsv.py:108-166 one field of subDict *)
Definition see_field (kv : str * str) (g : xglob) : res xglob :=
  let '(i, v) := kv in
  match dget i (x_dict g) with
  | Some id =>
      match get_item id (x_info g) with
      | None => Ok g      (* every identity in headerDict is in headerInfo *)
      | Some h =>
          do h' <- see_item h (x_psv g) v;
          Ok {| x_info := set_item h' (x_info g); x_dict := x_dict g; x_psv := x_psv g; x_data := x_data g; x_next := x_next g |}
      end
  | None =>                                                            (* 137-169 *)
      let l := Z.max (zlen v) (zlen i) in
      let '(just, n) := match index_dot v with Some k => ($"D", Z.of_nat k + 1) | None => ($"R", 0) end in
      Ok {| x_info := insert_last {| h_id := x_next g; h_name := i; h_width := l; h_fmt := just; h_dpos := n; h_seen := true |} (x_info g);
            x_dict := dset i (x_next g) (x_dict g); x_psv := x_psv g; x_data := x_data g; x_next := S (x_next g) |}
  end.
Fixpoint see_fields (kvs : list (str * str)) (g : xglob) : res xglob :=
  match kvs with
  | [] => Ok g
  | kv :: r => do g' <- see_field kv g; see_fields r g'
  end.

(** xmltopsv.py:39-168 processDataElement *)
Definition processDataElement (T : tables) (first : bool) (e : xml) (g : xglob) : res xglob :=
  let sd := subDict_of e in
  do g1 <- (if first then new_header T (xtag e) g else Ok g);
  do g2 <- see_fields sd g1;
  Ok {| x_info := x_info g2; x_dict := x_dict g2; x_psv := x_psv g2; x_data := x_data g2 ++ [sd]; x_next := x_next g2 |}.

Definition join_bar (l : list str) : str :=
  match l with [] => [] | x :: r => x ++ concat (map (fun y => "|"%char :: y) r) end.

Fixpoint rmap {A B} (f : A -> res B) (l : list A) : res (list B) :=
  match l with
  | [] => Ok []
  | x :: r => do y <- f x; do ys <- rmap f r; Ok (y :: ys)
  end.

(** xmltopsv.py:241-284 printDataDicts: the lines printed *)
Definition header_text (info : list hitem) : res str :=
  do cs <- rmap (fun h => do (s, _, _) <- applyPaddingAndJustification (h_name h) (h_width h) $"L" 0; Ok s)
                (filter h_seen info);
  Ok (rstrip (join_bar cs)).
Definition cell_text (sd : list (str * str)) (h : hitem) : res str :=
  match dget (h_name h) sd with
  | Some v => do (s, _, _) <- applyPaddingAndJustification v (h_width h) (h_fmt h) (h_dpos h); Ok s
  | None => Ok (zspaces (h_width h))
  end.
Definition row_text (info : list hitem) (sd : list (str * str)) : res str :=
  do cs <- rmap (cell_text sd) (filter h_seen info); Ok (rstrip (join_bar cs)).
Definition printDataDicts (g : xglob) : res (list str) :=
  match x_data g with
  | [] => Ok []
  | ds => do h <- header_text (x_info g); do rs <- rmap (row_text (x_info g)) ds; Ok (h :: rs)
  end.

(** xmltopsv.py:287-299 processObsContext: the lines printed *)
Definition context_line (mark : str) (e : xml) : str :=
  let '(t, x) := getElementTagText e in rstrip (mark ++ $" " ++ t ++ $" " ++ x).
Definition processObsContext (e : xml) : list str :=
  flat_map (fun i => context_line $"#" i :: map (context_line $"!") (xkids i)) (xkids e).

(** xmltopsv.py:182-194: the grandchildren; [first], [ty] are first, obsDataType *)
Fixpoint block_data (T : tables) (es : list xml) (first : bool) (ty : str) (g : xglob) : res (bool * str * xglob) :=
  match es with
  | [] => Ok (first, ty, g)
  | e :: es' =>
      do ty' <- (if first then
                   match dget $"obsData" (allowed T) with
                   | None => Err KeyError
                   | Some ok => if smem (xtag e) ok then Ok (xtag e) else Err RuntimeError
                   end
                 else if streqb (xtag e) ty then Ok ty else Err RuntimeError);
      do g' <- processDataElement T first e g;
      block_data T es' false ty' g'
  end.
(** xmltopsv.py:171-194 processObsBlock *)
Fixpoint block_kids (T : tables) (es : list xml) (first : bool) (ty : str) (g : xglob) (out : list str) : res (xglob * list str) :=
  match es with
  | [] => Ok (g, out)
  | e :: es' =>
      match dget $"obsBlock" (allowed T) with
      | None => Err KeyError
      | Some ok =>
          if negb (smem (xtag e) ok) then Err RuntimeError
          else if streqb (xtag e) $"obsContext" then block_kids T es' first ty g (out ++ processObsContext e)
          else if streqb (xtag e) $"obsData" then
            do (ft, g') <- block_data T (xkids e) first ty g;
            let '(first', ty') := ft in block_kids T es' first' ty' g' out
          else block_kids T es' first ty g out
      end
  end.
Definition processObsBlock (T : tables) (e : xml) (g : xglob) : res (xglob * list str) :=
  block_kids T (xkids e) true [] g [].

(** xmltopsv.py:219-236: the children of the root; [last] is lastDataTagType *)
Fixpoint ades_kids (T : tables) (es : list xml) (last : option str) (g : xglob) (out : list str) : res (xglob * list str) :=
  match es with
  | [] => Ok (g, out)
  | e :: es' =>
      match dget $"ades" (allowed T) with
      | None => Err KeyError
      | Some ok =>
          if negb (smem (xtag e) ok) then Err RuntimeError
          else if streqb (xtag e) $"obsBlock" then
            do ls <- printDataDicts g;
            do (g', ls') <- processObsBlock T e g;
            ades_kids T es' (Some (xtag e)) g' (out ++ ls ++ ls')
          else
            let same := match last with Some t => streqb (xtag e) t | None => false end in
            do ls <- (if same then Ok [] else printDataDicts g);
            do g' <- processDataElement T (negb same) e g;
            ades_kids T es' (Some (xtag e)) g' (out ++ ls)
      end
  end.

(** the globals of a fresh process; dataDicts is assigned in processAdesElement,
    the others before their first use *)
Definition xg_init : xglob := {| x_info := []; x_dict := []; x_psv := []; x_data := []; x_next := O |}.

(** xmltopsv.py:198-238 processAdesElement and 316-320 xmltopsv: the lines *)
Definition xmltopsv_lines (T : tables) (t : xml) : res (list str) :=
  if negb (streqb (xtag t) $"ades") then Err RuntimeError
  else
    match dget $"version" (xattrs t) with
    | None => Err KeyError
    | Some v =>
        do (g, ls) <- ades_kids T (xkids t) None xg_init [$"# version=" ++ v];
        do ls' <- printDataDicts g;
        Ok (ls ++ ls')
    end.
Definition xmltopsv (T : tables) (t : xml) : res str :=
  do ls <- xmltopsv_lines T t; Ok (concat (map (fun l => l ++ [nl]) ls)).
