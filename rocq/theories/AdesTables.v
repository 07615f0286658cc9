(** Model of xslt/util/tableades.xslt applied to a schema master, and of
    Python/ades/adesutility.py:readAdesTables, makeADESElement.

    The style sheet writes a text file that readAdesTables splits into lines
    and words; here a line is the list of its words.  This is exact as long as
    the attribute values involved (names, types, uses, widths) are non-empty
    and contain no white space, as XML names do not. *)
From Verif Require Export Xml.

(** * Python dictionaries with string keys, in insertion order *)
Fixpoint dget {A} (k : str) (d : list (str * A)) : option A :=
  match d with
  | [] => None
  | (k', v) :: d' => if streqb k k' then Some v else dget k d'
  end.
Fixpoint dset {A} (k : str) (v : A) (d : list (str * A)) : list (str * A) :=
  match d with
  | [] => [(k, v)]
  | (k', v') :: d' => if streqb k k' then (k, v) :: d' else (k', v') :: dset k v d'
  end.
(** k in l, for a list or set of strings *)
Definition smem (k : str) (l : list str) : bool := existsb (streqb k) l.

(** * The style sheet *)
Definition attr (k : str) (x : xml) : option str := dget k (xattrs x).
Definition has_tag (t : str) (x : xml) : bool := streqb (xtag x) t.
Definition attr_is (k v : str) (x : xml) : bool :=
  match attr k x with Some v' => streqb v' v | None => false end.

(** //tag[@name=v]: all elements of the document with this tag and name, in
    document order *)
Fixpoint descend (tag name : str) (x : xml) : list xml :=
  (if has_tag tag x && attr_is $"name" name x then [x] else [])
  ++ flat_map (descend tag name) (xkids x).

(** value-of select='@k': the empty string when the attribute is absent *)
Definition attr_text (k : str) (x : xml) : str := match attr k x with Some v => v | None => [] end.

(** tableades.xslt:24-29 processUse *)
Definition processUse (x : xml) : list str :=
  match attr $"use" x with
  | None => [$"use"; $"required"]
  | Some u => if smem u [$"optional"; $"NoSubmitDistribRequired"; $"NoSubmit"; $"unbounded"]
              then [$"use"; u] else []
  end.

(** output of a sequence of template applications; [None] if one does not end *)
Fixpoint cat_opt {A} (f : A -> option (list (list str))) (xs : list A) : option (list (list str)) :=
  match xs with
  | [] => Some []
  | x :: xs' => match f x, cat_opt f xs' with Some a, Some b => Some (a ++ b) | _, _ => None end
  end.

(** tableades.xslt:40-76, the templates applied to one node of a type
    definition.  [fuel] bounds the nesting of group references ([None]: the
    style sheet would recurse without end).  A node with no template of its own
    is replaced by its children (XSLT's built-in rule). *)
Fixpoint table_lines (fuel : nat) (m x : xml) {struct fuel} : option (list (list str)) :=
  match fuel with
  | O => None
  | S f =>
      let kids_of (y : xml) := cat_opt (table_lines f m) (xkids y) in
      if has_tag $"element" x then
        match attr $"ref" x with
        | Some r => Some [[$"element"; r] ++ processUse x]                    (* 45-48 *)
        | None => Some [[$"element"; attr_text $"name" x] ++ processUse x]    (* 41-43 *)
        end
      else if has_tag $"group" x && (match attr $"ref" x with Some _ => true | None => false end) then
        let r := attr_text $"ref" x in                                        (* 51-55 *)
        match cat_opt kids_of (descend $"grouptype" r m) with                 (* 78-80 *)
        | Some b => Some ([[$"open"; $"group"; r] ++ processUse x] ++ b ++ [[$"close"; $"group"; r]])
        | None => None
        end
      else if has_tag $"sequence" x || has_tag $"all" x || has_tag $"choice" x then
        match kids_of x with                                                  (* 59-63 *)
        | Some b => Some ([[$"open"; xtag x] ++ processUse x] ++ b ++ [[$"close"; xtag x]])
        | None => None
        end
      else if has_tag $"doc" x then Some []                                   (* 66-67 *)
      else kids_of x
  end.

(** tableades.xslt:68-72: a complex type; its first and last lines start with
    words readAdesTables ignores *)
Definition complex_lines (fuel : nat) (m c : xml) : option (list (list str)) :=
  match cat_opt (table_lines fuel m) (xkids c) with
  | Some b => Some ([[$"complex"; $"type"]] ++ b ++ [[$"end"; $"complex"]])
  | None => None
  end.

(** tableades.xslt:34-38: an element declaration *)
Definition element_lines (fuel : nat) (m e : xml) : option (list (list str)) :=
  match cat_opt (complex_lines fuel m)
          (match attr $"type" e with Some t => descend $"complextype" t m | None => [] end) with
  | Some b => Some ([[$"top"; attr_text $"name" e]] ++ b ++ [[$"close"; attr_text $"name" e]])
  | None => None
  end.

(** /ades/S/T: grandchildren of the root *)
Definition section_kids (s t : str) (m : xml) : list xml :=
  flat_map (fun x => if has_tag s x then filter (has_tag t) (xkids x) else []) (xkids m).
(** /ades/XSDElementTypes/element *)
Definition element_decls (m : xml) : list xml := section_kids $"XSDElementTypes" $"element" m.

(** tableades.xslt:19-21: a psv row *)
Definition psv_line (p : xml) : list str :=
  [$"psv"; $"tagtype"; attr_text $"tagtype" p; $"name"; attr_text $"name" p; $"width"; attr_text $"width" p;
   $"just"; attr_text $"justification" p; $"dpos"; attr_text $"dpos" p].

(** tableades.xslt:10-16: the whole document *)
Definition tableades (fuel : nat) (m : xml) : option (list (list str)) :=
  match cat_opt (element_lines fuel m) (element_decls m) with
  | Some b => Some (b ++ map psv_line (section_kids $"PSVObservationFields" $"psv" m))
  | None => None
  end.

(** * readAdesTables *)
Record psvitem := { p_name : str; p_width : Z; p_just : str; p_dpos : Z }.
Record tables := {
  allowed : list (str * list str);          (* allowedElementDict *)
  required : list (str * list str);         (* requiredElementDict *)
  psvFormat : list (str * list psvitem) }.  (* psvFormatDict *)

(** the loop's variables: the dictionaries, currentElement, stillRequired *)
Record rstate := { r_t : tables; r_cur : option str; r_still : option bool }.

Definition word (l : list str) (i : nat) : res str :=
  match nth_error l i with Some w => Ok w | None => Err IndexError end.

Definition append_at (k v : str) (d : list (str * list str)) : res (list (str * list str)) :=
  match dget k d with Some l => Ok (dset k (l ++ [v]) d) | None => Err KeyError end.

(** adesutility.py:266-301, one line *)
Definition read_line (l : list str) (s : rstate) : res rstate :=
  let t := r_t s in
  match l with
  | [] => Ok s                                                         (* 268-269 *)
  | w0 :: _ =>
      if streqb w0 $"top" then                                         (* 271-275 *)
        do w1 <- word l 1;
        Ok {| r_t := {| allowed := dset w1 [] (allowed t); required := dset w1 [] (required t);
                        psvFormat := psvFormat t |};
              r_cur := Some w1; r_still := Some true |}
      else if streqb w0 $"open" then                                   (* 277-283 *)
        do w1 <- word l 1;
        if negb (streqb w1 $"choice") then Ok {| r_t := t; r_cur := r_cur s; r_still := Some false |}
        else do w3 <- word l 3;
             if negb (streqb w3 $"required") then Ok {| r_t := t; r_cur := r_cur s; r_still := Some false |}
             else Ok s
      else if streqb w0 $"close" then                                  (* 285-286 *)
        Ok {| r_t := t; r_cur := r_cur s; r_still := Some true |}
      else if streqb w0 $"element" then                                (* 288-291 *)
        do w1 <- word l 1;
        match r_cur s, r_still s with
        | Some cur, Some still =>
            do a <- append_at cur w1 (allowed t);
            let t1 := {| allowed := a; required := required t; psvFormat := psvFormat t |} in
            if still then
              do w3 <- word l 3;
              if streqb w3 $"required" then
                do r <- append_at cur w1 (required t);
                Ok {| r_t := {| allowed := a; required := r; psvFormat := psvFormat t |};
                      r_cur := r_cur s; r_still := r_still s |}
              else Ok {| r_t := t1; r_cur := r_cur s; r_still := r_still s |}
            else Ok {| r_t := t1; r_cur := r_cur s; r_still := r_still s |}
        | _, _ => Err NameError
        end
      else if streqb w0 $"psv" then                                    (* 294-301 *)
        do w2 <- word l 2; do w4 <- word l 4; do w6 <- word l 6; do w8 <- word l 8; do w10 <- word l 10;
        do n6 <- py_int w6; do n10 <- py_int w10;
        let old := match dget w2 (psvFormat t) with Some o => o | None => [] end in
        Ok {| r_t := {| allowed := allowed t; required := required t;
                        psvFormat := dset w2 (old ++ [{| p_name := w4; p_width := n6; p_just := w8; p_dpos := n10 |}])
                                          (psvFormat t) |};
              r_cur := r_cur s; r_still := r_still s |}
      else Ok s
  end.
Fixpoint read_lines (ls : list (list str)) (s : rstate) : res rstate :=
  match ls with
  | [] => Ok s
  | l :: ls' => do s' <- read_line l s; read_lines ls' s'
  end.

(** list(OrderedDict.fromkeys(l)) *)
Fixpoint fromkeys_aux (seen : list str) (l : list str) : list str :=
  match l with
  | [] => []
  | x :: l' => if smem x seen then fromkeys_aux seen l' else x :: fromkeys_aux (x :: seen) l'
  end.
Definition fromkeys (l : list str) : list str := fromkeys_aux [] l.
(** adesutility.py:311-316, 318-323 *)
Definition dedupe (l : list str) : list str :=
  match l with [] => [] | _ => rev (fromkeys (rev l)) end.

Definition empty_tables : tables := {| allowed := []; required := []; psvFormat := [] |}.

(** adesutility.py:176-323 readAdesTables.  [None]: the style sheet does not terminate. *)
Definition readAdesTables (fuel : nat) (m : xml) : option (res tables) :=
  match tableades fuel m with
  | None => None
  | Some ls =>
      Some (do s <- read_lines ls {| r_t := empty_tables; r_cur := None; r_still := None |};
            Ok {| allowed := map (fun kv => (fst kv, dedupe (snd kv))) (allowed (r_t s));
                  required := map (fun kv => (fst kv, dedupe (snd kv))) (required (r_t s));
                  psvFormat := psvFormat (r_t s) |})
  end.

(** adesutility.py:111-162 makeADESElement.  [elements] are finished elements;
    a later element with the same tag replaces an earlier one in eDict. *)
Definition makeADESElement (T : tables) (tag : str) (elements : list xml) : res xml :=
  let eDict := fold_left (fun d e => dset (xtag e) e d) elements [] in
  let s := map fst eDict in
  match dget tag (allowed T), dget tag (required T) with
  | Some al, Some rq =>
      if negb (forallb (fun k => smem k al) s) then Err RuntimeError
      else if negb (forallb (fun k => smem k s) rq) then Err RuntimeError
      else if valid_name tag then
        Ok (Elem tag [] [] (flat_map (fun e => match dget e eDict with Some x => [x] | None => [] end) al))
      else Err ValueError
  | _, _ => Err KeyError
  end.
