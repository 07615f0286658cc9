(** Model of Python/ades/xmltojson.py and jsontoxml.py.

    Both are a call of the library xmltodict (parse, unparse with pretty=True)
    and of the standard module json.  What is modelled is xmltodict's handler
    and its _emit, on trees: the document as the XML parser delivers it
    ([xnode], texts and comments in place) and the JSON value.  Not modelled:
    the JSON text itself (see JsonText.v) and the escaping of < > & in XML, which the XML reader undoes;
    file encodings; namespaces (xmltodict.parse is called without
    process_namespaces, so names are kept as they are written). *)
From Verif Require Export AdesTables.

(** A document: elements with attributes and content, character data, and
    comments or processing instructions. *)
Inductive xnode :=
| NElem (tag : str) (attrs : list (str * str)) (kids : list xnode)
| NText (s : str)
| NOther.

(** A JSON value; a number is kept as Python's str() of it. *)
Inductive json :=
| JNull | JBool (b : bool) | JNum (s : str) | JStr (s : str)
| JList (l : list json) | JObj (o : list (str * json)).

(** * xmltodict.parse (xmltojson.py:21) *)
(** push_data: the second value for a key makes a list *)
Definition push (o : list (str * json)) (k : str) (v : json) : list (str * json) :=
  match dget k o with
  | Some (JList l) => dset k (JList (l ++ [v])) o
  | Some w => dset k (JList [w; v]) o
  | None => o ++ [(k, v)]
  end.
(** startElement: the attributes come first, with an @ *)
Definition attributes (a : list (str * str)) : list (str * json) :=
  map (fun kv => ("@"%char :: fst kv, JStr (snd kv))) a.
(** characters: the pieces of text, joined without separator *)
Fixpoint data (ks : list xnode) : str :=
  match ks with
  | [] => []
  | NText s :: ks' => s ++ data ks'
  | _ :: ks' => data ks'
  end.
(** endElement: the value of an element from its members and its text *)
Definition finish (o : list (str * json)) (s : str) : json :=
  match o, strip s with
  | [], [] => JNull
  | [], t => JStr t
  | _, [] => JObj o
  | _, t => JObj (push o $"#text" (JStr t))
  end.
Fixpoint value (x : xnode) : json :=
  match x with
  | NElem t a ks =>
      finish ((fix members (o : list (str * json)) (l : list xnode) : list (str * json) :=
                 match l with
                 | [] => o
                 | k :: l' => members (match k with NElem t' _ _ => push o t' (value k) | _ => o end) l'
                 end) (attributes a) ks) (data ks)
  | _ => JNull
  end.
(** xmltojson.py:18-21, from the root element of the document *)
Definition xmltojson (x : xnode) : json :=
  match x with NElem t _ _ => JObj [(t, value x)] | _ => JNull end.

(** * xmltodict.unparse(.., pretty=True) (jsontoxml.py:19) *)
(** What an XML reader makes of the line ends of a text written as it is *)
Fixpoint line_ends (s : str) : str :=
  match s with
  | [] => []
  | c :: s' =>
      if (code c =? 13)%N then
        nl :: match s' with d :: s'' => if ceqb d nl then line_ends s'' else line_ends s' | [] => [] end
      else c :: line_ends s'
  end.
Definition tabs (d : nat) : str := repeat (Ascii.ascii_of_N 9) d.
(** str(v) of a value that is no string; [repr] is Python's str() of lists and
    dictionaries *)
Definition py_str (repr : json -> str) (v : json) : str :=
  match v with
  | JNull => $"None"
  | JBool true => $"True"
  | JBool false => $"False"
  | JNum s | JStr s => s
  | JList _ | JObj _ => repr v
  end.
(** XMLGenerator.characters(content) *)
Definition characters (v : json) : res (list xnode) :=
  match v with
  | JNull | JBool false | JList [] | JObj [] | JStr [] => Ok []
  | JNum s => if smem s [$"0"; $"0.0"; $"-0.0"] then Ok [] else Err TypeError
  | JStr s => Ok [NText (line_ends s)]
  | _ => Err TypeError
  end.
(** the attributes of an object; an object under @xmlns declares prefixes *)
Definition attr_of (repr : json -> str) (acc : list (str * str)) (kv : str * json) : list (str * str) :=
  match kv with
  | (c :: k, v) =>
      if ceqb c "@" then
        match v with
        | JObj o =>
            if streqb k $"xmlns" then
              fold_left (fun acc pv => dset ($"xmlns" ++ match fst pv with [] => [] | p => ":"%char :: p end)
                                            (py_str repr (snd pv)) acc) o acc
            else dset k (py_str repr v) acc
        | _ => dset k (py_str repr v) acc
        end
      else acc
  | _ => acc
  end.
Definition is_child (k : str) : bool :=
  negb (streqb k $"#text") && negb (match k with c :: _ => ceqb c "@" | [] => false end).

Section Emit.
Variable repr : json -> str.
(** one round of the loop in _emit: the element for one value, with the white
    space pretty=True puts around it *)
Fixpoint emit1 (d : nat) (key : str) (v : json) {struct v} : res (list xnode) :=
  let wrap (a : list (str * str)) (inner : list xnode) (some : bool) (cdata : list xnode) : list xnode :=
    [NText (tabs d);
     NElem key a (if some then NText [nl] :: inner ++ cdata ++ [NText (tabs d)] else cdata)] ++
    (match d with O => [] | _ => [NText [nl]] end) in
  match v with
  | JNull => Ok (wrap [] [] false [])
  | JBool b => Ok (wrap [] [] false [NText (if b then $"true" else $"false")])
  | JNum s | JStr s => do t <- characters (JStr s); Ok (wrap [] [] false t)
  | JList _ => do t <- characters (JStr (repr v)); Ok (wrap [] [] false t)
  | JObj o =>
      do inner <-
        (fix children (l : list (str * json)) : res (list xnode) :=
           match l with
           | [] => Ok []
           | (k, w) :: l' =>
               do here <-
                 (if is_child k then
                    match w with
                    | JList vs =>
                        (fix each (m : list json) : res (list xnode) :=
                           match m with
                           | [] => Ok []
                           | u :: m' => do h <- emit1 (S d) k u; do r <- each m'; Ok (h ++ r)
                           end) vs
                    | _ => emit1 (S d) k w
                    end
                  else Ok []);
               do rest <- children l';
               Ok (here ++ rest)
           end) o;
      do cdata <- (match dget $"#text" o with Some w => characters w | None => Ok [] end);
      Ok (wrap (fold_left (attr_of repr) o []) inner (existsb (fun kv => is_child (fst kv)) o) cdata)
  end.
End Emit.

(** jsontoxml.py:16-19: the root element of the document written, if any *)
Definition jsontoxml (repr : json -> str) (j : json) : res (option xnode) :=
  match j with
  | JObj [] => Ok None
  | JObj [(k, v)] =>
      let root (w : json) := do l <- emit1 repr O k w;
                             Ok (find (fun x => match x with NElem _ _ _ => true | _ => false end) l) in
      match v with
      | JList [] => Ok None
      | JList [w] => root w
      | JList (w :: _) => do _ <- emit1 repr O k w; Err ValueError
      | w => root w
      end
  | JObj ((k, v) :: _) =>
      do _ <- emit1 repr O k (match v with JList (w :: _) => w | w => w end); Err ValueError
  | _ => Err AttributeError
  end.
