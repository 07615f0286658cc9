(** Model of Python/ades/valutility.py, valsubmit.py, valgeneral.py, valall.py and
    validate.py: the report files.

    The files are given by their text (Latin-1 code points, before newline
    translation).  lxml is a parameter: [parse] is lxml.etree.parse, [compile] is
    lxml.etree.XMLSchema; the function it gives is [assertValid] (true: no exception).
    The schema master is the tree [master] of adesutility.adesmaster.  The report is
    the text of valsubmit.file, valgeneral.file, valall.file or validate.file; if an
    exception gets out after the file was opened, what it holds is not modelled.
    What is printed on the terminal is not modelled. *)
From Verif Require Export PyRe PsvToXml HumanSchema.

(** valutility.py:64 *)
Definition re_declaration : re := Eval vm_compute in re_compile $"<\?xml.*\?>".
(** valutility.py:60-66: the first line that is not blank decides *)
Fixpoint declaration_in (lines : list str) : bool :=
  match lines with
  | [] => false
  | line :: ls =>
      if streqb (strip line) [] then declaration_in ls
      else match re_match re_declaration (strip line) with Some _ => true | None => false end
  end.
(** valutility.py:59-70 validate_xml_declaration: the lines written to [out] *)
Definition validate_xml_declaration (xmlfile text : str) : list str :=
  if declaration_in (file_lines (univ_newlines text)) then []
  else [$"candidate file " ++ xmlfile ++ $" has no XML declaration"].

(** the style sheets of adesutility.py:97-100 schemaxslts *)
Inductive sheet := SubmitXsd | SubmitHumanXsd | GeneralXsd | GeneralHumanXsd.
(** adesutility.py:97-100: in the order of the dictionary *)
Definition schemaxslts : list (str * sheet) := Eval vm_compute in
  [($"submit", SubmitXsd); ($"submithuman", SubmitHumanXsd); ($"general", GeneralXsd); ($"generalhuman", GeneralHumanXsd)].
(** xmlutility.py:149-178 XMLtoSchemaViaXSLT, the part before XMLtoSchema *)
Definition transformed (s : sheet) (master : xml) : xml :=
  match s with
  | SubmitXsd => schema Submit master
  | SubmitHumanXsd => human_schema HumanSubmit master
  | GeneralXsd => schema General master
  | GeneralHumanXsd => human_schema HumanGeneral master
  end.

Section Validators.
Variables (parse : str -> res xml) (compile : xml -> res (xml -> bool)).

(** valutility.py:16-38 validate_schema: the line written to [out] *)
Definition validate_schema (name : str) (accepts : xml -> bool) (candidate : xml) : str :=
  if accepts candidate then name ++ $" is OK" else name ++ $" has failed: ".
(** valutility.py:40-51 validate_xslt *)
Definition validate_xslt (master : xml) (name : str) (s : sheet) (candidate : xml) : res str :=
  do accepts <- compile (transformed s master);
  Ok (validate_schema name accepts candidate).
(** valutility.py:53-57 validate_xslts *)
Fixpoint validate_xslts (master : xml) (l : list (str * sheet)) (candidate : xml) : res (list str) :=
  match l with
  | [] => Ok []
  | (name, s) :: l' =>
      do r <- validate_xslt master name s candidate;
      do rs <- validate_xslts master l' candidate;
      Ok (r :: rs)
  end.
(** the text of lines, each with its newline *)
Definition report (ls : list str) : str := concat (map (fun l => l ++ [nl]) ls).
(** valsubmit.py:38-59 *)
Definition valsubmit (master : xml) (xmlfile text : str) : res str :=
  do candidate <- parse text;
  let d := validate_xml_declaration xmlfile text in
  do r <- validate_xslt master $"submit" SubmitXsd candidate;
  Ok (report (d ++ [r])).
(** valgeneral.py:36-58 *)
Definition valgeneral (master : xml) (xmlfile text : str) : res str :=
  do candidate <- parse text;
  let d := validate_xml_declaration xmlfile text in
  do r <- validate_xslt master $"general" GeneralXsd candidate;
  Ok (report (d ++ [r])).
(** valall.py:37-58 *)
Definition valall (master : xml) (xmlfile text : str) : res str :=
  do candidate <- parse text;
  let d := validate_xml_declaration xmlfile text in
  do rs <- validate_xslts master schemaxslts candidate;
  Ok (report (d ++ rs)).
(** validate.py:39-53 *)
Definition validate (schemafile schematext xmlfile text : str) : res str :=
  do candidate <- parse text;
  do schemaxml <- parse schematext;
  do accepts <- compile schemaxml;
  Ok (report (validate_xml_declaration xmlfile text ++ [validate_schema schemafile accepts candidate])).

(** valades.py:31-39: what [assertValid] does; DocumentInvalid is the exception of lxml *)
Inductive asserted := Passed | DocumentInvalid.
(** valades.py:31-39 valades.  The files are given by their texts; [sheet_of] is the reading
    of a style sheet file (readXML and XMLTree.XSLT), of which there are the four above. *)
Definition valades (sheet_of : str -> res sheet) (mastertext xslttext text : str) : res asserted :=
  do master <- parse mastertext;
  do s <- sheet_of xslttext;
  do accepts <- compile (transformed s master);
  do candidate <- parse text;
  Ok (if accepts candidate then Passed else DocumentInvalid).
End Validators.
