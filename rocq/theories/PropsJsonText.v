(** C53: JSON as text (model: JsonText.v; vocabulary: JsonTextSpec.v, JsonSpec.v).
    [number] is Python's reading of a number, [repr] its str() of containers:
    neither matters. *)
From Verif Require Import JsonProofs3 JsonTextProofs5 JsonTextProofs3 JsonTextProofs4.
From Verif Require Import Json JsonSpec JsonText JsonTextSpec.
Local Open Scope nat_scope.

(** * What json.load takes *)
(** It takes the texts of the JSON grammar, with the values the grammar gives
    them, and nothing else. *)
Theorem C53_reads number s v : loads number s = Ok v <-> json_text number v s.
Proof. exact (loads_exact number s v). Qed.
(** A text has at most one value. *)
Theorem C53_one_value number v w s : json_text number v s -> json_text number w s -> v = w.
Proof. exact (one_value number v w s). Qed.
(** Line breaks of any system in the file make no difference. *)
Theorem C53_line_breaks number v s : json_text number v s -> loads number (read_text s) = Ok v.
Proof. exact (read_back number v s). Qed.
(** A file that is no JSON is refused. *)
Theorem C53_not_json number repr s : (forall v, ~ json_text number v (read_text s)) -> exists e, json_text_to_xml number repr s = Err e.
Proof. exact (not_json number repr s). Qed.

(** * What json.dump writes *)
(** The text written for a value without numbers is JSON for that value. *)
Theorem C53_writes number v : plain_value v -> json_text number v (dumps v).
Proof. exact (dumps_text number v). Qed.
Theorem C53_there_and_back number v : plain_value v -> loads number (read_text (dumps v)) = Ok v.
Proof. intro P. exact (read_back number v _ (dumps_text number v P)). Qed.
(** Characters are written as they are. *)
Theorem C53_as_it_is s : (forall c, In c s -> (32 <= number_of c)%N /\ number_of c <> 34%N /\ number_of c <> 92%N) ->
  dumps (JStr s) = dquote ++ s ++ dquote.
Proof. exact (dump_plain s). Qed.

(** * The programs xmltojson and jsontoxml *)
(** The JSON file of a document is JSON. *)
Theorem C53_is_json number x : is_element x -> well_formed x -> json_text number (xmltojson x) (xml_to_json_text x).
Proof. exact (text_of_document number x). Qed.
(** From the JSON file of a document comes a document that says the same, with
    the siblings of one name together. *)
Theorem C53_round number repr x : is_element x -> well_formed x ->
  exists y, json_text_to_xml number repr (xml_to_json_text x) = Ok (Some y) /\ is_element y /\ meaning y = grouped (meaning x).
Proof. intros E W. exact (from_text number repr x _ E W (text_of_document number x E W)). Qed.
(** So it does if the file has been laid out anew by another program: other white
    space, line breaks or escapes. *)
Theorem C53_other_layout number repr x s : is_element x -> well_formed x -> json_text number (xmltojson x) s ->
  exists y, json_text_to_xml number repr s = Ok (Some y) /\ is_element y /\ meaning y = grouped (meaning x).
Proof. exact (from_text number repr x s). Qed.
(** Converting the document that comes back gives the same file. *)
Theorem C53_again number repr x y : is_element x -> well_formed x ->
  json_text_to_xml number repr (xml_to_json_text x) = Ok (Some y) -> xml_to_json_text y = xml_to_json_text x.
Proof.
  intros E W H. unfold json_text_to_xml in H. rewrite (read_back number _ _ (text_of_document number x E W)) in H. cbn [rbind] in H.
  unfold xml_to_json_text. now rewrite (again repr x y E W H).
Qed.

(** * JSON files that come from elsewhere *)
(** The line ends in a text become line feeds. *)
Theorem C53_text_line_ends repr n s t : unified s t ->
  exists y, jsontoxml repr (JObj [(n, JStr s)]) = Ok (Some y) /\ is_element y /\ meaning y = Elem n [] (strip t) [].
Proof. exact (text_element repr n s t). Qed.
(** A number as the text of an element that has attributes or children is
    refused, unless it is zero. *)
Theorem C53_number_text repr n s : ~ In s [$"0"; $"0.0"; $"-0.0"] -> jsontoxml repr (JObj [(n, JObj [($"#text", JNum s)])]) = Err TypeError.
Proof. exact (number_text repr n s). Qed.

(** * Examples *)
Definition leaf (t s : string) : xnode := NElem $t [] [NText $s].
Definition ex_doc : xnode :=
  NElem $"ades" [($"version", $"2022")]
    [NText [nl]; NElem $"obsData" []
       [NElem $"optical" [] [leaf "stn" "568"; leaf "remarks" "say ""a\b"""];
        NElem $"offset" [] [leaf "stn" "F51"]; NOther;
        NElem $"optical" [] [leaf "stn" "568"; NElem $"mag" [] []]]].
Lemma plain_names c s : ceqb c "@" = false -> ceqb c "#" = false -> name_like (c :: s).
Proof. intros H1 H2. exists c, s. split; [reflexivity|]. split; intros ->; discriminate. Qed.
Lemma plain_texts s : forallb (fun c => negb (code c =? 13)%N) s = true -> well_formed (NText s).
Proof. intros H. constructor. intros I. rewrite forallb_forall in H. specialize (H _ I). discriminate. Qed.
Example ex_doc_ok : is_element ex_doc /\ well_formed ex_doc.
Proof.
  split; [repeat eexists|]. unfold ex_doc, leaf.
  assert (ND : NoDup (@nil str)) by constructor.
  assert (NV : NoDup (map fst [($"version", $"2022")])) by (constructor; [intros []|constructor]).
  repeat first [ apply wf_other | exact ND | exact NV | apply plain_texts; reflexivity | apply plain_names; reflexivity | apply Forall_nil | apply Forall_cons | apply wf_elem ].
Qed.
Definition lines (l : list string) : str := concat (map (fun s => list_ascii_of_string s ++ [nl]) l).
Example ex_doc_text : xml_to_json_text ex_doc ++ [nl] = lines
 ["{";
  "    ""ades"": {";
  "        ""@version"": ""2022"",";
  "        ""obsData"": {";
  "            ""optical"": [";
  "                {";
  "                    ""stn"": ""568"",";
  "                    ""remarks"": ""say \""a\\b\""""";
  "                },";
  "                {";
  "                    ""stn"": ""568"",";
  "                    ""mag"": null";
  "                }";
  "            ],";
  "            ""offset"": {";
  "                ""stn"": ""F51""";
  "            }";
  "        }";
  "    }";
  "}"]%string.
Proof. vm_compute. reflexivity. Qed.
(** the same file as another program may write it: on one line, with escapes, a
    key that comes twice, and the line breaks of another system *)
Definition other : str :=
  list_ascii_of_string "{""ades"":{""@version"": ""2000"", ""obs\u0044ata"":{""optical"":[{""stn"":""568"",""remarks"":""\u0073ay \""a\\b\""""}," ++ [chr 13; nl; chr 9] ++
  list_ascii_of_string "{""stn"":""568"",""mag"":null}],""offset"":{""stn"":""F51""}}, ""@version"":""2022""}}" ++ [chr 13; nl].
Example ex_other number : json_text number (xmltojson ex_doc) other.
Proof. apply C53_reads. vm_compute. reflexivity. Qed.
Example ex_other_back number : exists y, json_text_to_xml number (fun _ => []) other = Ok (Some y) /\ is_element y /\ meaning y = grouped (meaning ex_doc).
Proof. exact (C53_other_layout number _ _ _ (proj1 ex_doc_ok) (proj2 ex_doc_ok) (ex_other number)). Qed.
(** texts that are no JSON: a comma too many, a number with a leading zero, an
    open string, a bare word, two values *)
Example ex_refused : forallb (fun s => match loads (fun l => l) $s with Err ValueError => true | _ => false end)
  ["{""a"": 1,}"; "[1,]"; "01"; """abc"; "abc"; "1 2"; ""; "{""a"" 1}"; "[1 2]"; "{1: 2}"; "-"; "1."; "tru"; """\x"""; """\u12g4"""]%string = true.
Proof. vm_compute. reflexivity. Qed.
(** numbers and the literal names *)
Example ex_values : loads (fun l => l) $" [0, -1.50e+2, true ,null, {}, [ ], NaN, 1e]" = Err ValueError
  /\ loads (fun l => l) $" [0, -1.50e+2, true ,null, {}, [ ], NaN] " = Ok (JList [JNum $"0"; JNum $"-1.50e+2"; JBool true; JNull; JObj []; JList []; JNum $"nan"]).
Proof. split; vm_compute; reflexivity. Qed.
Example ex_plain : plain_value (JList [JNull; JBool true; JStr [quote; bslash; nl; chr 31]; JObj [($"a", JStr []); ($"b", JList [])]]).
Proof.
  constructor. apply Forall_cons; [constructor|]. apply Forall_cons; [constructor|]. apply Forall_cons; [constructor|]. apply Forall_cons; [|constructor].
  constructor.
  - constructor; [intros [H|[]]; discriminate H|]. constructor; [intros []|constructor].
  - apply Forall_cons; [constructor|]. apply Forall_cons; [constructor; constructor|constructor].
Qed.
Example ex_unified : unified ($"a" ++ [chr 13; nl; chr 13] ++ $"b") ($"a" ++ [nl; nl] ++ $"b").
Proof.
  apply un_other; [discriminate|]. apply un_pair. apply un_single; [discriminate|]. apply un_other; [discriminate|]. constructor.
Qed.

(** * What is not kept *)
(** Of a key that comes twice only the last value is left: a record is lost. *)
Theorem C53_same_key_refuted : exists s, forall number, exists ms, loads number s = Ok (JObj ms) /\ length ms = 1
  /\ s = $"{""stn"": ""568"", ""stn"": ""F51""}".
Proof. exists $"{""stn"": ""568"", ""stn"": ""F51""}". intro number. exists [($"stn", JStr $"F51")]. split; [vm_compute; reflexivity|]. split; reflexivity. Qed.

Print Assumptions C53_reads.
Print Assumptions C53_one_value.
Print Assumptions C53_line_breaks.
Print Assumptions C53_not_json.
Print Assumptions C53_writes.
Print Assumptions C53_there_and_back.
Print Assumptions C53_as_it_is.
Print Assumptions C53_is_json.
Print Assumptions C53_round.
Print Assumptions C53_other_layout.
Print Assumptions C53_again.
Print Assumptions C53_text_line_ends.
Print Assumptions C53_number_text.
Print Assumptions C53_same_key_refuted.
