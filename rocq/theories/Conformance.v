(** The model run on the data of the project's own tests (/repo/tests).  These are tests of
    the model, not theorems about it: they say that what is proved about the definitions is
    said about functions that do with these files what the tests expect of the program. *)
From Verif Require Import TestData PyStrProofs AdesMasterTables XsdMatch2 Schema XsdSpec SchemaSpec XsdFiles PropsValue PackUtil Mpc80 PyFloat SexVals XmlToMpc80 PsvToXml XmlToPsv Json.
From Verif Require SchemaCheck SchemaProofs3.
Local Open Scope list_scope.

(** * tests/test_packUtil.py *)
(** 38-41, 53-56, 64-67: unpacking the examples *)
Example test_unpack :
  forallb (fun x => match unpackPackedID (spaces 5 ++ fst x) with Ok (_, Some p, _) => streqb p (snd x) | _ => false end) provID_examples = true /\
  forallb (fun x => match unpackPackedID (spaces 4 ++ fst x) with Ok (_, Some p, _) => streqb p (snd x) | _ => false end) comet_provID_examples = true /\
  forallb (fun x => match unpackPackedID (fst x ++ spaces 7) with Ok (Some p, _, _) => streqb p (snd x) | _ => false end) permID_examples = true.
Proof. vm_compute. repeat split. Qed.
(** 44-48, 59-62, 70-73: packing them; the tests compare the result with itself, here it is
    compared with the packed form *)
Example test_pack :
  forallb (fun x => match packTupleID (None, Some (snd x), None) with Ok p => streqb p (spaces 5 ++ fst x) | _ => false end) provID_examples = true /\
  forallb (fun x => match packTupleID (None, Some (snd x), None) with Ok p => streqb p (spaces 4 ++ fst x) | _ => false end) comet_provID_examples = true /\
  forallb (fun x => match packTupleID (Some (snd x), None, None) with Ok p => streqb p (fst x ++ spaces 7) | _ => false end) permID_examples = true.
Proof. vm_compute. repeat split. Qed.

(** tests/test_programCodesArray.py *)
Example test_programCodesArray :
  forallb (fun x => match fst x with [c] => match nth_error programCodesArray (snd x) with Some d => ceqb c d | None => false end | _ => false end) program_code_mappings = true.
Proof. vm_compute. reflexivity. Qed.

(** * tests/test_xmltompc80col.py *)
(** test_band_conversions: the whole file *)
Example test_band_conversions : xmltompc80col ades_tables opts_default f_band_conversions_xml = Ok f_band_conversions_obs_expected.
Proof. vm_compute. reflexivity. Qed.
(** the others: something is written; nine characters are refused *)
Example test_xmltompc80col :
  map (fun x => match xmltompc80col ades_tables opts_default x with Ok (_ :: _) => true | _ => false end)
    [f_trksub_sub_xml; f_gb_trksub_xml; f_trksub_8char_xml; f_provid_no_trksub_xml] = [true; true; true; true] /\
  xmltompc80col ades_tables opts_default f_trksub_9chars_xml = Err RuntimeError.
Proof. vm_compute. split; reflexivity. Qed.
(** tests/test_occultations.py: more than 1190 characters are written *)
Example test_xml_to_obs80 : match xmltompc80col ades_tables opts_default f_319_xml with Ok s => Nat.ltb 1190 (length s) | Err _ => false end = true.
Proof. vm_compute. reflexivity. Qed.

(** * tests/test_psvtoxml.py, tests/test_xmltopsv.py, tests/test_occultations.py *)
Fixpoint without_blanks (e : xml) : xml := match e with Elem t a x ks => Elem t a (strip x) (map without_blanks ks) end.
(** 319.psv gives 319.xml, up to white space *)
Example test_psv_to_xml : match psvtoxml ades_tables f_319_psv g_init with Ok (t, _) => without_blanks t = without_blanks f_319_xml | Err _ => False end.
Proof. vm_compute. reflexivity. Qed.
Example test_psvtoxml : is_ok (psvtoxml ades_tables f_2023MQ5_psv g_init) = true /\ is_ok (xmltopsv ades_tables f_obs_xml) = true.
Proof. vm_compute. split; reflexivity. Qed.

(** * tests/test_mpc80coltoxml.py *)
Example test_mpc80coltoxml :
  (exists x, mpc80coltoxml ades_tables false f_K20Q04A_test_obs = Written x /\ length (xkids x) = 12%nat) /\
  exists x, mpc80coltoxml ades_tables true f_85_test_obs = Written x /\ mpc80coltoxml ades_tables false f_85_test_obs = Written x /\
    map (fun b => map (fun k => length (xkids k)) (xkids b)) (xkids x) = [[5; 6]%nat].
Proof. split; eexists; (split; [vm_compute; reflexivity|]); [vm_compute; reflexivity|]. split; vm_compute; reflexivity. Qed.

(** * tests/test_xmltojson.py, tests/test_jsontoxml.py *)
(** 319.xml gives 319.json, and 319.json comes back from XML *)
Example test_xml2json : xmltojson f_319_xml_nodes = f_319_json.
Proof. vm_compute. reflexivity. Qed.
Example test_json2xml : match jsontoxml (fun _ => []) f_319_json with Ok (Some x) => xmltojson x = f_319_json | _ => False end.
Proof. vm_compute. reflexivity. Qed.

(** * tests/test_validation.py, tests/test_validationResiduals.py, tests/test_xmltojson.py *)
(** Validity is the relation of XsdSpec, with PropsValue.reading for the facets. *)
Example test_val_submit : valid reading submit_xsd f_obs_v2022_xml /\ valid reading general_xsd f_obs_v2022_xml.
Proof. split; apply valid_values; vm_compute; reflexivity. Qed.
Example test_valgeneral_residuals : valid reading general_xsd f_obsResidual_xml /\ valid reading general_xsd f_standaloneResidual_xml.
Proof. split; apply valid_values; vm_compute; reflexivity. Qed.
Lemma valid_run n S e : SchemaCheck.checks values_b S n e = true -> valid reading S e.
Proof. intro H. apply (SchemaProofs3.valid_weaken (fun d s => values_b d s = true) reading S e values_sound). now apply (SchemaCheck.checks_valid values_b S n). Qed.
Example test_319_submit : valid reading submit_xsd f_319_xml.
Proof. apply (valid_run 60). vm_compute. reflexivity. Qed.

(** * attic/old_tests/radar *)
(** a4179_radar.mpc gives the elements of a4179_radar.xml (written when the version was 2017;
    the program now writes 2022), with radar lines that hold delay and Doppler split in two *)
Example test_radar_xml : match mpc80coltoxml ades_tables false f_a4179_radar_mpc with Written (Elem t a x ks) => map without_blanks ks = map without_blanks (xkids f_a4179_radar_xml) | _ => False end.
Proof. vm_compute. reflexivity. Qed.
(** a4179_radar.xml gives a4179_radar.psv, character by character *)
Example test_radar_psv : xmltopsv ades_tables f_a4179_radar_xml = Ok f_a4179_radar_psv.
Proof. vm_compute. reflexivity. Qed.
