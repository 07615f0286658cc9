# Formal model of IAU-ADES/ADES-Master in Rocq (Coq 8.16.1)

What is modelled, how each property of `properties.jsonl` is stated and proved, what is trusted.
`MANIFEST.json` maps each property to its theorems.

## 1. Shape of the development (`rocq/theories/`)

* `X.v` (model): computable Gallina functions mirroring the Python functions branch by branch; every
  definition cites the file and lines it models and says what it simplifies. No proofs.
* `XSpec.v`: small specifications, written from the published format or from the English property,
  without calling the model's helpers (they share only the language layer PyStr: strings as lists of
  characters, decimal numerals, blanks).
* `XProofsN.v`: lemmas. `PropsX.v`: the property theorems `Cnn_*`, each followed by an `Example` showing a
  concrete case that meets its hypotheses, and `Print Assumptions` for each.
* `_partial` marks a theorem that proves part of a property (none at present). `_refuted` marks a theorem that
  exhibits inputs for which the natural reading of a claim fails for the shipped code; the property text in
  `properties.jsonl` states the corrected claim.

| layer | models | model files | specification files |
|---|---|---|---|
| Python strings, `int()`, `str()`, `strip`, `split`, slices, exceptions | language | PyStr | – |
| Python `re` (`match`, groups, greedy backtracking) | language | PyRe | PyReProofs.`Mat`, PyReInv (inversion), FmtRe (fixed formats) |
| binary64 arithmetic, `float()`, `%f` formatting | language | PyFloat | PyFloatProofs |
| text files, universal newlines, the "drop last character" idiom | language + callers | FileLines, PsvLines | – |
| ID packing/unpacking, references, program codes | packUtil.py | PackUtil | PackSpec |
| code tables (catalogues, modes, notes) | packUtil.py:24-246 | Codes | Back80Spec |
| justification, signed numbers | adesutility.py, packUtil.py | Just | JustSpec |
| elements, ElementStack (heap of mutable elements) | xmlutility.py | Xml | XmlSpec |
| element tables | xslt/util/tableades.xslt, adesutility.py:readAdesTables/makeADESElement | AdesTables, Master (generated by tools/gen_master.py from xml/adesmaster.xml), AdesMasterTables | TablesSpec, TablesSpec2 |
| PSV reader | psvtoxml.py | PsvToXml | PsvSpec, PsvSpec2 |
| PSV writer | xmltopsv.py | XmlToPsv | RoundSpec |
| dates, RA, Dec | sexVals.py | SexVals | SexSpec |
| 80-column reader | mpc80coltoxml.py | Mpc80 | Mpc80Spec (lines, pairs), DocSpec (document) |
| 80-column writer | xmltompc80col.py | XmlToMpc80 | Line80Spec, Back80Spec |
| schema generation | xslt/xsd/{submit,general}xsd.xslt | Schema, XsdFiles (generated by tools/gen_xsd.py from xsd/*.xsd) | SchemaSpec |
| schemas for people | xslt/xsd/{submit,general,distrib}humanxsd.xslt | HumanSchema | HumanSpec |
| validators | valutility.py, valsubmit.py, valgeneral.py, valall.py, validate.py | ValUtility, MasterDocs (generated by tools/gen_masterdocs.py: the master with its docs) | ValidatorSpec |
| XSD validity | the XSD language (lxml's validator) | XsdSpec (validity), XsdPattern (regular expressions), XsdMatch and SchemaCheck (sound checkers for examples) | IdSpec |
| JSON converters | xmltojson.py, jsontoxml.py over xmltodict | Json | JsonSpec |
| stdin/stdout plumbing | convertutility.py | Pipe | PipeSpec |
| listing of a document | readxmlpy.py | ReadXml | ReadXmlSpec |
| encoding of a file | getencoding, and CPython's codecs.StreamReader.readline with the codecs ascii, utf-8, utf-16, utf-32, cp500 | GetEncoding | EncSpec |

### Modelling conventions
* **Strings** are `list ascii`: every code point below 256, exactly. Code points above 255 are not modelled
  (for these `\d`, `int()` and `strip()` accept more characters than the model's).
* **Exceptions** are values `Ok v | Err k` with `k` the Python class, because callers catch only `RuntimeError`.
  What a writer had written before an exception is not modelled.
* **Regular expressions** are parsed in Coq from the very text of the Python source and run by a backtracking matcher
  with Python's priorities (leftmost alternative, greedy repetition, `$` before a final newline).
* **Floats** are a sign and an exact rational; every operation is the exact one followed by rounding to 53 bits,
  half to even, with unbounded exponent (no overflow, underflow, inf, nan).
  `log10` and `pow` are used only at powers of ten, where libm is assumed exact (stated in SexVals.v).
  `strptime`/`strftime` are modelled for the one format used (regular expression of CPython's `_strptime`, `%Y` of four digits).
* **XML** is the element tree: tags, attributes, text, children. Parsing and serialisation by lxml, comments, processing
  instructions, tails and namespaces are not modelled.
* **Global state** (psvtoxml's module variables) is an explicit argument and result.
* Diagnostics printed on the terminal are not modelled.

### What is not modelled
argument parsing of the command lines; testit.py, xxx80y.py, unittest, writexml, writexmlpy, applyxslt, maketexfiles (test
drivers, fixed examples and one-line scripts; writexmlpy mixes tabs and blanks and is no valid Python 3); Python's codec utf-7 (a parameter of C52's
model, which C52's positive theorems do not use); the C and Fortran programs; packUtil's `testCases`/`testPackedRoundTrip` and `main`; packUtil's `packImplicitDecimal`/`unpackImplicitDecimal` (unused); the
LaTeX/HTML stylesheets; lxml and xmltodict themselves (their documented behaviour on trees is part of the model: `Json.v`, `XsdSpec.v`).

## 2. Property by property

* **C01–C08, C12 (identifiers)** Model PackUtil; the texts of designations are generated by PackSpec from numbers and letters.
  Symbolic execution of the regex matcher on strings constrained by character classes; base-62 arithmetic by lia.
  C12 is an iff with the exact set of lossy words.
* **C09 (12 columns), C10 (mismatches), C11 (unpacking total)** All success branches of packTupleID/unpackPackedID; group lengths come from
  soundness of the matcher (`PyReProofs.rep_sound`, `re_match_mat`): a captured group is in the language of its sub-expression.
* **C13** finite domain of characters by computation, lifted to all strings. **C14** arithmetic and decimal printing.
* **C15, C16** list lemmas over Just.
* **C17** tables of an arbitrary master: inductive relations `mentions` and `marks` read the definitions top to bottom; the required
  list is characterised exactly. Theorems `C17_schema_*` relate the tables of the distributed master with every valid document.
* **C18–C21** state machine over lines; C20 is an iff with a grammar of files (PsvSpec2) that has no state machine.
* **C22** printing with any widths followed by reading; split/join/padding lemmas over RoundSpec.writable.
* **C23, C24** history and last-line laws, for all files.
* **C25** the heap-based stack refines a tree building specification (`outline`) for all operation sequences. The names and texts it takes are
  those of XML 1.0 (NameSpec: ranges of characters; comparison of all 256).
* **C26–C28** line decoding as an iff with Mpc80Spec layouts; pair machine against `records`; splitting radar pairs.
* **C29–C32, C40** binary64 error analysis in Q: round trips for all texts of each precision (intervals, not enumeration, except
  the finite sweep over day fractions of C29), ranges, and accuracy for arbitrary values.
* **C33** columns of every line written, for every record that has an 80-column form.
* **C34** composition of C26–C33, C39: file → tree → same file, with and without headers; nine `_refuted` variants show which
  conditions are needed.
* **C35** both schemas are computed from the master by a model of the stylesheets and shown equal (by computation) to the
  distributed xsd files; inclusion of the languages by induction on documents for every facet interpretation.
* **C36** languages of the identifier patterns versus the packer, both directions, with the exact gap.
* **C37** trees → dict → trees by induction. **C38** file system as a map; converters are arbitrary functions of decoded text.
* **C39** the tree built by mpc80coltoxml equals the document of DocSpec, for headerless files and for files of header/data groups.
* **C41** the content models are compiled to a finite form whose decision procedure is proved exact (RecordProofs1–3); each record
  kind is then compared with `complete` (RecordSpec) for all 2^n sets of fields symbolically; headers, data and blocks by inversion
  of the particles (RecordProofs4–8); composed with C39 (RecordProofs9, 10). Vocabulary: RecordSpec, ValidSpec.

* **C42** LayoutSpec describes a printed file by chunks and columns; the width/position passes over the records are shown to
  give columns in which every cell is `filled`; the alignment of the bars follows from the widths.

* **C43** the value spaces of decimals, integers and UTC times are defined in ValueSpec (`reads_values`, a condition on the
  schema processor); each simple type used by the fields is related to the columns it comes from (ValueProofs1–13: designations,
  stations, angles, magnitudes, references, catalogues, radar numbers), then composed with C41 (ValueProofs14–18).
* **C44** Print80Spec describes the lines part by part; an invariant relates the pending records (global state) to the run of
  records before the current part; printing depends only on the texts of the fields (extensionality).
* **C45** structural induction over the master: each template of a human style sheet gives, up to annotations, what the machine
  template gives, for the marks the master's own documentation allows (`pair_master`); refutations show the marks for which it does not.
* **C46** the validators are modelled over arbitrary `parse` (lxml.etree.parse) and `compile` (lxml.etree.XMLSchema); `processor F
  compile s` says that lxml validates the language of the schema tree `s`. The reports follow from C35 (inclusion) and C45 (pairs); the
  declaration check is an exact characterisation of the text through newline translation, line splitting, `strip` and the pattern.
  valades (valades.py) takes the reading of the style sheet file as a further parameter with the four sheets as values.
* **C47** C20 (the tree of a PSV file) composed with C41 (what the schemas accept): for every described file, an iff between validity of
  the converted tree and conditions on its version, sections, rows and ending, for every reading `F` of the facets.
* **C48** C41 extended to records with arbitrary children (RecordProofs11, 12); the derivations of each field type are listed by a
  computable function proved complete (LexProofs1), so "no bar", "not empty", "no mark in front", "at most one point" are checked once
  per field of both schemas (LexProofs2) and every valid, expressible document is `writable` in the sense of C22 (LexProofs3, 4).
  Elements PSV leaves out (SaidSpec, SaidProofs): they never enter subDict, so the file is that of the document without them, and
  completeness (RecordSpec) is monotone in them, so that document is valid too; C48_round_trip applies to it.
* **C49** The schema facts of C41 (which fields a valid submission has, which values they take: Submit80Proofs1, 3) are put into the
  branches of printOpticalLine (Submit80Proofs2, 4), the accuracy theorems of C40 and the columns of C33 (Submit80Proofs5), and the
  decomposition of documents of C44 (Submit80Proofs6). XsdMatch2 is a sound checker of values used for the examples only.
* **C50** The line written by C49 is cut into its columns again (Return80Proofs1-4), each column is decoded by the theorems of C26,
  C29-C32 (Return80Proofs2, 3, 5), the element's values are read off the field table (Return80Proofs6); a packed designation is never
  taken for a header line (Return80Proofs7), every other failure is the RuntimeError that the converter skips (Return80Proofs8); lists and
  documents by induction with C39 and C44 (Return80Proofs9); records of two lines: the
  second line is laid out, agrees with the first in name, time and station and its positions are read back (Return80Second, Return80Second2),
  so that the pair is joined as C27 says; documents with header lines by C39_blocks, block by block (Return80Proofs10),
  and the headers by C41_header_parts: every part but the comments gives one line, so that no keyword is repeated (Return80Proofs11);
  blocks of which nothing is read by the same induction with the pending header lines as an argument (Return80Blocks).
* **C51** The listing is cut into lines (no text has a line end); a line into blanks, name, text and attributes (the name has no blank
  or colon, the text no brace); a line that follows an element is at most as deep, which gives back the tree (induction on it).
* **C52** The decoders are functions that give a character, ask for more bytes, or fail; for each encoding: the bytes of a character decode
  to it and a proper prefix of them asks for more (arithmetic), so a prefix of the file decodes to a prefix of the text (EncProofs2). The
  reader's loop keeps the invariant that its line is such a prefix, and stops at the first separator (EncProofs1, parametrised over how far
  bytes have been read: to the end, or at most 2n+73 bytes for ASCII). Splitting at `encoding=` by case analysis on overlaps (EncProofs3).

* **C53** `JsonText.v` models json.dump (indent=4, ensure_ascii=False) and json.load character by character after CPython's encoder and
  scanner; `JsonTextSpec.v` is the grammar as mutually inductive relations. The reader takes a text iff the grammar has it: completeness by
  induction on the derivation with fuel 2·length+1 (a number must be followed by a character that cannot continue it), soundness by
  induction on the fuel. The text that is written is derived in the grammar by induction on the value; universal newlines turn a derivation
  into one with other white space, because strings and numbers contain no carriage return. The value of a document has no numbers and
  no key twice (from the lemmas of C37), so C37 carries over to the text.

### Tests of the model

`Conformance.v` runs the model on the data of the project's own tests (`TestData.v`, written by `tools/conform.py` from /repo/tests;
the data files are read as text, no project code is run): all packing examples of test_packUtil.py in both directions, the program
codes, the exact expected output of band_conversions.xml, 319.psv -> 319.xml, 319.xml -> 319.json -> XML -> 319.json, the 80-column
files, the validation verdicts, and from /repo/attic/old_tests the radar file a4179 (80 columns -> XML, XML -> PSV character by
character). Outside the build, the model was also compared with the other expected results of attic/old_tests (26 XML -> PSV files,
header/newheader/test.mpc, 47 valid and invalid documents); every difference is a change of the source since (column widths, version
2022, three decimals of the seconds, program codes, `UNK` bands, references, delays in seconds, tighter patterns), or the dateTime
values that the reading of the schema in PropsValue leaves open (month 13, 31 April). The model of StreamReader.readline (GetEncoding)
was compared with CPython 3.11 on 300 random files in eight codecs, with line lengths around the buffer sizes and broken bytes: no difference. These are tests, not proofs; they guard against a model that is not the program.

## 3. Trusted base
* The Coq 8.16.1 kernel (with `vm_compute`). `Print Assumptions` of every property theorem prints "Closed under the global
  context": no axioms, ours or the standard library's, are used. (The `Coq.ssr.ssrunder` module type fields that a
  whole-library scan lists belong to the standard library and are not used by any theorem.)
* The reading of the Python source and stylesheets (citations in comments), of the Python semantics in PyStr, PyRe, PyFloat,
  of XSD in XsdSpec/XsdPattern, of xmltodict in Json.
* The generators tools/gen_master.py, tools/gen_masterdocs.py and tools/gen_xsd.py, which transcribe XML files to Coq terms.
* XsdSpec leaves facet checking of non-string types to an arbitrary interpretation `F` (theorems hold for all `F`; C43, C49 and C50 for all
  `F` with `reads_values F`, C48 with `reads_texts F` and `reads_literals F`); xsi:*
  attributes and restrictions of unions do not occur in the schemas and are not covered.

## 4. Mutation testing
`seeded/run.py` applies the edits of `seeded/mutants*.json` to a scratch copy, rebuilds and logs to `seeded/LOG.jsonl`
which theorems fail; surviving mutants led to stronger theorems (see the log).
