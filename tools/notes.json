{
 "C01": {
  "note": "all integers and all words"
 },
 "C02": {
  "note": "round trip, columns, leading zeros, rejection, injectivity"
 },
 "C03": {
  "note": "round trip for 1800-2099 as stated; C03_future_centuries_refuted: every designation of centuries 21-61 packs and reads back as a tracklet"
 },
 "C04": {
  "note": "round trip 2025-2035 and rejection above the limit as stated; C04_other_years_refuted gives the failures outside"
 },
 "C05": {
  "note": "with and without a number"
 },
 "C06": {
  "note": "round trips, columns, rejections; _refuted theorems give the parts that fail (1I, type letter lost, half-months I and Z)"
 },
 "C07": {
  "note": "round trips, columns, rejections"
 },
 "C08": {
  "note": "exact ambiguity condition; 8 characters lose the first"
 },
 "C09": {
  "note": "all triples"
 },
 "C10": {
  "note": "kinds are read off the identifier text by PackSpec.perm_kind/prov_kind"
 },
 "C11": {
  "note": "all strings of code points below 256"
 },
 "C12": {
  "note": "iff: PackSpec.lossy is the exact set of readable 12-column words (without newline) that are not written back"
 },
 "C13": {
  "note": "multi-character arguments of packProgID are outside the statement"
 },
 "C14": {
  "note": "exact set of surviving numbers; exact set of packed words that survive unpack-pack"
 },
 "C15": {
  "note": "text-level"
 },
 "C16": {
  "note": "all strings, widths, positions; the code comment about the second pass is refuted"
 },
 "C17": {
  "note": "for every schema master from which the tables can be computed (allowed and required lists exactly), and the computed tables of the distributed master; _refuted: required lists miss mandatory members of a sequence and list alternatives of a choice"
 },
 "C18": {
  "note": "all files; blank lines, blanks around cells and words, permuted columns of a section with distinct column names"
 },
 "C19": {
  "note": "required names are checked in the header line only: C19_required_blank_refuted shows a row that leaves a required column empty"
 },
 "C20": {
  "note": "iff with a grammar of PSV files that has no state machine; C20_complete_refuted: a file may end inside a block, and a header may name obsBlock elements"
 },
 "C21": {
  "note": "the exception for too many fields is NameError, not RuntimeError (the message uses an undefined global)"
 },
 "C23": {
  "note": "every second file that starts with a version line fails, after any first conversion that produced an element"
 },
 "C24": {
  "note": "PSV reader"
 },
 "C25": {
  "note": "all sequences of operations; copyTree(-1), which the documentation offers, is always an error"
 },
 "C22": {
  "note": "RoundSpec.writable is the set of trees; C22_*_refuted: trees outside it that are not preserved"
 },
 "C30": {
  "note": "five precisions, 12 columns; accepted set characterised exactly; floats modelled as exact rationals rounded to 53 bits; C30_range_refuted: hours are not range-checked"
 },
 "C31": {
  "note": "five precisions, 12 columns, sign of zero kept; accepted set characterised exactly; C31_range_refuted: degrees are not range-checked"
 },
 "C29": {
  "note": "exact: 100 of the 10^6 fractions fail (C29_whole_seconds_refuted), all others round-trip; radar separately; accepted set characterised"
 },
 "C32": {
  "note": "range theorems for everything that comes from 80-column text; C32_refuted: arbitrary XML values can show 60"
 },
 "C26": {
  "note": "exact characterisation of decoding; columns read back for all six kinds of line; _refuted: columns past 80 are ignored at file level, a nonexistent day raises ValueError and stops the whole conversion"
 },
 "C27": {
  "note": "records handed on are exactly those of Mpc80Spec.records; _refuted: mismatched pairs raise NameError and nothing is written, an orphan first line drops the next record too"
 },
 "C28": {
  "note": "radar lines of at least 61 columns; _refuted: leading delay digits stay in the Doppler copy, a short (blank) line aborts the default mode"
 },
 "C39": {
  "note": "mpc80coltoxml writes the document of DocSpec (rows, context, blocks) for headerless files and for files of header/data groups; the exceptions are proved as _refuted theorems."
 },
 "C33": {
  "note": "every line written has its fields in the columns of Line80Spec and is 80 columns wide when the values fit; _refuted: too long values make wider lines, observations without 80-column form"
 },
 "C40": {
  "note": "texts of arbitrary (non-80-column) values: nearest sexagesimal representation, or 60 in the seconds"
 },
 "C37": {
  "note": "on trees (xmltodict's parse and unparse); the JSON text is C53; XML escaping not modelled; _refuted: order between differently named siblings, carriage returns in texts"
 },
 "C38": {
  "note": "for every converter that reads its input as text in the input encoding; utf-8 and latin-1 proved lossless; _refuted: carriage returns on standard output, converters that read raw bytes"
 },
 "C36": {
  "note": "exact description of both languages and of the gap; facets of non-text types are arbitrary; XSD patterns read by XsdPattern.pattern"
 },
 "C35": {
  "note": "schemas are computed from the master by a model of the XSLT and shown equal to the distributed files; every facet reading; xsi attributes not covered"
 },
 "C34": {
  "note": "whole files, headers or not, both ways; code tables; nine refuted variants. The XML is the element tree, its serialisation is not modelled"
 },
 "C41": {
  "note": "iff characterisations for every facet interpretation F; structure of documents from 80 columns composed with C39; which texts are good values is left to F here; C41_any_* state the same for records with arbitrary children (order, repetition)"
 },
 "C42": {
  "note": "shape of every printed file; the alignment of bars needs the first value of a column to be the widest before its point, the exception is C42_bars_refuted"
 },
 "C43": {
  "note": "iff for files without headers and for files of header/observation blocks, for every reading of the facets that is right for strings, decimals, integers and UTC times (C43_reading: there is one); the C43_*_refuted theorems are lines that are converted to invalid documents"
 },
 "C44": {
  "note": "iff for every tree and every setting; the lines of single records are those of C33; the C44_*_refuted theorems show records without lines, records written twice and the treatment of station 244"
 },
 "C45": {
  "note": "equality of the schema trees after removing annotations, for all masters meeting pair_master (checked for adesmaster.xml); escaping of markup characters by the text-producing style sheets is not modelled (the master has none)"
 },
 "C46": {
  "note": "lxml is a parameter (parse, compile) assumed to validate the language defined in XsdSpec; terminal output is not modelled; files are Latin-1 code points"
 },
 "C47": {
  "note": "iff for every described file and every facet reading F; C47_described shows that exactly the converted files are described; the C47_*_refuted theorems list what the converter lets pass"
 },
 "C48": {
  "note": "for every facet reading F that respects string facets and the lexical spaces of the numeric types; documents with local use elements and blank optional texts are covered by C48_said (SaidSpec.said is the document without them); psv_can (LexSpec) lists what PSV cannot express, and the C48_*_refuted theorems show a valid document for each clause, among them a time with a bar let through by the unescaped dot of LeapSecondsHelp"
 },
 "C49": {
  "note": "iff for every submit-valid document under every facet reading with reads_values; hypothesis plain_time excludes leap seconds (refused by strptime, see C49_every_submission_refuted) and times dateTime allows beyond it (hour 24, years before 1600); C49_distinct_refuted shows different valid submissions that are written alike (times a day apart, cut-off digits and trkSub characters)"
 },
 "C50": {
  "note": "iff for the legible lines and exact description of what comes back, for every submit-valid document under every facet reading with reads_values; documents with and without header lines (C50_blocks, C50_document); records of one line and of two lines (pos1 given, position fitting its columns); blocks of which nothing is read are covered by C50_merged; artificial satellites are not covered by the positive theorems (C50_artificial_refuted: lost, or read as something else); C50_whose_header_refuted: when nothing of a block is read, the next block's records come back under its header; C50_same_header_refuted: a submitter with the institution first (allowed by xs:all) comes back with the two swapped; C50_valid_again_refuted: a telescope without a name is lost, so the document that comes back is not valid; C50_every_record_refuted and C50_same_record_refuted show valid records that are lost or changed; C50_same_position_refuted: a position longer than its columns is cut off or takes the record with it; C50_next_record_refuted: a record of a roving observer at another station than 247 is lost together with the record after it"
 },
 "C51": {
  "note": "exact order and depth, and injectivity, for all listable documents; comments and processing instructions are not modelled (their tag prints as a function object); C51_content_refuted: elements inside the values of an optical record are not shown"
 },
 "C52": {
  "note": "exact for ten ways of storing a text, ASCII-compatible files and EBCDIC; Python's utf-7 codec is a parameter and files that begin with +ADw are only covered by C52_refused; CPython's buffered StreamReader is modelled (compared with CPython on 300 files); C52_undeclared_refuted, C52_soon_refuted, C52_blanks_refuted, C52_elsewhere_refuted show files where the report differs from what XML says"
 },
 "C53": {
  "note": "exact characterisation of the reader against an inductive grammar, for Latin-1 texts; a \\u escape of a character above U+00FF has no result in the model, the recursion limit is not modelled, Python's reading of number literals and str() of containers are parameters that do not matter; C53_same_key_refuted: a repeated key loses a record"
 }
}