{"id": "C01", "title": "Base-62 coding is a bijection", "statement": "radix62_4(n) is '~' followed by four characters of the alphabet 0-9A-Za-z, most significant first, whose base-62 value is n modulo 62^4; unRadix62_4 reads any such five-character word back to its value, so the two functions are mutually inverse on 0 <= n < 62^4 and on all well-formed words.", "quantifier": "all integers n (including negative ones) and all words ~wxyz over the alphabet", "why_tests_cant": "14.8 million words and unboundedly many integers", "anchors": ["Python/ades/packUtil.py:radix62_4", "Python/ades/packUtil.py:unRadix62_4", "Python/ades/packUtil.py:packLetters"]}
{"id": "C02", "title": "Minor-planet numbers survive packing", "statement": "A permID that is the decimal numeral of n packs iff 1 <= n <= 15396335; the packed ID then has 12 columns, unpacks to the same number with no provisional ID and no tracklet, and different numbers get different packed IDs. Every other numeral is rejected with RuntimeError.", "quantifier": "all natural numbers n, and all decimal numerals (leading zeros included)", "why_tests_cant": "15.4 million legal values, unboundedly many illegal ones; boundaries 619999/620000 and 15396335/6", "anchors": ["Python/ades/packUtil.py:packTupleID", "Python/ades/packUtil.py:unpackPackedID"]}
{"id": "C03", "title": "Provisional designations survive packing", "statement": "Every designation 'YYYY HO[n]' with 1800 <= YYYY <= 2099, half-month letter H, order letter O and cycle 1 <= n <= 619 (or absent) packs to 12 columns in the MPC layout (century letter, two year digits, half-month, two-column cycle, order) and unpacks to itself. The property fails for the centuries 21..61 which pack but are not readable.", "quantifier": "all years, half-months, orders and cycle counts", "why_tests_cant": "product of ~300 years x 24 x 25 x 620 designations", "anchors": ["Python/ades/packUtil.py:packTupleID", "Python/ades/packUtil.py:unpackPackedID", "Python/ades/packUtil.py:minorplanetProvIDRegex", "Python/ades/packUtil.py:minorplanetPackedIDRegex"]}
{"id": "C04", "title": "Extended provisional designations survive packing", "statement": "Every designation 'YYYY HOn' with 2025 <= YYYY <= 2035 and 620 <= n up to the documented maximum packs to '_', a year letter, the half-month and a four-column base-62 rank, and unpacks to itself; larger n are rejected. (Outside 2025..2035 packing succeeds although unpacking is impossible, and the century is dropped so 18YY, 19YY and 20YY collide.)", "quantifier": "all years, half-months, orders and all cycle counts n >= 620 without bound", "why_tests_cant": "about 14.8 million ranks per half-month, unboundedly many rejected counts", "anchors": ["Python/ades/packUtil.py:packTupleID", "Python/ades/packUtil.py:unpackPackedID"]}
{"id": "C05", "title": "Survey designations survive packing", "statement": "Every 'NNNN P-L', 'NNNN T-1', 'NNNN T-2', 'NNNN T-3' packs to the survey code followed by the four digits and unpacks to itself.", "quantifier": "all four-digit numbers and all four surveys", "why_tests_cant": "40000 cases plus combinations with a permID", "anchors": ["Python/ades/packUtil.py:packTupleID", "Python/ades/packUtil.py:unpackPackedID", "Python/ades/packUtil.py:minorplanetSurveyProvIDRegex"]}
{"id": "C06", "title": "Comet designations survive packing", "statement": "Comet provisional designations T/YYYY H[O]n (T in C,D,P,X), comet numbers nP / nD, numbered comets with fragments nP-X / nP-XY and provisional fragments T/YYYY Hn-X pack to 12 columns and unpack to themselves whenever the number is in range; an out-of-range number is rejected. Interstellar numbers (1I) pack but never unpack.", "quantifier": "all comet types, years with a representable century, half-months, numbers, fragments", "why_tests_cant": "several million designations", "anchors": ["Python/ades/packUtil.py:cometProvIDRegex", "Python/ades/packUtil.py:cometfragmentProvIDRegex", "Python/ades/packUtil.py:cometPermIDRegex", "Python/ades/packUtil.py:cometPackedIDRegex", "Python/ades/packUtil.py:packTupleID", "Python/ades/packUtil.py:unpackPackedID"]}
{"id": "C07", "title": "Natural-satellite designations survive packing", "statement": "Numbered satellites 'Planet n' (1 <= n <= 999) and provisional satellites 'S/YYYY P n' (1 <= n <= 619) pack to 12 columns and unpack to themselves; 0 or too-large numbers are rejected, and satellites of asteroids are always rejected.", "quantifier": "all planets, years, numbers", "why_tests_cant": "hundreds of thousands of designations and unbounded rejected numbers", "anchors": ["Python/ades/packUtil.py:satelliteProvIDRegex", "Python/ades/packUtil.py:satellitePermIDRegex", "Python/ades/packUtil.py:asteroidsatellitePermIDRegex", "Python/ades/packUtil.py:satellitePackedIDRegex"]}
{"id": "C08", "title": "Tracklet identifiers survive packing exactly when they are unambiguous", "statement": "A tracklet ID of 1 to 7 letters, digits or hyphens packs to columns 6-12 left-justified and unpacks to itself unless it has the shape of a packed provisional designation; an 8-character one loses its first character; longer or other-character ones are rejected.", "quantifier": "all character strings used as tracklet ID", "why_tests_cant": "63^7 legal strings and all illegal ones", "anchors": ["Python/ades/packUtil.py:trksubRegex", "Python/ades/packUtil.py:packTupleID", "Python/ades/packUtil.py:unpackPackedID"]}
{"id": "C09", "title": "A packed identifier always has 12 columns", "statement": "Whenever packTupleID returns, for whatever (permID, provID, trkSub) triple of strings or Nones, the result has exactly 12 characters.", "quantifier": "all triples of optional strings, well-formed or not", "why_tests_cant": "unbounded inputs; one short or long ID shifts every later column of the 80-column record", "anchors": ["Python/ades/packUtil.py:packTupleID"]}
{"id": "C10", "title": "Incompatible number/designation pairs are rejected", "statement": "packTupleID refuses a triple whose permID and provID are of different kinds (minor planet, comet, comet fragment, satellite), or whose fragments differ; when both agree the packed form is the packed permID's first five columns followed by the packed provID's last seven.", "quantifier": "all pairs of accepted permID and provID", "why_tests_cant": "product of two infinite sets", "anchors": ["Python/ades/packUtil.py:packTupleID"]}
{"id": "C11", "title": "Unpacking never yields an empty identification", "statement": "unpackPackedID either raises or returns a triple in which at least one component is a non-empty string; it never raises anything but RuntimeError.", "quantifier": "all strings", "why_tests_cant": "all 12-column strings, plus shorter and longer ones", "anchors": ["Python/ades/packUtil.py:unpackPackedID"]}
{"id": "C12", "title": "Reading a packed ID and re-packing it gives the same columns", "statement": "For every 12-column packed ID without a newline that unpacks, packing the unpacked triple gives back the same 12 columns, except for exactly these: an A/ designation in minor-planet columns without a number (order column 0); a tracklet behind a minor-planet number; and, with a comet or satellite letter in column 5, type I, years below 1000, count 00 with a fragment letter or of a satellite, and A/ objects with a fragment letter.", "quantifier": "all 12-character strings", "why_tests_cant": "62^12 strings", "anchors": ["Python/ades/packUtil.py:unpackPackedID", "Python/ades/packUtil.py:packTupleID", "Python/ades/packUtil.py:testPackedRoundTrip"]}
{"id": "C13", "title": "Program codes are a bijection", "statement": "packProgID maps each of the 94 one-column program codes to a distinct two-character base-62 code that unpackProgID maps back; every other single character is refused; unpackProgID returns blank for any code above 93 and refuses non base-62 characters.", "quantifier": "all characters and all strings", "why_tests_cant": "exhaustive plus all malformed strings", "anchors": ["Python/ades/packUtil.py:packProgID", "Python/ades/packUtil.py:unpackProgID", "Python/ades/packUtil.py:programCodesArray"]}
{"id": "C14", "title": "Publication references survive packing", "statement": "packRef gives five columns for every MPC/MPS reference; for MPC n with n < 110000 or 200000 <= n < 110000+62^4 and for MPS n with n < 259999 or 260000 <= n < 260000+62^4, unpackRef(packRef(ref)) names the same publication and number. The claim for all n is false (MPC 110000..199999, MPS 259999).", "quantifier": "all page/circular numbers", "why_tests_cant": "15 million references; the failing window was never tested", "anchors": ["Python/ades/packUtil.py:packRef", "Python/ades/packUtil.py:unpackRef"]}
{"id": "C15", "title": "Signed-number columns survive reformatting", "statement": "packSigned removes only blanks: for a sign and a blank-padded number it returns the sign glued to the number; unPackSigned puts it back in the requested width with the decimal point in the requested column and re-reading gives the same value text.", "quantifier": "all signs, paddings, digit strings that fit", "why_tests_cant": "all paddings and widths", "anchors": ["Python/ades/packUtil.py:packSigned", "Python/ades/packUtil.py:unPackSigned"]}
{"id": "C16", "title": "Justification never alters or truncates a value", "statement": "applyPaddingAndJustification returns the value with only blanks added on either side, at least as wide as asked (exactly as wide when the value fits); for 'D' the decimal point (or the end of an integer) is at the returned position, and the returned width and position never shrink below those asked for. The code comment's claim that a second pass with the final width and position never widens is false.", "quantifier": "all strings, widths, codes, decimal positions", "why_tests_cant": "all values/widths", "anchors": ["Python/ades/adesutility.py:applyPaddingAndJustification"]}
{"id": "C17", "title": "Element-order tables contain each element once, in a stable order", "statement": "The allowed-element list computed from the schema master for every type has no duplicates, contains exactly the elements reachable from the type through groups, and keeps the relative order of last occurrences. The required list contains exactly the elements without a use attribute that come after the end of a group (or before any group begins), so it is not the list of elements required outside choices: alternatives of a top-level choice are listed, mandatory members of a sequence are not. For the distributed master, every record in a valid document has its children in table order and contains the required ones.", "quantifier": "all schema tables", "why_tests_cant": "the table code is run on one schema; the property is about every schema", "anchors": ["Python/ades/adesutility.py:readAdesTables", "xml/adesmaster.xml", "xslt/util/tableades.xslt"]}
{"id": "C18", "title": "PSV parsing ignores blank lines, padding and column order", "statement": "Converting a PSV file gives the same XML when blank lines are inserted or removed, when blanks are added or removed around any field, and when the columns of a data section are permuted together with its header line.", "quantifier": "all PSV files, all paddings, all permutations", "why_tests_cant": "unbounded files and column permutations", "anchors": ["Python/ades/psvtoxml.py:processPSVLine", "Python/ades/psvtoxml.py:handleData"]}
{"id": "C19", "title": "PSV parsing emits only allowed elements, once each, in schema order, never empty", "statement": "Every record element built from a PSV data line has children whose names form a subsequence of the schema order of its type, with non-empty trimmed text equal to the corresponding field; a header line without the required columns of some record type is refused. (A row may still leave a required column empty.)", "quantifier": "all header lines and data lines", "why_tests_cant": "unbounded", "anchors": ["Python/ades/psvtoxml.py:handleData", "Python/ades/adesutility.py:makeADESElement"]}
{"id": "C20", "title": "The PSV state machine always builds a well-formed ADES tree", "statement": "For every sequence of lines, the reader either stops with an error or ends with a tree ades(version) whose children are obsBlock(obsContext, obsData) groups or records of the kinds the format allows, namely the tree the grammar of PSV files assigns to the lines; only the last obsBlock may lack its obsData. The element stack is never popped below its root.", "quantifier": "all line sequences", "why_tests_cant": "unbounded histories", "anchors": ["Python/ades/psvtoxml.py:processPSVLine", "Python/ades/adesutility.py:ElementStack"]}
{"id": "C21", "title": "PSV files with too many fields are rejected, with fewer are padded", "statement": "A data line with more fields than its header stops the conversion whatever the state (with NameError, not the RuntimeError the code constructs); with fewer fields the missing columns are treated as absent.", "quantifier": "all data lines", "why_tests_cant": "unbounded", "anchors": ["Python/ades/psvtoxml.py:handleData"]}
{"id": "C22", "title": "XML to PSV to XML preserves observation records", "statement": "Every ADES tree of optical, offset, occultation and radar records and complete obsBlocks is printed as PSV without error and the printed file is read back as the same tree (children in schema order, texts trimmed, blank children dropped), whatever column widths were chosen, provided: the values are one-line and without '|', a value outside the free-format columns has at most one '.', only remarks starts with '#' or '!', required values are there, and each record has a value that does not start with a letter. Trees read from PSV come back identical. Outside these conditions printing can fail, lose or repeat records.", "quantifier": "all trees, all record sequences, all widths", "why_tests_cant": "unbounded documents", "anchors": ["Python/ades/xmltopsv.py:printDataDicts", "Python/ades/psvtoxml.py:handleData"]}
{"id": "C23", "title": "A PSV conversion leaves state behind", "statement": "Calling the PSV converter twice in one process does not give the same result as calling it once (module-level state is kept); a caller that needs two conversions must start two processes.", "quantifier": "all file pairs", "why_tests_cant": "history property", "anchors": ["Python/ades/psvtoxml.py:psvtoxml", "Python/ades/psvtoxml.py:state"]}
{"id": "C24", "title": "The last line needs its newline", "statement": "Reading a file whose last line has no trailing newline silently drops that line's last character, for PSV and 80-column input alike.", "quantifier": "all files", "why_tests_cant": "depends on every last line", "anchors": ["Python/ades/psvtoxml.py:psvtoxml", "Python/ades/mpc80coltoxml.py:parseFile"]}
{"id": "C25", "title": "The element stack is a zipper", "statement": "Any sequence of push / add / pop operations on the element stack that does not fail produces the tree a recursive-descent construction would; pop fails iff only the root is left, and taking the tree returns everything added. The names and texts it takes are exactly the names (without colon) and texts of XML 1.0.", "quantifier": "all operation sequences", "why_tests_cant": "unbounded histories", "anchors": ["Python/ades/adesutility.py:ElementStack"]}
{"id": "C26", "title": "80-column decoding splits every column exactly once", "statement": "A line that decodes is reproduced exactly by concatenating its decoded fields in column order; lines longer than 80 columns, with unknown note or program codes are refused.", "quantifier": "all lines", "why_tests_cant": "all 80-character strings", "anchors": ["Python/ades/mpc80coltoxml.py:decode80ColumnDataLine"]}
{"id": "C27", "title": "Two-line 80-column records are emitted only as matched pairs", "statement": "An R, S or V record reaches the XML output only together with the r, s or v line that follows it with the same object, date and station; lone lines never produce output.", "quantifier": "all line sequences", "why_tests_cant": "unbounded histories", "anchors": ["Python/ades/mpc80coltoxml.py:parseFile"]}
{"id": "C28", "title": "Radar lines are split without loss", "statement": "A radar pair with both a delay and a Doppler value becomes two pairs, one holding each; a pair with one value stays one pair; every other line passes through unchanged, in order; an R line not followed by r is refused.", "quantifier": "all line sequences", "why_tests_cant": "unbounded", "anchors": ["Python/ades/mpc80coltoxml.py:splitRadar"]}
{"id": "C29", "title": "80-column dates survive the round trip", "statement": "For every existing calendar date with one to six decimals of a day, the reader accepts the 17 columns, the ISO time is the right one rounded to milliseconds, and converting back gives the original text \u2014 except for 100 fractions that are whole numbers of seconds, where floating point makes it write .1000 seconds (refused with six decimals, accepted 0.1 s late with fewer). Radar dates, rounded to seconds, survive if they have at most four decimals or are nearest to a whole second. Nothing else is accepted; a day that does not exist raises ValueError.", "quantifier": "all calendar dates 1600-9999, all 1..6-digit fractions; all 17-character texts", "why_tests_cant": "10^6 fractions x all dates; floating point", "anchors": ["Python/ades/sexVals.py:checkDate", "Python/ades/sexVals.py:sexDateToISO", "Python/ades/sexVals.py:isoToSexDate"]}
{"id": "C30", "title": "80-column right ascensions survive the round trip", "statement": "Every right ascension text that fits the 12 columns in one of the five precisions (HH MM SS.s\u2026, HH MM SS, HH MM.mm, HH MM.m, HH MM, minutes and seconds below 60) is accepted, its decimal degrees are the right number up to rounding, and converting them back gives the original text; any other text of up to 12 characters is refused. (Hours above 23 are not refused.)", "quantifier": "all RAs of all precisions", "why_tests_cant": "86400*1000 values, floating point", "anchors": ["Python/ades/sexVals.py:checkRa", "Python/ades/sexVals.py:sexRaToDecRa", "Python/ades/sexVals.py:decRaToSexRa", "Python/ades/sexVals.py:checkSexagesimal"]}
{"id": "C31", "title": "80-column declinations survive the round trip", "statement": "Every declination text that fills the 12 columns with a sign and one of the five precisions (minutes and seconds below 60) is accepted, its decimal degrees are the right number up to rounding, and converting them back gives the original text including the sign of zero; any other 12-character text is refused. (Degrees above 90 are not refused.)", "quantifier": "all declinations of all precisions", "why_tests_cant": "millions of values, floating point, signed zero", "anchors": ["Python/ades/sexVals.py:checkDec", "Python/ades/sexVals.py:sexDeclToDecDecl", "Python/ades/sexVals.py:degDeclToSexDecl"]}
{"id": "C32", "title": "Sexagesimal fields stay in range", "statement": "Every ISO time and every sexagesimal text that the converters produce from 80-column input shows hours below 24, minutes and seconds below 60 (with the 100 exceptions of C29); values from elsewhere can show 60 seconds or minutes or the wrong day.", "quantifier": "all accepted 80-column fields; counterexamples for arbitrary values", "why_tests_cant": "rounding carries", "anchors": ["Python/ades/sexVals.py"]}
{"id": "C33", "title": "Emitted optical 80-column lines have 80 columns", "statement": "Every optical line emitted for a record with three-character station and in-range fields is exactly 80 columns wide with each field in its assigned columns.", "quantifier": "all records", "why_tests_cant": "unbounded", "anchors": ["Python/ades/xmltompc80col.py"]}
{"id": "C34", "title": "80-column file to XML and back is the identity", "statement": "A file of 80-column optical lines, satellite, roving-observer and radar pairs, in blocks with or without headers, whose fields are in the places the format prescribes (identification not one of the lossy ones, columns 57-65 blank, magnitude together with band, catalogue letter from the table, six-decimal radar dates, a radar reference, ...) and which mpc80coltoxml converts at all is reproduced exactly, character by character, by xmltompc80col from the XML written, with any default precisions; with --noHeader only the header lines are missing. Every catalogue letter, band, note and program code is turned back into itself. It is false for a magnitude without band, a band without magnitude, columns 57-65, unknown catalogue letters, columns 34/46/58 of satellite lines, radar pairs without reference, optical and radar records under one heading, ACK/AC2/BND/NET/NUM and repeated headers, and blocks that end up without records.", "quantifier": "all files made of such lines, both splitting options, all output options", "why_tests_cant": "cross product of all fields of all line kinds in any order, any number of lines and blocks", "anchors": ["Python/ades/mpc80coltoxml.py", "Python/ades/xmltompc80col.py", "Python/ades/packUtil.py:catCodes"]}
{"id": "C35", "title": "Submission-valid documents are generally valid", "statement": "Every document accepted by the submission schema is accepted by the general schema, and no submission-valid document contains an element marked NoSubmit.", "quantifier": "all documents", "why_tests_cant": "infinite set of documents", "anchors": ["xslt/xsd/submitxsd.xslt", "xslt/xsd/generalxsd.xslt", "xml/adesmaster.xml"]}
{"id": "C36", "title": "Identifiers the schema accepts versus identifiers that can be packed", "statement": "Every permID, provID and trkSub text that packTupleID packs on its own (and that has no newline, at most 25 characters, and satellite numbers of at most three digits) is accepted by the submission schema's identifier types; conversely an identifier accepted by the schema is packed exactly when it is not one of the listed exceptions: number 0 or beyond 15396335 (comets 9999, satellites 999), Mars and asteroid satellites, years before 1800 or from 6200 on, cycle counts beyond the packable range, comet fragments without a number, with two half-month letters or of type A, 'Axxx' designations, and '_' in tracklet names.", "quantifier": "all texts; all identifier elements at any depth of any document valid for the submission schema; every reading of the non-text facets", "why_tests_cant": "two infinite languages (schema patterns and Python regular expressions plus range checks) must be compared on all strings", "anchors": ["xml/adesmaster.xml", "Python/ades/packUtil.py"]}
{"id": "C37", "title": "JSON conversion keeps every record but not interleaving", "statement": "XML to JSON to XML keeps all elements, texts and attributes, and the order among same-named siblings; the order between differently named siblings is lost.", "quantifier": "all documents", "why_tests_cant": "infinite set", "anchors": ["Python/ades/xmltojson.py", "Python/ades/jsontoxml.py"]}
{"id": "C38", "title": "Piping equals file conversion", "statement": "Running a converter with '-' style standard input or output gives the same bytes as running it on files, and temporary files are always removed.", "quantifier": "all contents, all conversions", "why_tests_cant": "unbounded", "anchors": ["Python/ades/convertutility.py:call_with_files"]}
{"id": "C39", "title": "Headers and records of an 80-column file become blocks and elements", "statement": "Converting an 80-column file whose records come in groups (header lines, then data lines) writes one obsBlock per group, with the first line of each header keyword and all comments in its obsContext and exactly one element per data record, in order, with the columns as fields, in its obsData; data before any header become children of the root. It fails to do so (shown) for headers at the end of the file, headers after headerless data, groups whose records give no element, and records with a reference that cannot be unpacked.", "quantifier": "every file of readable lines, split or not, every sequence of records", "why_tests_cant": "unbounded histories", "anchors": ["Python/ades/mpc80coltoxml.py:convertit", "Python/ades/mpc80coltoxml.py:convertHeader"]}
{"id": "C40", "title": "Sexagesimal texts of arbitrary values are accurate", "statement": "Converting any decimal right ascension, declination or ISO time to its 80-column text with d (k) decimals prints fields that stand for the given value up to about half a unit of the last digit, with the right sign; declinations within 1e-8 arc seconds of a tie below a whole minute are excepted (a digit is lost there), 60 seconds or minutes can be shown, and a time that rounds up to midnight is printed as the start of the same day.", "quantifier": "all texts accepted as floats in range, all precisions, all ISO times with up to six decimals", "why_tests_cant": "floating-point rounding and truncation interact for every value and precision", "anchors": ["Python/ades/sexVals.py: decRaToSexRa, degDeclToSexDecl, isoToSexDate"]}
{"id": "C41", "title": "What the schemas accept, and which 80-column documents they accept", "statement": "The general and the submission schema accept a record exactly when it is complete (object, required fields, groups of fields that come together, either Doppler or delay, ...), each value is in the type of its field and, for submissions, no field reserved for distribution is given; a header exactly when its parts occur at most once, are good and the four needed parts are there; a block exactly when it has one header and then data of one kind. Consequently the document made by mpc80coltoxml from a file without headers is valid for the general schema exactly when every record is complete with good values, one from a file of header and data groups exactly when moreover each header has COD, CON, MEA and TEL and each block is all optical or all radar. Headers behind the last record or behind headerless records give invalid documents, and no document with an optical record made from 80 columns is a valid submission.", "quantifier": "all elements and attribute lists, all interpretations of simple-type facets, all 80-column files with readable lines", "why_tests_cant": "equivalence between a nested content model (sequences, choices, xsd:all) and a logical condition over all documents; composition with a converter over all files", "anchors": ["xsd/general.xsd", "xsd/submit.xsd", "xml/adesmaster.xml", "Python/ades/mpc80coltoxml.py: mpc80coltoxml, decode80ColumnDataLine"]}
{"id": "C42", "title": "Layout of a printed PSV file", "statement": "Whatever tree xmltopsv prints, the file is the version line and then, block by block, the lines of each obsContext (one line per element, one per part) and one table per run of records: a header line with the names of the fields that have a value in some record, padded to the width of their columns, and one line per record whose values stand at the left, at the right, in the middle or with their decimal points below each other as the configuration says; missing values are blanks and blanks at the ends of lines are removed. The bars of a table are below each other if in each column the first value has the most characters before its point; otherwise they may not be (shown by an example). A block without data prints the pending records again.", "quantifier": "all trees for which xmltopsv succeeds, all tables", "why_tests_cant": "column widths are computed by passes over all records of a run; alignment must hold for every combination of values and missing values", "anchors": ["Python/ades/xmltopsv.py: processDataElement, processObsBlock, processAdesElement, printDataDicts, processObsContext", "Python/ades/adesutility.py: applyPaddingAndJustification"]}
{"id": "C43", "title": "Which 80-column files become documents with valid values", "statement": "The document mpc80coltoxml writes for a file of accepted observations (single lines, satellite, rover and radar pairs) is valid for the general schema exactly when the columns of every observation hold values it takes: a designation it knows, an alphanumeric station, a right ascension below 24 h, a declination of at most 90 degrees, a plain magnitude from -5 to 35 with an alphanumeric band, a reference without '|', a catalogue other than 6, plain numbers in the position columns, and for radar one of delay and Doppler shift as short positive numbers; with headers also COD, CON, MEA and TEL must be there with proper contents and each block be all radar or all not. Converted lines that break any of these give invalid documents.", "quantifier": "all 80-column files of observations, with and without headers, both settings of --nosplit, all schema processors that read strings, decimals, integers and times as XML Schema says", "why_tests_cant": "the equivalence ranges over all column contents and all files; regular expressions, float formatting and schema patterns have to agree everywhere", "anchors": ["Python/ades/mpc80coltoxml.py: mpc80coltoxml, decode80ColumnDict", "Python/ades/packUtil.py", "xsd/general.xsd"]}
{"id": "C44", "title": "What an ADES document is written as in 80 columns", "statement": "xmltompc80col succeeds exactly on documents whose root is ades, whose parts are observations, residuals and blocks, whose blocks consist of headers and observations of one kind, and whose records can be printed; it then writes, part by part and in order, the header lines of each block (COM, COD, TEL, CON, OBS, MEA; none with --noHeader) and the lines of its records: optical and occultation records as optical lines, radar records as pairs, nothing for offsets and residuals. If each block has data the lines of a part depend on that part only. Missing precisions count as 1, 0.001 and 0.01, with --lowPrec as 10, 0.01 and 0.1. (A block without records repeats the records before it.)", "quantifier": "all element trees, all settings", "why_tests_cant": "ranges over all documents; records are kept in global state and printed when the next part starts, so every sequence of parts matters", "anchors": ["Python/ades/xmltompc80col.py: xmltompc80col, processAdesElement, processObsBlock, processDataElement, printDataDicts, processObsContext, main"]}
{"id": "C45", "title": "Schemas for people and schemas for programs agree", "statement": "valsubmit and valall claim that the submit and submithuman (general and generalhuman) schemas are functionally identical. For every master whose declarations carry the documented marks (named declarations: optional, unbounded, requiredAttribute or none; references also NoSubmit, NoSubmitDistribRequired) the human schema without its annotations is the machine schema, so both accept the same documents, and the annotations are the docs of the types in order; this covers the master of the distribution and the two .xsd files. With an unknown mark, or NoSubmit on a named element, they differ; the distribution pair differs on NoSubmitDistribRequired.", "quantifier": "all schema masters, all documents, all schema processors", "why_tests_cant": "ranges over all masters and all documents; a test compares one pair of schemas on a few documents", "anchors": ["xslt/xsd/submithumanxsd.xslt", "xslt/xsd/generalhumanxsd.xslt", "xslt/xsd/distribhumanxsd.xslt", "xslt/xsd/submitxsd.xslt", "xslt/xsd/generalxsd.xslt", "Python/ades/adesutility.py: schemaxslts", "Python/ades/valall.py"]}
{"id": "C46", "title": "Reports of the validators", "statement": "valsubmit, valgeneral, valall and validate stop with the parser's error on a file that is not XML. Otherwise their report files hold, in this order: a line that the declaration is missing exactly if the file does not begin (after white space) with <?xml ... ?> in one line, and one line per schema, '<name> is OK' or '<name> has failed: ', in the order submit, submithuman, general, generalhuman. The verdicts are those of submit.xsd and general.xsd; both schemas of a pair get the same verdict; a file that is OK for submission is OK in general; valsubmit and valgeneral agree with valall, and validate with the distributed .xsd files agrees with them. valades, given a master and a style sheet, raises DocumentInvalid exactly for the documents that the schema made from them refuses, whether the sheet is the machine-readable or the human-readable one, and agrees with valsubmit and valgeneral. (A declaration split over two lines is reported as missing; a style sheet instruction passes for one.)", "quantifier": "all files, all schema masters with the documented marks, all XML parsers and schema processors", "why_tests_cant": "ranges over all documents and texts, and over all masters; tests compare a few sample files", "anchors": ["Python/ades/valutility.py: validate_xml_declaration, validate_schema, validate_xslt, validate_xslts", "Python/ades/valsubmit.py", "Python/ades/valgeneral.py", "Python/ades/valall.py", "Python/ades/validate.py", "Python/ades/valades.py: valades"]}
{"id": "C47", "title": "Which PSV files become valid documents", "statement": "psvtoxml converts a file exactly if it is described by a version line and sections (context lines, a header line, rows). The document it makes is valid for general.xsd exactly if the version is 2022, every section holds complete rows of a known record type with values of the right types (fields of the schema, judged on the trimmed cell), sections with context lines form blocks of observations whose context names are known, distinct, complete and well formed, and the file does not end in context lines (with or without a header line after them). It is valid for submit.xsd exactly if moreover there is a section, every section has context lines, and no field reserved for distribution is given. (The converter itself lets pass: any version, unfinished blocks, tables of blocks, and it silently drops a header without rows.)", "quantifier": "all PSV files, all readings of the facets", "why_tests_cant": "an equivalence over all files and all values; tests convert and validate a few samples", "anchors": ["Python/ades/psvtoxml.py: psvtoxml", "xsd/general.xsd", "xsd/submit.xsd"]}
{"id": "C48", "title": "Valid documents survive the conversion to PSV and back", "statement": "Every document that is valid for general.xsd or submit.xsd, and of which PSV can express every element, is converted by xmltopsv without an error, and psvtoxml reads the result back as the same document: same elements, same order, same texts but for white space around them; a document without such white space comes back identical and so valid again. Local use elements (whatever they contain) and optional free texts of white space only are left out of the file and nothing else changes: what comes back is the document without them, again valid. PSV cannot express: residual records, texts of several lines, and, in the fields of free text, texts that are blank for Python, that start with # or ! (except remarks), or that have two points where the column is aligned on the point, and a time with a bar, which the schema's pattern for leap seconds lets pass by mistake.", "quantifier": "all valid documents (any number of blocks and records, any values), all readings of the facets that respect the string facets and the lexical spaces of the built-in types", "why_tests_cant": "ranges over all valid documents and all values of all fields; the exceptions hide in single characters", "anchors": ["Python/ades/xmltopsv.py: xmltopsv, processDataElement, printDataDicts", "Python/ades/psvtoxml.py: psvtoxml", "xsd/general.xsd", "xsd/submit.xsd", "xml/adesmaster.xml: LeapSecondsHelp"]}
{"id": "C49", "title": "Which valid submissions can be written in 80 columns, and what the lines say", "statement": "A document that is valid for submit.xsd, with times outside leap seconds, is converted by xmltompc80col (default precisions or --lowPrec) exactly when each of its records is an offset (for which nothing is written), or an optical or occultation record that has an artificial satellite's name or a designation that packs, a mode among the 13 with an 80-column code or, with a position, one of the systems WGS84, ICRF_AU and ICRF_KM, and a position as its station calls for: optical records from any station but 244 and 275, occultations only from these two. No radar submission can be converted: the converter needs the reference, which submissions may not have. When the station has three characters, the satellite's name at most 12 and the height at most 5, all lines have 80 columns, and the first one shows time, right ascension and declination of the record within 0.52 units of the last digit (times within half a unit of midnight become the beginning of the same day).", "quantifier": "all valid submissions (any number of blocks and records, any values), both settings of the precisions, all readings of the schemas' facets that are right for texts, numbers and times", "why_tests_cant": "ranges over all valid documents and all values; the failures depend on combinations of fields (kind, station, mode, system) that the schema does not relate", "anchors": ["Python/ades/xmltompc80col.py: xmltompc80col, printOpticalLine, printRadarLine, processDataElement", "Python/ades/sexVals.py: isoToSexDate, decRaToSexRa, degDeclToSexDecl", "Python/ades/packUtil.py: packTupleID", "xsd/submit.xsd"]}
{"id": "C50", "title": "What comes back from 80 columns", "statement": "A valid submission's optical or occultation record, with a designation (no artificial satellite), a three-character station and a time outside leap seconds, that xmltompc80col writes, is one line, or two lines when the observer's position is given, and columns 1-12 of the first hold the packed designation. mpc80coltoxml reads this first line again exactly when the packed designation has only letters and digits (a tilde may stand in front) and unpacks, the first note is one of those allowed at the station, the seconds of the right ascension and the minutes of the declination are not printed as 60, and the decimals of the day are not among those that the reader's own arithmetic turns into 60 seconds; otherwise decoding raises RuntimeError, and the converter drops the record's line or lines and goes on. What is read is an optical record with the designation that the columns unpack to, the same station and discovery mark, the same mode (CCD when there are two lines), the same observer's position when it fits its columns and, for roving observers, the station is 247 (positions in space get a sign, the centre is 399), the time on the same day, right ascension and declination within 0.86 units of the last digit printed, the catalogue and band as the codes say them, the magnitude's first five columns, the first note (as a program at stations with program codes), the precisions of the options, and nothing else. A number up to 15396335 comes back as the same number. Whole documents without header lines: the records of the legible lines come back in order, and nothing else does. With header lines (the default): if every block has a legible line and no line breaks in its header, every block comes back as a block, in order, with the records of its legible lines and a header; of the header are left, when its lines have at most 80 columns and its names no commas, the station code, the submitter, the observers and measurers (a blank before every name but the first), the telescope's name with placeholder values, and the comment lines, in the same order with the comments last. In general, a block of which no record is read gives no block: its header lines join those of the next block, and header lines at the end leave a block with an empty header.", "quantifier": "all valid submissions (any number of records, any values), both settings of the precisions, all readings of the schemas' facets that are right for texts, numbers and times", "why_tests_cant": "composition of two converters over all values; the lost lines depend on rounding of single values and on single characters of designations and notes", "anchors": ["Python/ades/xmltompc80col.py: xmltompc80col, printOpticalLine", "Python/ades/mpc80coltoxml.py: decode80ColumnDataLine, mpc80coltoxml", "Python/ades/sexVals.py", "Python/ades/packUtil.py: packTupleID, unpackPackedID", "xsd/submit.xsd"]}
{"id": "C51", "title": "The listing of a document", "statement": "readxmlpy prints of a document one line for every element, in document order, each beginning with twice its depth and one blank and its name, and behind the line of an optical record one line that announces its values; and the listing can be read back: two documents with the same listing are the same up to white space. This holds for documents with names as XML has them, texts on one line without braces, attributes without quotes, and optical records whose values have no attributes or elements of their own and are not the word None; without these conditions it does not.", "quantifier": "all documents of that form, of any size and depth", "why_tests_cant": "ranges over all trees; that nothing is lost is a statement about pairs of documents", "anchors": ["Python/ades/readxmlpy.py: printElement, processOptical, readxmlpy"]}
{"id": "C52", "title": "The encoding of a file", "statement": "getencoding reports of an XML file the encoding its declaration names - UTF-8 if the declaration names none - together with the way the file is stored and its byte order and mark. This holds for every text whose first line begins with <?xml, stored in UTF-8 with a byte order mark, in UTF-16 or UTF-32 of either byte order with or without a mark, in EBCDIC (code page 500), or beginning with ASCII; in the last case the bytes behind the first 2n+73, n the length of the first line, may be any. Files that begin with none of 14 known starts are refused with RuntimeError, and no others; files in the byte orders 2143 and 3412 always fail with an exception. A file without declaration is refused, a byte that is not ASCII soon after the declaration makes it unreadable, blanks around the = give UTF-8, and a word encoding= elsewhere in the first line is taken for the declaration's.", "quantifier": "all texts, of any length, with such a first line, in each of the encodings; all files for the refusals", "why_tests_cant": "ranges over all files; whether bytes behind the first line are looked at depends on the reader's buffer sizes, which a few files do not show", "anchors": ["Python/ades/getencoding: getXMLFileEncoding"]}
{"id": "C53", "title": "JSON files as text", "statement": "json.load, as jsontoxml calls it, takes exactly the texts of the JSON grammar (with NaN, Infinity and -Infinity), gives each the value the grammar gives it - of a key that comes twice the last value, where the key first stands - and refuses every other file; line breaks of any system make no difference. The file xmltojson writes for a document is JSON for the document's value, with characters other than quote, backslash and controls as they are, and jsontoxml makes of it - or of the same value laid out anew with other white space, line breaks or escapes - a document that says the same with siblings of one name together; converting that again gives the same file. A number as the text of an element with attributes or children is refused unless it is zero.", "quantifier": "all texts, all values without numbers, all documents, all layouts of a JSON file", "why_tests_cant": "ranges over all texts and over all ways of writing the same value", "anchors": ["Python/ades/xmltojson.py: xmltojson", "Python/ades/jsontoxml.py: jsontoxml"]}
