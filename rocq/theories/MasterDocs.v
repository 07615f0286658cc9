(** GENERATED by tools/gen_masterdocs.py from xml/adesmaster.xml: do not edit.
    The element tree of xml/adesmaster.xml restricted to XSDTypes,
    XSDElementTypes and PSVObservationFields; comments and (white space)
    text nodes are left out. *)
From Verif Require Import Xml.

(** /ades/XSDTypes *)
Definition master_docs_0 : xml :=
 Elem $"XSDTypes" [($"doc", $" These types are used to restrict values as appropriate in the various fields.  The restrictions are   No '|' characters allowed Strings have length limitations Strings must have particular values decimal types must be in a range ")] [] [
  Elem $"simpletype" [($"name", $"AlphaNumericType")] [] [
   Elem $"restriction" [($"base", $"StringType")] [] [
    Elem $"restrict" [($"name", $"xsd:pattern"); ($"value", $"[A-Za-z0-9_]*")] [] []];
   Elem $"doc" [] $" AlphaNumericType restricts the field to only the ASCII 
         upper- and lower-case letters, ASCII numbers and underscores" []];
  Elem $"simpletype" [($"name", $"MagType")] [] [
   Elem $"restriction" [($"base", $"DecimalTypeW8")] [] [
    Elem $"restrict" [($"name", $"xsd:minInclusive"); ($"value", $"-5.0")] [] [];
    Elem $"restrict" [($"name", $"xsd:maxInclusive"); ($"value", $"35.0")] [] []];
   Elem $"doc" [] $" Decimal in range [-5.0, 35.0] with with no more than 7 characters
   plus optional sign." []];
  Elem $"simpletype" [($"name", $"BandType")] [] [
   Elem $"restriction" [($"base", $"AlphaNumericType")] [] [
    Elem $"restrict" [($"name", $"xsd:maxLength"); ($"value", $"3")] [] []];
   Elem $"doc" [] $"MPC maintains a list of bands for magnitude observations" []];
  Elem $"simpletype" [($"name", $"CatType")] [] [
   Elem $"restriction" [($"base", $"StringType")] [] [
    Elem $"restrict" [($"name", $"xsd:pattern"); ($"value", $"[.A-Za-z0-9_]*")] [] [];
    Elem $"restrict" [($"name", $"xsd:maxLength"); ($"value", $"8")] [] []];
   Elem $"doc" [] $"MPC maintains a list of current astrometry and photometry catalogs" []];
  Elem $"simpletype" [($"name", $"CorrDecimalType")] [] [
   Elem $"restriction" [($"base", $"xsd:decimal")] [] [
    Elem $"restrict" [($"name", $"xsd:minExclusive"); ($"value", $"-1.0")] [] [];
    Elem $"restrict" [($"name", $"xsd:maxExclusive"); ($"value", $"1.0")] [] [];
    Elem $"restrict" [($"name", $"xsd:pattern"); ($"value", $"[+\-]?(0|1)(\.[0123456789]{0,11})?")] [] []];
   Elem $"doc" [] $" Decimal in range (-1.0, 1.0) with no more that 11 digits
   after the decimal point. Decimal point is optional, but if present
   the integer portion must be present (i.e., '.1' and '-.1' are invalid).
   Note that values of $\pm 1$ are disallowed as they imply zero incertainty
   in one direction." []];
  Elem $"simpletype" [($"name", $"DecimalType")] [] [
   Elem $"restriction" [($"base", $"xsd:decimal")] [] [
    Elem $"restrict" [($"name", $"xsd:pattern"); ($"value", $"[+\-]?(0|([1-9][0-9]*))(\.[0-9]*)?")] [] []];
   Elem $"doc" [] $" Decimal in range (-inf, +inf). Decimal point is optional, but
   if present the integer portion must be present (i.e., '.1' and '-.1' are
   invalid.) " []];
  Elem $"simpletype" [($"name", $"DecimalTypeW6")] [] [
   Elem $"restriction" [($"base", $"DecimalType")] [] [
    Elem $"restrict" [($"name", $"xsd:pattern"); ($"value", $"[+\-]?[0123456789\.]{1,5}")] [] []];
   Elem $"doc" [] $" DecimalType with no more than 5 characters plus optional sign" []];
  Elem $"simpletype" [($"name", $"DecimalTypeW8")] [] [
   Elem $"restriction" [($"base", $"DecimalType")] [] [
    Elem $"restrict" [($"name", $"xsd:pattern"); ($"value", $"[+\-]?[0123456789\.]{1,7}")] [] []];
   Elem $"doc" [] $" DecimalType with no more than 7 characters plus optional sign" []];
  Elem $"simpletype" [($"name", $"DecimalTypeW10")] [] [
   Elem $"restriction" [($"base", $"DecimalType")] [] [
    Elem $"restrict" [($"name", $"xsd:pattern"); ($"value", $"[+\-]?[0123456789\.]{1,9}")] [] []];
   Elem $"doc" [] $" DecimalType with no more than 9 characters plus optional sign" []];
  Elem $"simpletype" [($"name", $"DecimalTypeW14")] [] [
   Elem $"restriction" [($"base", $"DecimalType")] [] [
    Elem $"restrict" [($"name", $"xsd:pattern"); ($"value", $"[+\-]?[0123456789\.]{1,13}")] [] []];
   Elem $"doc" [] $" DecimalType with no more than 13 characters plus optional sign" []];
  Elem $"simpletype" [($"name", $"DeclinationType")] [] [
   Elem $"restriction" [($"base", $"xsd:decimal")] [] [
    Elem $"restrict" [($"name", $"xsd:minInclusive"); ($"value", $"-90.0")] [] [];
    Elem $"restrict" [($"name", $"xsd:maxInclusive"); ($"value", $"90.0")] [] [];
    Elem $"restrict" [($"name", $"xsd:pattern"); ($"value", $"[+\-]?([1-9]?[0-9])?(\.[0123456789]{0,9})?")] [] []];
   Elem $"doc" [] $" $\mathrm{DEC}$ in degrees in range [-90.0, 90.0] with no more that 9 characters after the decimal" []];
  Elem $"simpletype" [($"name", $"DeprecatedType")] [] [
   Elem $"restriction" [($"base", $"xsd:string")] [] [
    Elem $"restrict" [($"name", $"xsd:enumeration"); ($"value", $"X")] [] []];
   Elem $"doc" [] $"X marks the use of deprecated data" []];
  Elem $"simpletype" [($"name", $"DiscType")] [] [
   Elem $"restriction" [($"base", $"xsd:string")] [] [
    Elem $"restrict" [($"name", $"xsd:enumeration"); ($"value", $"*")] [] [];
    Elem $"restrict" [($"name", $"xsd:enumeration"); ($"value", $"+")] [] []];
   Elem $"doc" [] $" Used to mark the discovery record -- must be `*' or `+' if present" []];
  Elem $"simpletype" [($"name", $"DoubleTypeW7")] [] [
   Elem $"restriction" [($"base", $"xsd:double")] [] [
    Elem $"restrict" [($"name", $"xsd:pattern"); ($"value", $"[+\-]?[+\-Ee0123456789\.]{1,6}")] [] []];
   Elem $"doc" [] $" Double (i.e., decimal or exponential) in range (-inf, +inf) with no more that 6 characters plus optional sign" []];
  Elem $"simpletype" [($"name", $"DoubleTypeW21")] [] [
   Elem $"restriction" [($"base", $"xsd:double")] [] [
    Elem $"restrict" [($"name", $"xsd:pattern"); ($"value", $"[+\-]?[+\-Ee0123456789\.]{1,20}")] [] []];
   Elem $"doc" [] $" Double (i.e., decimal or exponential) in range (-inf, +inf) with no more that 20 characters plus optional sign" []];
  Elem $"simpletype" [($"name", $"SubFrmType")] [] [
   Elem $"restriction" [($"base", $"StringType")] [] [
    Elem $"restrict" [($"name", $"xsd:pattern"); ($"value", $"([BJ]\d{4}.0)|APP\.")] [] []];
   Elem $"doc" [] $"The submission frame, usually B1950.0 or earlier. If 
        this field is not present, the submission frame was J2000.0" []];
  Elem $"simpletype" [($"name", $"LeapSecondsHelp")] [] [
   Elem $"restriction" [($"base", $"xsd:string")] [] [
    Elem $"restrict" [($"name", $"xsd:pattern"); ($"value", $"19(72|81|82|83|85|92|93|94|97)-06-30T23:59:60(\.\d+)?Z")] [] [];
    Elem $"restrict" [($"name", $"xsd:pattern"); ($"value", $"19(72|73|74|75|76|77|78|79|87|89|90|95|98)-12-31T23:59:60(\.\d+)?Z")] [] [];
    Elem $"restrict" [($"name", $"xsd:pattern"); ($"value", $"20(12|15)-06-30T23:59:60(\.\d+)?Z")] [] [];
    Elem $"restrict" [($"name", $"xsd:pattern"); ($"value", $"20(05|08|16)-12-31T23:59:60(.\d+)?Z")] [] [];
    Elem $"restrict" [($"name", $"xsd:pattern"); ($"value", $"(2[1-9]\d{2}|20[2-9]\d|201[7-9])-12-31T23:59:60(\.\d+)?Z")] [] [];
    Elem $"restrict" [($"name", $"xsd:pattern"); ($"value", $"(2[1-9]\d{2}|20[2-9]\d|201[7-9])-06-30T23:59:60(\.\d+)?Z")] [] [];
    Elem $"restrict" [($"name", $"xsd:pattern"); ($"value", $"[3-9]\d{3}-06-30T23:59:60(\.\d+)?Z")] [] [];
    Elem $"restrict" [($"name", $"xsd:pattern"); ($"value", $"[3-9]\d{3}-12-31T23:59:60(\.\d+)?Z")] [] []];
   Elem $"doc" [] $"Allowed leap seconds before 2017 are valid leap-seconds; for 2017 and later are all
        allowed June and December leap-second opportunities." []];
  Elem $"simpletype" [($"name", $"LogicalType")] [] [
   Elem $"restriction" [($"base", $"xsd:integer")] [] [
    Elem $"restrict" [($"name", $"xsd:enumeration"); ($"value", $"0")] [] [];
    Elem $"restrict" [($"name", $"xsd:enumeration"); ($"value", $"1")] [] []];
   Elem $"doc" [] $"0 for false, 1 for true to match C and FORTRAN" []];
  Elem $"simpletype" [($"name", $"ModeType")] [] [
   Elem $"restriction" [($"base", $"AlphaNumericType")] [] [
    Elem $"restrict" [($"name", $"xsd:maxLength"); ($"value", $"3")] [] []];
   Elem $"doc" [] $" The MPC maintains a list of mode values " []];
  Elem $"simpletype" [($"name", $"ObsCenterType")] [] [
   Elem $"union" [($"memberTypes", $"PermIDType ProvIDType PlanetNameType")] [] [];
   Elem $"submitunion" [($"memberTypes", $"PermIDType ProvIDType PlanetNameType")] [] [];
   Elem $"doc" [] $"May be PlanetNameType, PermIDType or ProvIDType for both submissions and in general" []];
  Elem $"simpletype" [($"name", $"NotesType")] [] [
   Elem $"restriction" [($"base", $"AlphaNumericType")] [] [
    Elem $"restrict" [($"name", $"xsd:maxLength"); ($"value", $"6")] [] []];
   Elem $"doc" [] $"up to six single-character notes from MPC table" []];
  Elem $"simpletype" [($"name", $"ObsIDType")] [] [
   Elem $"restriction" [($"base", $"AlphaNumericType")] [] [
    Elem $"restrict" [($"name", $"xsd:maxLength"); ($"value", $"25")] [] []];
   Elem $"doc" [] $"An obsID is up to twenty-five alphanumeric characters" []];
  Elem $"simpletype" [($"name", $"PermIDType")] [] [
   Elem $"restriction" [($"base", $"StringTypeW25")] [] [
    Elem $"restrict" [($"name", $"xsd:pattern"); ($"value", $"\d+([IPD](-[A-Z]{1,2})?)?|((Mars|Jupiter|Saturn|Uranus|Neptune) \d{1,3}|\(\d+\) \d{1,3})")] [] []];
   Elem $"doc" [] $" A permID (permanent ID) string may be a positive integer, a positive integer 
       followed by P or D or I (P is for periodic comets; D is for defunct comets; 
       I is for interstellar objects), a planet name followed by a positive integer, or a 
       positive integer in parentheses followed by a postive integer.  These
       indicate a minor planet, a comet or interstellar object, a natural satellite of a 
       planet, and a natural satellite of a minor planet respectively." []];
  Elem $"simpletype" [($"name", $"PhotModType")] [] [
   Elem $"restriction" [($"base", $"AlphaNumericType")] [] [
    Elem $"restrict" [($"name", $"xsd:maxLength"); ($"value", $"8")] [] []];
   Elem $"doc" [] $"Photometric model is up to eight alphanumeric characters" []];
  Elem $"simpletype" [($"name", $"PlanetNameType")] [] [
   Elem $"restriction" [($"base", $"StringTypeW25")] [] [
    Elem $"restrict" [($"name", $"xsd:enumeration"); ($"value", $"Mercury")] [] [];
    Elem $"restrict" [($"name", $"xsd:enumeration"); ($"value", $"Venus")] [] [];
    Elem $"restrict" [($"name", $"xsd:enumeration"); ($"value", $"Earth")] [] [];
    Elem $"restrict" [($"name", $"xsd:enumeration"); ($"value", $"Moon")] [] [];
    Elem $"restrict" [($"name", $"xsd:enumeration"); ($"value", $"Mars")] [] [];
    Elem $"restrict" [($"name", $"xsd:enumeration"); ($"value", $"Jupiter")] [] [];
    Elem $"restrict" [($"name", $"xsd:enumeration"); ($"value", $"Saturn")] [] [];
    Elem $"restrict" [($"name", $"xsd:enumeration"); ($"value", $"Uranus")] [] [];
    Elem $"restrict" [($"name", $"xsd:enumeration"); ($"value", $"Neptune")] [] []];
   Elem $"doc" [] $"List of planet names, including Earth's Moon" []];
  Elem $"simpletype" [($"name", $"PosDecimalType")] [] [
   Elem $"restriction" [($"base", $"xsd:decimal")] [] [
    Elem $"restrict" [($"name", $"xsd:minExclusive"); ($"value", $"0.0")] [] [];
    Elem $"restrict" [($"name", $"xsd:maxExclusive"); ($"value", $"100000.0")] [] [];
    Elem $"restrict" [($"name", $"xsd:pattern"); ($"value", $"(0|([1-9][0-9]*))(\.[0-9]*)?")] [] []];
   Elem $"doc" [] $" Unsigned positive decimal in range (0.0, 100,000). Decimal point is
   optional, but if present the integer portion must be present (i.e.,
   '.1' is invalid.) " []];
  Elem $"simpletype" [($"name", $"PosIntegerTypeW6")] [] [
   Elem $"restriction" [($"base", $"xsd:positiveInteger")] [] [
    Elem $"restrict" [($"name", $"xsd:maxExclusive"); ($"value", $"1000000")] [] []];
   Elem $"doc" [] $" Positive integer in range (0, 1,000,000). Thus no more than 6 characters. " []];
  Elem $"simpletype" [($"name", $"CtrType")] [] [
   Elem $"restriction" [($"base", $"SPICEIDType")] [] [
    Elem $"restrict" [($"name", $"xsd:enumeration"); ($"value", $"399")] [] []];
   Elem $"doc" [] $"An enumerated list of SPICE IDs, with currently only geocentric ('399') allowed. Other values may be added for cases where the geocenter is not appropriate." []];
  Elem $"simpletype" [($"name", $"SPICEIDType")] [] [
   Elem $"restriction" [($"base", $"xsd:integer")] [] [
    Elem $"restrict" [($"name", $"xsd:maxExclusive"); ($"value", $"+1000000000")] [] [];
    Elem $"restrict" [($"name", $"xsd:minExclusive"); ($"value", $"-1000000000")] [] []];
   Elem $"doc" [] $" Integer having absolute value strictly less than $10^9$." []];
  Elem $"simpletype" [($"name", $"PosDecimalTypeW6")] [] [
   Elem $"restriction" [($"base", $"PosDecimalType")] [] [
    Elem $"restrict" [($"name", $"xsd:pattern"); ($"value", $"[0123456789\.]{1,6}")] [] []];
   Elem $"doc" [] $" PosDecimalType with no more that 6 characters" []];
  Elem $"simpletype" [($"name", $"PosDecimalTypeW7")] [] [
   Elem $"restriction" [($"base", $"PosDecimalType")] [] [
    Elem $"restrict" [($"name", $"xsd:pattern"); ($"value", $"[0123456789\.]{1,7}")] [] []];
   Elem $"doc" [] $" PosDecimalType with no more that 7 characters" []];
  Elem $"simpletype" [($"name", $"PosDecimalTypeW8")] [] [
   Elem $"restriction" [($"base", $"PosDecimalType")] [] [
    Elem $"restrict" [($"name", $"xsd:pattern"); ($"value", $"[0123456789\.]{1,8}")] [] []];
   Elem $"doc" [] $" PosDecimalType with no more that 8 characters" []];
  Elem $"simpletype" [($"name", $"PosDecimalTypeW10")] [] [
   Elem $"restriction" [($"base", $"PosDecimalType")] [] [
    Elem $"restrict" [($"name", $"xsd:pattern"); ($"value", $"[0123456789\.]{1,10}")] [] []];
   Elem $"doc" [] $" PosDecimalType with no more that 10 characters" []];
  Elem $"simpletype" [($"name", $"PosDecimalTypeW14")] [] [
   Elem $"restriction" [($"base", $"PosDecimalType")] [] [
    Elem $"restrict" [($"name", $"xsd:pattern"); ($"value", $"[0123456789\.]{1,14}")] [] []];
   Elem $"doc" [] $" PosDecimalType with no more that 14 characters" []];
  Elem $"simpletype" [($"name", $"FrequencyType")] [] [
   Elem $"restriction" [($"base", $"xsd:decimal")] [] [
    Elem $"restrict" [($"name", $"xsd:minExclusive"); ($"value", $"0.0")] [] [];
    Elem $"restrict" [($"name", $"xsd:pattern"); ($"value", $"[0123456789\.]{1,16}")] [] []];
   Elem $"doc" [] $" Unsigned decimal in range (0.0, +inf) with no more that 16 characters" []];
  Elem $"simpletype" [($"name", $"ProgType")] [] [
   Elem $"restriction" [($"base", $"AlphaNumericType")] [] [
    Elem $"restrict" [($"name", $"xsd:maxLength"); ($"value", $"2")] [] []];
   Elem $"doc" [] $"MPC maintains a list of 1 and 2 character program codes" []];
  Elem $"simpletype" [($"name", $"BaseProvIDType")] [] [
   Elem $"restriction" [($"base", $"StringTypeW25")] [] [
    Elem $"restrict" [($"name", $"xsd:pattern"); ($"value", $"\d{4} [A-HJ-Y][A-HJ-Z]\d*|\d{4} (P-L|T-[123])|[ADCPX]/\d{4} [A-Z]{1,2}\d*(-[A-Z])?|S/\d{4} ((M|J|S|U|N)|\((\d+|\d{4} [A-HJ-Y][A-HJ-Z]?\d+)\)) \d+")] [] []];
   Elem $"doc" [] $" A provID (provisional ID) may be a minor planet provid,
      which is a 4-digit year followed by a space followd by two letters
      followed optinally by digits; or a comet id, which is C/ or P/ or D/
      or X/ or A/ (for asteroids with comet numbers, which may not have fragments)
      followed by a 4-digit year follwed by a space followed by one
      or two digits optinally followed by one or two digits optionally
      followed by ""-[A-Z]"" (for a commet fragment); or a satellite, 
      which is S/ followed by a 4-digit year followed a space followed
      either (by a minor planet PermID in parentheses or the bare letter 
      M, J, S, N, U) followed by a space followed by digits.
      " []];
  Elem $"simpletype" [($"name", $"OldProvIDType")] [] [
   Elem $"restriction" [($"base", $"StringTypeW25")] [] [
    Elem $"restrict" [($"name", $"xsd:pattern"); ($"value", $"A[89]\d{2} [A-HJ-Y][A-HJ-Z]")] [] []];
   Elem $"doc" [] $" An old-style provID (provisional ID) for object recorded before
         1925 is of the from A903 AA, where A903 means 1903, A888 means
         1888. and the two letters are the same as currently
         " []];
  Elem $"simpletype" [($"name", $"ProvIDType")] [] [
   Elem $"union" [($"memberTypes", $"BaseProvIDType OldProvIDType")] [] [];
   Elem $"submitunion" [($"memberTypes", $"BaseProvIDType")] [] [];
   Elem $"doc" [] $" A provID (provisional ID) is may be a minor planet provid, 
      which is a 4-digit year followed by a space followd by two letters
      followed optinally by digits; or a comet it, which is C/ or P/ or D/ 
      or X/ or A/ (for asteroids with comet numbers, which may not have fragments)
      followed by a 4-digit year follwed by a space followed by one
      or two digits optinally followed by one or two digits optionally
      followed by ""-[A-Z]"" (for a commet fragment); or a satellite, 
      which is S/ followed by a 4-digit year followed a space followed
      either (by a minor planet PermID in parentheses or the bare letter 
      M, J, S, N, U) followed by a space followed by digits.   For
      data before 1926, the OldProvIDType may occur -- this is not allowed
      in new submissions
      " []];
  Elem $"simpletype" [($"name", $"RaDecPrecType")] [] [
   Elem $"restriction" [($"base", $"xsd:decimal")] [] [
    Elem $"restrict" [($"name", $"xsd:enumeration"); ($"value", $"0.1")] [] [];
    Elem $"restrict" [($"name", $"xsd:enumeration"); ($"value", $"0.6")] [] [];
    Elem $"restrict" [($"name", $"xsd:enumeration"); ($"value", $"0.01")] [] [];
    Elem $"restrict" [($"name", $"xsd:enumeration"); ($"value", $"0.001")] [] [];
    Elem $"restrict" [($"name", $"xsd:enumeration"); ($"value", $"60")] [] [];
    Elem $"restrict" [($"name", $"xsd:enumeration"); ($"value", $"6")] [] [];
    Elem $"restrict" [($"name", $"xsd:enumeration"); ($"value", $"1")] [] []];
   Elem $"doc" [] $" RaDecPrecType is used to describe the precision of a historical decimal value
         when the orignal measurement was made in sexagesimal.  The allowed values
         are applied to the last sexagesimal element, which may be seconds or 
         arcseconds, and mean (for time) the value is accurate to an hour,
         10 minutes, 1 minute, 6 seconds, 1 second, .1 second and so forth.  This
         is not allowed in new submissions
         " []];
  Elem $"simpletype" [($"name", $"RAType")] [] [
   Elem $"restriction" [($"base", $"xsd:decimal")] [] [
    Elem $"restrict" [($"name", $"xsd:minInclusive"); ($"value", $"0.0")] [] [];
    Elem $"restrict" [($"name", $"xsd:maxExclusive"); ($"value", $"360.0")] [] [];
    Elem $"restrict" [($"name", $"xsd:pattern"); ($"value", $"([1-3][0-9]{2}|[1-9]?[0-9])?(\.[0-9]{0,9})?")] [] []];
   Elem $"doc" [] $" Unsigned RA in degrees limited to [0.0, 360.0) with no more that 9 characters after the decimal" []];
  Elem $"simpletype" [($"name", $"RefType")] [] [
   Elem $"restriction" [($"base", $"StringType")] [] [
    Elem $"restrict" [($"name", $"xsd:maxLength"); ($"value", $"16")] [] []];
   Elem $"doc" [] $"MPC-assigned reference, up to sixteen characters" []];
  Elem $"simpletype" [($"name", $"RemarkType")] [] [
   Elem $"restriction" [($"base", $"StringType")] [] [
    Elem $"restrict" [($"name", $"xsd:maxLength"); ($"value", $"300")] [] []];
   Elem $"doc" [] $" A remark is a String limited to 300 characters" []];
  Elem $"simpletype" [($"name", $"SelResType"); ($"base", $"xsd:string")] [] [
   Elem $"restriction" [($"base", $"xsd:string")] [] [
    Elem $"restrict" [($"name", $"xsd:enumeration"); ($"value", $"A")] [] [];
    Elem $"restrict" [($"name", $"xsd:enumeration"); ($"value", $"a")] [] [];
    Elem $"restrict" [($"name", $"xsd:enumeration"); ($"value", $"D")] [] [];
    Elem $"restrict" [($"name", $"xsd:enumeration"); ($"value", $"d")] [] []];
   Elem $"doc" [] $" SelRes must be ``A,"" (automatic accept) ``a,"" (manual accept)``D,"" (automatic delete) or ``d"" (manual delete)" []];
  Elem $"simpletype" [($"name", $"StationType")] [] [
   Elem $"restriction" [($"base", $"AlphaNumericType")] [] [
    Elem $"restrict" [($"name", $"xsd:minLength"); ($"value", $"3")] [] [];
    Elem $"restrict" [($"name", $"xsd:maxLength"); ($"value", $"4")] [] []];
   Elem $"doc" [] $"A stn, rov, trx or tcv station.  Values vary and are checked by MPC" []];
  Elem $"simpletype" [($"name", $"StringType")] [] [
   Elem $"restriction" [($"base", $"xsd:string")] [] [
    Elem $"restrict" [($"name", $"xsd:pattern"); ($"value", $"[^|]*[^|\s][^|]*")] [] []];
   Elem $"doc" [] $" String follows the 
         ADES specification in that the pipe character is disallowed in PSV.
         To allow data conversion from XML, it must disallowed in XML as well.
         Also disallow blank elements.  Therefore, all elements must match
         this pattern " []];
  Elem $"simpletype" [($"name", $"StringTypeW25")] [] [
   Elem $"restriction" [($"base", $"StringType")] [] [
    Elem $"restrict" [($"name", $"xsd:maxLength"); ($"value", $"25")] [] []];
   Elem $"doc" [] $" A StringType limited to 25 characters" []];
  Elem $"simpletype" [($"name", $"StringTypeW100")] [] [
   Elem $"restriction" [($"base", $"StringType")] [] [
    Elem $"restrict" [($"name", $"xsd:maxLength"); ($"value", $"100")] [] []];
   Elem $"doc" [] $" A StringType limited to 100 characters" []];
  Elem $"simpletype" [($"name", $"SubFmtType")] [] [
   Elem $"restriction" [($"base", $"AlphaNumericType")] [] [
    Elem $"restrict" [($"name", $"xsd:maxLength"); ($"value", $"4")] [] []];
   Elem $"doc" [] $"MPC maintains a list of allowed submission formats with no extra fields, up to four alphanumeric characters " []];
  Elem $"simpletype" [($"name", $"SysType")] [] [
   Elem $"restriction" [($"base", $"xsd:string")] [] [
    Elem $"restrict" [($"name", $"xsd:enumeration"); ($"value", $"WGS84")] [] [];
    Elem $"restrict" [($"name", $"xsd:enumeration"); ($"value", $"ITRF")] [] [];
    Elem $"restrict" [($"name", $"xsd:enumeration"); ($"value", $"IAU")] [] [];
    Elem $"restrict" [($"name", $"xsd:enumeration"); ($"value", $"ICRF_AU")] [] [];
    Elem $"restrict" [($"name", $"xsd:enumeration"); ($"value", $"ICRF_KM")] [] []];
   Elem $"doc" [] $" Coordinate system for station coordinates. This is used by the pos[123], vel[123], and poscov[123][123] 
         elements to determine the meaning of coordinates. WGS84, ITRF and IAU are for ground-based stations,
         ICRF\verb|_|AU and ICRF\verb|_|KM are for space-based stations. Velocities, if present, are in km/s
         for ICRF\verb|_|KM , and au/day for ICRF\verb|_|AU." []];
  Elem $"simpletype" [($"name", $"TimeHelp")] [] [
   Elem $"restriction" [($"base", $"xsd:dateTime")] [] [
    Elem $"restrict" [($"name", $"xsd:pattern"); ($"value", $"\d{4}-\d{2}-\d{2}T\d{2}:\d{2}:\d{2}(\.\d{1,6})?Z")] [] []];
   Elem $"doc" [] $"Restrict dateTime to 4-digit positive years and Z for UTC. Allow no more than microsecond precision." []];
  Elem $"simpletype" [($"name", $"TimePrecType")] [] [
   Elem $"restriction" [($"base", $"xsd:decimal")] [] [
    Elem $"restrict" [($"name", $"xsd:enumeration"); ($"value", $"100000")] [] [];
    Elem $"restrict" [($"name", $"xsd:enumeration"); ($"value", $"10000")] [] [];
    Elem $"restrict" [($"name", $"xsd:enumeration"); ($"value", $"1000")] [] [];
    Elem $"restrict" [($"name", $"xsd:enumeration"); ($"value", $"100")] [] [];
    Elem $"restrict" [($"name", $"xsd:enumeration"); ($"value", $"10")] [] [];
    Elem $"restrict" [($"name", $"xsd:enumeration"); ($"value", $"1")] [] [];
    Elem $"restrict" [($"name", $"xsd:enumeration"); ($"value", $"41667")] [] [];
    Elem $"restrict" [($"name", $"xsd:enumeration"); ($"value", $"4167")] [] [];
    Elem $"restrict" [($"name", $"xsd:enumeration"); ($"value", $"694")] [] [];
    Elem $"restrict" [($"name", $"xsd:enumeration"); ($"value", $"69")] [] []];
   Elem $"doc" [] $" TimePrecType is used to describe the precision of a historical Time value
         when the orignal measurement was made in fractional days.
         The accuracy is in millionths of decimal day, so 10 means
         1/100,000 of a day, a little better than a second.  The large
         values are only for historic data on comets.  Historic data
         may also have been reported to integer hours (41667), tenths
         of hours (4167), integer minutes (694) or tenths of minutes (69).
         This is not allowed in new submissions.
         " []];
  Elem $"simpletype" [($"name", $"TimeType")] [] [
   Elem $"union" [($"memberTypes", $"TimeHelp LeapSecondsHelp")] [] [];
   Elem $"submitunion" [($"memberTypes", $"TimeHelp LeapSecondsHelp")] [] [];
   Elem $"doc" [] $" TimeType is an ISO8601 UTC time in the format yyyy-mm-ddThh:mm:ss(.s+)Z.  The trailing Z
          means it is interpreted as UTC.  It is not a restriction of xsd:dateTime because that
          does not properly validate leapseconds. It allows positive 4-digit years and validates
          the Gregorian calendar for all dates. Note this works because
          xsd or's all the restrictions and accepts any match.  LeapSecondsHelp matches any 
          leapsecond before 2017 and any potential new leapseconds from 2017." []];
  Elem $"simpletype" [($"name", $"TrkIDType")] [] [
   Elem $"restriction" [($"base", $"StringType")] [] [
    Elem $"restrict" [($"name", $"xsd:pattern"); ($"value", $"[-A-Za-z0-9_]*")] [] [];
    Elem $"restrict" [($"name", $"xsd:maxLength"); ($"value", $"12")] [] []];
   Elem $"doc" [] $"A trkID is up to twelve alphanumeric characters" []];
  Elem $"simpletype" [($"name", $"BaseTrkSubType")] [] [
   Elem $"restriction" [($"base", $"StringType")] [] [
    Elem $"restrict" [($"name", $"xsd:pattern"); ($"value", $"[-A-Za-z0-9_]*")] [] [];
    Elem $"restrict" [($"name", $"xsd:maxLength"); ($"value", $"8")] [] []];
   Elem $"doc" [] $"A trkSub is up to eight alphanumeric or - characters" []];
  Elem $"simpletype" [($"name", $"OldTrkSubType")] [] [
   Elem $"restriction" [($"base", $"StringType")] [] [
    Elem $"restrict" [($"name", $"xsd:pattern"); ($"value", $"[- ?+@.()/\\A-Za-z0-9_]*")] [] [];
    Elem $"restrict" [($"name", $"xsd:maxLength"); ($"value", $"8")] [] []];
   Elem $"doc" [] $"A trkSub is up to eight funky characters" []];
  Elem $"simpletype" [($"name", $"TrkSubType")] [] [
   Elem $"union" [($"memberTypes", $"BaseTrkSubType OldTrkSubType")] [] [];
   Elem $"submitunion" [($"memberTypes", $"BaseTrkSubType")] [] [];
   Elem $"doc" [] $"A trkSub is up to eight characters.  For new submission, the 
        allowed character set is alphanumeric with ""-"".  For older
        data, a wider character set was allowed" []];
  Elem $"simpletype" [($"name", $"VersionType")] [] [
   Elem $"restriction" [($"base", $"xsd:string")] [] [
    Elem $"restrict" [($"name", $"xsd:enumeration"); ($"value", $"2022")] [] []];
   Elem $"doc" [] $"Version attribute for the current ADES schema must be ``2022"" " []];
  Elem $"complextype" [($"name", $"NamesType")] [] [
   Elem $"sequence" [] [] [
    Elem $"element" [($"name", $"name"); ($"type", $"StringTypeW100"); ($"use", $"unbounded"); ($"doc", $"list of names")] [] []];
   Elem $"doc" [] $" List of one or more names of type String" []];
  Elem $"complextype" [($"name", $"ObservatoryType")] [] [
   Elem $"all" [] [] [
    Elem $"element" [($"name", $"mpcCode"); ($"type", $"StationType"); ($"doc", $"observatory mpc code name")] [] [];
    Elem $"element" [($"name", $"name"); ($"type", $"StringTypeW100"); ($"use", $"optional"); ($"doc", $"observatory name")] [] []];
   Elem $"doc" [] $" Observatory Identification" []];
  Elem $"complextype" [($"name", $"SubmitterType")] [] [
   Elem $"all" [] [] [
    Elem $"element" [($"name", $"name"); ($"type", $"StringTypeW100"); ($"doc", $"observer name")] [] [];
    Elem $"element" [($"name", $"institution"); ($"type", $"StringTypeW100"); ($"use", $"optional"); ($"doc", $"observer institution")] [] []];
   Elem $"doc" [] $"Submitter information.  A name field (initials plus surname), an institution string" []];
  Elem $"complextype" [($"name", $"TelescopeType")] [] [
   Elem $"all" [] [] [
    Elem $"element" [($"name", $"name"); ($"type", $"StringTypeW100"); ($"use", $"optional"); ($"doc", $"telescope name")] [] [];
    Elem $"element" [($"name", $"design"); ($"type", $"StringTypeW25"); ($"doc", $"telescope design")] [] [];
    Elem $"element" [($"name", $"aperture"); ($"type", $"PosDecimalTypeW6"); ($"doc", $"telescope aperture")] [] [];
    Elem $"element" [($"name", $"detector"); ($"type", $"StringTypeW25"); ($"doc", $"telescope detector")] [] [];
    Elem $"element" [($"name", $"fRatio"); ($"type", $"PosDecimalTypeW6"); ($"use", $"optional"); ($"doc", $"telescope f number")] [] [];
    Elem $"element" [($"name", $"filter"); ($"type", $"StringTypeW25"); ($"use", $"optional"); ($"doc", $"telescope filter")] [] [];
    Elem $"element" [($"name", $"arraySize"); ($"type", $"StringTypeW25"); ($"use", $"optional"); ($"doc", $"telescope array size")] [] [];
    Elem $"element" [($"name", $"pixelScale"); ($"type", $"PosDecimalTypeW6"); ($"use", $"optional"); ($"doc", $"telescope sensor pixel size")] [] []];
   Elem $"doc" [] $"telescope information" []];
  Elem $"complextype" [($"name", $"SoftwareType")] [] [
   Elem $"all" [] [] [
    Elem $"element" [($"name", $"astrometry"); ($"type", $"StringTypeW100"); ($"use", $"optional")] [] [];
    Elem $"element" [($"name", $"fitOrder"); ($"type", $"StringTypeW25"); ($"use", $"optional")] [] [];
    Elem $"element" [($"name", $"photometry"); ($"type", $"StringTypeW100"); ($"use", $"optional")] [] [];
    Elem $"element" [($"name", $"objectDetection"); ($"type", $"StringTypeW100"); ($"use", $"optional")] [] []];
   Elem $"doc" [] $"information about software used in processing" []];
  Elem $"complextype" [($"name", $"CommentType")] [] [
   Elem $"sequence" [] [] [
    Elem $"element" [($"name", $"line"); ($"type", $"StringTypeW100"); ($"use", $"unbounded"); ($"doc", $"list of ocmment lines")] [] []];
   Elem $"doc" [] $" List of one or more lines of type String" []];
  Elem $"grouptype" [($"name", $"MPCID")] [] [
   Elem $"choice" [] [] [
    Elem $"sequence" [] [] [
     Elem $"element" [($"ref", $"permID")] [] [];
     Elem $"element" [($"ref", $"provID"); ($"use", $"optional")] [] []];
    Elem $"sequence" [] [] [
     Elem $"element" [($"ref", $"provID")] [] []];
    Elem $"sequence" [] [] [
     Elem $"element" [($"ref", $"artSat")] [] []]];
   Elem $"doc" [] $"permID or provID or both in that order, or artSat" []];
  Elem $"grouptype" [($"name", $"OpticalID")] [] [
   Elem $"sequence" [] [] [
    Elem $"choice" [] [] [
     Elem $"sequence" [] [] [
      Elem $"group" [($"ref", $"MPCID")] [] [];
      Elem $"element" [($"ref", $"trkSub"); ($"use", $"optional")] [] []];
     Elem $"sequence" [] [] [
      Elem $"element" [($"ref", $"trkSub")] [] []]];
    Elem $"element" [($"ref", $"obsID"); ($"use", $"NoSubmit")] [] [];
    Elem $"element" [($"ref", $"obsSubID"); ($"use", $"optional")] [] [];
    Elem $"element" [($"ref", $"trkID"); ($"use", $"NoSubmit")] [] [];
    Elem $"element" [($"ref", $"trkMPC"); ($"use", $"NoSubmit")] [] []];
   Elem $"doc" [] $" An MPCID group or trkSub or both in that order.
           Of permID, provID, artSat or trkSub at least one must
           be present in an optical observation but
           all three might be present.   Also, MPC will
           assign unique obsID and trkID fields for
           distribution
     " []];
  Elem $"grouptype" [($"name", $"RadarID")] [] [
   Elem $"sequence" [] [] [
    Elem $"group" [($"ref", $"MPCID")] [] [];
    Elem $"element" [($"ref", $"trkSub"); ($"use", $"optional")] [] [];
    Elem $"element" [($"ref", $"obsID"); ($"use", $"NoSubmit")] [] []];
   Elem $"doc" [] $" An MPCID group only; radar has no equivalent
           of the optical ``trkSub"" field.  MPC will add
           a unique obsID field for distribution
     " []];
  Elem $"grouptype" [($"name", $"RadarValue")] [] [
   Elem $"choice" [] [] [
    Elem $"sequence" [] [] [
     Elem $"element" [($"ref", $"doppler")] [] [];
     Elem $"element" [($"ref", $"rmsDoppler")] [] []];
    Elem $"sequence" [] [] [
     Elem $"element" [($"ref", $"delay")] [] [];
     Elem $"element" [($"ref", $"rmsDelay")] [] []]];
   Elem $"doc" [] $"A RadarValue is used for doppler or delay values
          and errors in a radar observation. " []];
  Elem $"grouptype" [($"name", $"Precision")] [] [
   Elem $"sequence" [] [] [
    Elem $"element" [($"ref", $"precTime")] [] [];
    Elem $"element" [($"ref", $"precRA")] [] [];
    Elem $"element" [($"ref", $"precDec")] [] []];
   Elem $"doc" [] $"
     Precision is primarily for M92 and M47 formats. 
     However, it may be used generally to describe data originally
     obtained with a certain sexagesimal precision instead of 
     a decimal precision
  " []];
  Elem $"grouptype" [($"name", $"Location")] [] [
   Elem $"sequence" [] [] [
    Elem $"element" [($"ref", $"sys")] [] [];
    Elem $"element" [($"ref", $"ctr")] [] [];
    Elem $"element" [($"ref", $"pos1")] [] [];
    Elem $"element" [($"ref", $"pos2")] [] [];
    Elem $"element" [($"ref", $"pos3")] [] [];
    Elem $"element" [($"ref", $"vel1"); ($"use", $"optional")] [] [];
    Elem $"element" [($"ref", $"vel2"); ($"use", $"optional")] [] [];
    Elem $"element" [($"ref", $"vel3"); ($"use", $"optional")] [] [];
    Elem $"element" [($"ref", $"posCov11"); ($"use", $"optional")] [] [];
    Elem $"element" [($"ref", $"posCov12"); ($"use", $"optional")] [] [];
    Elem $"element" [($"ref", $"posCov13"); ($"use", $"optional")] [] [];
    Elem $"element" [($"ref", $"posCov22"); ($"use", $"optional")] [] [];
    Elem $"element" [($"ref", $"posCov23"); ($"use", $"optional")] [] [];
    Elem $"element" [($"ref", $"posCov33"); ($"use", $"optional")] [] []];
   Elem $"doc" [] $"
     location data for a rover station.   
  " []];
  Elem $"grouptype" [($"name", $"Photometry")] [] [
   Elem $"sequence" [] [] [
    Elem $"element" [($"ref", $"mag")] [] [];
    Elem $"element" [($"ref", $"rmsMag"); ($"use", $"optional")] [] [];
    Elem $"element" [($"ref", $"band")] [] [];
    Elem $"element" [($"ref", $"fltr"); ($"use", $"optional")] [] [];
    Elem $"element" [($"ref", $"photCat"); ($"use", $"optional")] [] [];
    Elem $"element" [($"ref", $"photAp"); ($"use", $"optional")] [] [];
    Elem $"element" [($"ref", $"nucMag"); ($"use", $"NoSubmit")] [] []];
   Elem $"doc" [] $"
     The Photometry group is optional in all optical
     observation types (optical, offset, and
     occultation).  The ""mag"" and ""band"" fields
     must be present; the rest are optional but
     can only occur if ""mag"" and ""band"" are present
     to define this as a Photometry group
  " []];
  Elem $"grouptype" [($"name", $"OffsetVal")] [] [
   Elem $"choice" [] [] [
    Elem $"sequence" [] [] [
     Elem $"element" [($"ref", $"deltaRA")] [] [];
     Elem $"element" [($"ref", $"deltaDec")] [] [];
     Elem $"element" [($"ref", $"rmsRA"); ($"use", $"optional")] [] [];
     Elem $"element" [($"ref", $"rmsDec"); ($"use", $"optional")] [] [];
     Elem $"element" [($"ref", $"rmsCorr"); ($"use", $"optional")] [] []];
    Elem $"sequence" [] [] [
     Elem $"element" [($"ref", $"dist")] [] [];
     Elem $"element" [($"ref", $"pa")] [] [];
     Elem $"element" [($"ref", $"rmsDist"); ($"use", $"optional")] [] [];
     Elem $"element" [($"ref", $"rmsPA"); ($"use", $"optional")] [] [];
     Elem $"element" [($"ref", $"rmsCorr"); ($"use", $"optional")] [] []]];
   Elem $"doc" [] $"
      OffsetVal allows either rectangular or polar
      coordinates for the offset measurement.  The 
      rectangular coordinates are deltaRA and deltaDec;
      the polar coordinates are dist and polar angle.
  " []];
  Elem $"grouptype" [($"name", $"OpticalRes")] [] [
   Elem $"sequence" [] [] [
    Elem $"element" [($"ref", $"resRA")] [] [];
    Elem $"element" [($"ref", $"resDec")] [] [];
    Elem $"element" [($"ref", $"selAst")] [] [];
    Elem $"element" [($"ref", $"sigRA")] [] [];
    Elem $"element" [($"ref", $"sigDec")] [] [];
    Elem $"element" [($"ref", $"sigCorr"); ($"use", $"optional")] [] [];
    Elem $"element" [($"ref", $"sigTime"); ($"use", $"optional")] [] [];
    Elem $"element" [($"ref", $"biasRA"); ($"use", $"optional")] [] [];
    Elem $"element" [($"ref", $"biasDec"); ($"use", $"optional")] [] [];
    Elem $"element" [($"ref", $"biasTime"); ($"use", $"optional")] [] []];
   Elem $"doc" [] $"
    OpticalRes is optional for the OpticalResiduals group
  " []];
  Elem $"grouptype" [($"name", $"OpticalResMag")] [] [
   Elem $"sequence" [] [] [
    Elem $"element" [($"ref", $"photProd"); ($"use", $"optional")] [] [];
    Elem $"element" [($"ref", $"resMag")] [] [];
    Elem $"element" [($"ref", $"selPhot")] [] [];
    Elem $"element" [($"ref", $"sigMag")] [] [];
    Elem $"element" [($"ref", $"biasMag"); ($"use", $"optional")] [] [];
    Elem $"element" [($"ref", $"photMod"); ($"use", $"optional")] [] []];
   Elem $"doc" [] $"
    OpticalRes is optional for the OpticalResiduals group
  " []];
  Elem $"grouptype" [($"name", $"OpticalResiduals")] [] [
   Elem $"sequence" [] [] [
    Elem $"element" [($"ref", $"orbProd")] [] [];
    Elem $"element" [($"ref", $"orbID")] [] [];
    Elem $"choice" [] [] [
     Elem $"sequence" [] [] [
      Elem $"group" [($"ref", $"OpticalRes")] [] [];
      Elem $"group" [($"ref", $"OpticalResMag"); ($"use", $"optional")] [] []];
     Elem $"sequence" [] [] [
      Elem $"group" [($"ref", $"OpticalResMag")] [] []]]];
   Elem $"doc" [] $"
      The OpticalResiduals group is optional for adding residuals
      to optical observations, or as a separate obsResidual element 
      tagged by obsID
   " []];
  Elem $"grouptype" [($"name", $"RadarResiduals")] [] [
   Elem $"sequence" [] [] [
    Elem $"element" [($"ref", $"orbProd")] [] [];
    Elem $"element" [($"ref", $"orbID")] [] [];
    Elem $"choice" [] [] [
     Elem $"sequence" [] [] [
      Elem $"element" [($"ref", $"resDelay")] [] [];
      Elem $"element" [($"ref", $"selDelay")] [] [];
      Elem $"element" [($"ref", $"sigDelay")] [] []];
     Elem $"sequence" [] [] [
      Elem $"element" [($"ref", $"resDoppler")] [] [];
      Elem $"element" [($"ref", $"selDoppler")] [] [];
      Elem $"element" [($"ref", $"sigDoppler")] [] []]]];
   Elem $"doc" [] $"
      The RadarResiduals group is optional for adding residuals
      to optical observations, or as a separate obsResidual element 
      tagged by obsID
   " []];
  Elem $"complextype" [($"name", $"LocalUseType")] [] [
   Elem $"doc" [] $"This element is to allow arbitrary fields 
       for private data interchange" [];
   Elem $"sequence" [] [] [
    Elem $"any" [] [] []]];
  Elem $"complextype" [($"name", $"OpticalType")] [] [
   Elem $"doc" [] $"Optical Observation with RA and Dec" [];
   Elem $"sequence" [] [] [
    Elem $"group" [($"ref", $"OpticalID")] [] [];
    Elem $"element" [($"ref", $"mode")] [] [];
    Elem $"element" [($"ref", $"stn")] [] [];
    Elem $"group" [($"ref", $"Location"); ($"use", $"optional")] [] [];
    Elem $"element" [($"ref", $"prog"); ($"use", $"NoSubmit")] [] [];
    Elem $"element" [($"ref", $"obsTime")] [] [];
    Elem $"element" [($"ref", $"rmsTime"); ($"use", $"optional")] [] [];
    Elem $"element" [($"ref", $"ra")] [] [];
    Elem $"element" [($"ref", $"dec")] [] [];
    Elem $"element" [($"ref", $"rmsRA"); ($"use", $"optional")] [] [];
    Elem $"element" [($"ref", $"rmsDec"); ($"use", $"optional")] [] [];
    Elem $"element" [($"ref", $"rmsCorr"); ($"use", $"optional")] [] [];
    Elem $"element" [($"ref", $"astCat")] [] [];
    Elem $"group" [($"ref", $"Photometry"); ($"use", $"optional")] [] [];
    Elem $"element" [($"ref", $"logSNR"); ($"use", $"optional")] [] [];
    Elem $"element" [($"ref", $"seeing"); ($"use", $"optional")] [] [];
    Elem $"element" [($"ref", $"exp"); ($"use", $"optional")] [] [];
    Elem $"element" [($"ref", $"rmsFit"); ($"use", $"optional")] [] [];
    Elem $"element" [($"ref", $"nStars"); ($"use", $"optional")] [] [];
    Elem $"element" [($"ref", $"ref"); ($"use", $"NoSubmit")] [] [];
    Elem $"element" [($"ref", $"disc"); ($"use", $"optional")] [] [];
    Elem $"element" [($"ref", $"subFrm"); ($"use", $"NoSubmit")] [] [];
    Elem $"element" [($"ref", $"subFmt"); ($"use", $"NoSubmit")] [] [];
    Elem $"group" [($"ref", $"Precision"); ($"use", $"NoSubmit")] [] [];
    Elem $"element" [($"ref", $"uncTime"); ($"use", $"optional")] [] [];
    Elem $"element" [($"ref", $"notes"); ($"use", $"optional")] [] [];
    Elem $"element" [($"ref", $"remarks"); ($"use", $"optional")] [] [];
    Elem $"group" [($"ref", $"OpticalResiduals"); ($"use", $"NoSubmit")] [] [];
    Elem $"element" [($"ref", $"deprecated"); ($"use", $"NoSubmit")] [] [];
    Elem $"element" [($"ref", $"localUse"); ($"use", $"NoSubmit")] [] []]];
  Elem $"complextype" [($"name", $"OffsetType")] [] [
   Elem $"doc" [] $"Optical Offset Observation with RA and Dec" [];
   Elem $"sequence" [] [] [
    Elem $"group" [($"ref", $"OpticalID")] [] [];
    Elem $"element" [($"ref", $"mode")] [] [];
    Elem $"element" [($"ref", $"stn")] [] [];
    Elem $"group" [($"ref", $"Location"); ($"use", $"optional")] [] [];
    Elem $"element" [($"ref", $"prog"); ($"use", $"NoSubmit")] [] [];
    Elem $"element" [($"ref", $"obsTime")] [] [];
    Elem $"element" [($"ref", $"rmsTime"); ($"use", $"optional")] [] [];
    Elem $"element" [($"ref", $"obsCenter")] [] [];
    Elem $"group" [($"ref", $"OffsetVal")] [] [];
    Elem $"group" [($"ref", $"Photometry"); ($"use", $"optional")] [] [];
    Elem $"element" [($"ref", $"logSNR"); ($"use", $"optional")] [] [];
    Elem $"element" [($"ref", $"seeing"); ($"use", $"optional")] [] [];
    Elem $"element" [($"ref", $"exp"); ($"use", $"optional")] [] [];
    Elem $"element" [($"ref", $"rmsFit"); ($"use", $"optional")] [] [];
    Elem $"element" [($"ref", $"nStars"); ($"use", $"optional")] [] [];
    Elem $"element" [($"ref", $"ref"); ($"use", $"NoSubmit")] [] [];
    Elem $"element" [($"ref", $"disc"); ($"use", $"optional")] [] [];
    Elem $"element" [($"ref", $"subFrm"); ($"use", $"NoSubmit")] [] [];
    Elem $"element" [($"ref", $"subFmt"); ($"use", $"NoSubmit")] [] [];
    Elem $"group" [($"ref", $"Precision"); ($"use", $"NoSubmit")] [] [];
    Elem $"element" [($"ref", $"uncTime"); ($"use", $"optional")] [] [];
    Elem $"element" [($"ref", $"notes"); ($"use", $"optional")] [] [];
    Elem $"element" [($"ref", $"remarks"); ($"use", $"optional")] [] [];
    Elem $"group" [($"ref", $"OpticalResiduals"); ($"use", $"NoSubmit")] [] [];
    Elem $"element" [($"ref", $"deprecated"); ($"use", $"NoSubmit")] [] [];
    Elem $"element" [($"ref", $"localUse"); ($"use", $"NoSubmit")] [] []]];
  Elem $"complextype" [($"name", $"OccultationType")] [] [
   Elem $"doc" [] $"Optical Occultation Observation with deltaRA, deltaDec, raStar and decStar" [];
   Elem $"sequence" [] [] [
    Elem $"group" [($"ref", $"OpticalID")] [] [];
    Elem $"element" [($"ref", $"mode")] [] [];
    Elem $"element" [($"ref", $"stn")] [] [];
    Elem $"group" [($"ref", $"Location"); ($"use", $"optional")] [] [];
    Elem $"element" [($"ref", $"prog"); ($"use", $"NoSubmit")] [] [];
    Elem $"element" [($"ref", $"obsTime")] [] [];
    Elem $"element" [($"ref", $"rmsTime"); ($"use", $"optional")] [] [];
    Elem $"element" [($"ref", $"raStar")] [] [];
    Elem $"element" [($"ref", $"decStar")] [] [];
    Elem $"group" [($"ref", $"OffsetVal")] [] [];
    Elem $"element" [($"ref", $"astCat")] [] [];
    Elem $"group" [($"ref", $"Photometry"); ($"use", $"optional")] [] [];
    Elem $"element" [($"ref", $"logSNR"); ($"use", $"optional")] [] [];
    Elem $"element" [($"ref", $"shapeOcc"); ($"use", $"optional")] [] [];
    Elem $"element" [($"ref", $"seeing"); ($"use", $"optional")] [] [];
    Elem $"element" [($"ref", $"ref"); ($"use", $"NoSubmit")] [] [];
    Elem $"element" [($"ref", $"disc"); ($"use", $"optional")] [] [];
    Elem $"element" [($"ref", $"subFrm"); ($"use", $"NoSubmit")] [] [];
    Elem $"element" [($"ref", $"subFmt"); ($"use", $"NoSubmit")] [] [];
    Elem $"group" [($"ref", $"Precision"); ($"use", $"NoSubmit")] [] [];
    Elem $"element" [($"ref", $"uncTime"); ($"use", $"optional")] [] [];
    Elem $"element" [($"ref", $"notes"); ($"use", $"optional")] [] [];
    Elem $"element" [($"ref", $"remarks"); ($"use", $"optional")] [] [];
    Elem $"group" [($"ref", $"OpticalResiduals"); ($"use", $"NoSubmit")] [] [];
    Elem $"element" [($"ref", $"deprecated"); ($"use", $"NoSubmit")] [] [];
    Elem $"element" [($"ref", $"localUse"); ($"use", $"NoSubmit")] [] []]];
  Elem $"complextype" [($"name", $"RadarType")] [] [
   Elem $"doc" [] $"Radar Observation using either doppler or delay values from RadarValue" [];
   Elem $"sequence" [] [] [
    Elem $"group" [($"ref", $"RadarID")] [] [];
    Elem $"element" [($"ref", $"trx")] [] [];
    Elem $"element" [($"ref", $"rcv")] [] [];
    Elem $"element" [($"ref", $"prog"); ($"use", $"NoSubmit")] [] [];
    Elem $"element" [($"ref", $"obsTime")] [] [];
    Elem $"group" [($"ref", $"RadarValue")] [] [];
    Elem $"element" [($"ref", $"logSNR"); ($"use", $"optional")] [] [];
    Elem $"element" [($"ref", $"com"); ($"use", $"optional")] [] [];
    Elem $"element" [($"ref", $"frq")] [] [];
    Elem $"element" [($"ref", $"ref"); ($"use", $"NoSubmit")] [] [];
    Elem $"element" [($"ref", $"remarks"); ($"use", $"optional")] [] [];
    Elem $"group" [($"ref", $"RadarResiduals"); ($"use", $"NoSubmit")] [] [];
    Elem $"element" [($"ref", $"localUse"); ($"use", $"NoSubmit")] [] []]];
  Elem $"complextype" [($"name", $"ObsContextType")] [] [
   Elem $"doc" [] $"observation context header type" [];
   Elem $"all" [] [] [
    Elem $"element" [($"ref", $"observatory")] [] [];
    Elem $"element" [($"ref", $"submitter")] [] [];
    Elem $"element" [($"ref", $"observers"); ($"use", $"optional")] [] [];
    Elem $"element" [($"ref", $"measurers")] [] [];
    Elem $"element" [($"ref", $"telescope")] [] [];
    Elem $"element" [($"ref", $"software"); ($"use", $"optional")] [] [];
    Elem $"element" [($"ref", $"coinvestigators"); ($"use", $"optional")] [] [];
    Elem $"element" [($"ref", $"collaborators"); ($"use", $"optional")] [] [];
    Elem $"element" [($"ref", $"fundingSource"); ($"use", $"optional")] [] [];
    Elem $"element" [($"ref", $"comment"); ($"use", $"optional")] [] []]];
  Elem $"complextype" [($"name", $"ObsDataType")] [] [
   Elem $"doc" [] $"A list of all optical or all radar observations" [];
   Elem $"choice" [] [] [
    Elem $"element" [($"ref", $"optical"); ($"use", $"unbounded")] [] [];
    Elem $"element" [($"ref", $"offset"); ($"use", $"unbounded")] [] [];
    Elem $"element" [($"ref", $"occultation"); ($"use", $"unbounded")] [] [];
    Elem $"element" [($"ref", $"radar"); ($"use", $"unbounded")] [] []]];
  Elem $"complextype" [($"name", $"ObsBlockType")] [] [
   Elem $"doc" [] $"A list of all optical or all radar observations, with context" [];
   Elem $"sequence" [] [] [
    Elem $"element" [($"ref", $"obsContext")] [] [];
    Elem $"element" [($"ref", $"obsData")] [] []]];
  Elem $"complextype" [($"name", $"OpticalResType")] [] [
   Elem $"doc" [] $"Optical Residual outside of the optical/occulatation/offset structure" [];
   Elem $"sequence" [] [] [
    Elem $"group" [($"ref", $"OpticalID")] [] [];
    Elem $"element" [($"ref", $"obsTime")] [] [];
    Elem $"group" [($"ref", $"OpticalResiduals")] [] []]];
  Elem $"complextype" [($"name", $"RadarResType")] [] [
   Elem $"doc" [] $"Radar Residual outside of the radar structure" [];
   Elem $"sequence" [] [] [
    Elem $"group" [($"ref", $"RadarID")] [] [];
    Elem $"element" [($"ref", $"obsTime")] [] [];
    Elem $"group" [($"ref", $"RadarResiduals")] [] []]];
  Elem $"complextype" [($"name", $"ADESType")] [] [
   Elem $"doc" [] $"This is what is allowed in ades documents -- any
       of these in any order" [];
   Elem $"attribute" [($"name", $"version"); ($"type", $"VersionType"); ($"use", $"requiredAttribute"); ($"doc", $"must be 2022")] [] [];
   Elem $"choice" [($"use", $"unbounded")] [] [
    Elem $"element" [($"ref", $"optical"); ($"use", $"NoSubmit")] [] [];
    Elem $"element" [($"ref", $"offset"); ($"use", $"NoSubmit")] [] [];
    Elem $"element" [($"ref", $"occultation"); ($"use", $"NoSubmit")] [] [];
    Elem $"element" [($"ref", $"radar"); ($"use", $"NoSubmit")] [] [];
    Elem $"element" [($"ref", $"opticalResidual"); ($"use", $"NoSubmit")] [] [];
    Elem $"element" [($"ref", $"radarResidual"); ($"use", $"NoSubmit")] [] [];
    Elem $"element" [($"ref", $"obsBlock")] [] []]]].

(** /ades/XSDElementTypes *)
Definition master_docs_1 : xml :=
 Elem $"XSDElementTypes" [($"purpose", $"ADES observation sub-elements")] [] [
  Elem $"doc" [] $"These elements are for the observation types in the required order" [];
  Elem $"element" [($"name", $"permID"); ($"type", $"PermIDType"); ($"doc", $"IAU permanent designation, i.e., IAU number")] [] [];
  Elem $"element" [($"name", $"provID"); ($"type", $"ProvIDType"); ($"doc", $"MPC provisional designation (unpacked form) for unnumbered object")] [] [];
  Elem $"element" [($"name", $"artSat"); ($"type", $"StringTypeW25"); ($"doc", $"Name of an artificial satellite using international-style designation, e.g., 1998-067A. The general form is YYYY-NNNAAA.")] [] [];
  Elem $"element" [($"name", $"trkSub"); ($"type", $"TrkSubType"); ($"doc", $"Observer-assigned tracklet identifier, unique within submission batch.")] [] [];
  Elem $"element" [($"name", $"obsID"); ($"type", $"ObsIDType"); ($"doc", $"Globally Unique Observation ID assigned by MPC.")] [] [];
  Elem $"element" [($"name", $"obsSubID"); ($"type", $"StringTypeW25"); ($"doc", $"Observation identifier, optionally included with the submission, that is unique to a given observing program. This element is intended to support extended analyses associated with major observing programs.")] [] [];
  Elem $"element" [($"name", $"trkID"); ($"type", $"TrkIDType"); ($"doc", $"Globally Unique alphnumeric tracklet ID assigned by MPC")] [] [];
  Elem $"element" [($"name", $"trkMPC"); ($"type", $"TrkIDType"); ($"doc", $"MPC-internal tracklet identifier, used in cases where the value of the trkSub element should be considered deprecated.")] [] [];
  Elem $"element" [($"name", $"mode"); ($"type", $"ModeType"); ($"doc", $"Mode of optical and offset observations.")] [] [];
  Elem $"element" [($"name", $"stn"); ($"type", $"StationType"); ($"doc", $"Obervatory code from MPC list.")] [] [];
  Elem $"element" [($"name", $"trx"); ($"type", $"StationType"); ($"doc", $"Station code of transmiting antenna.")] [] [];
  Elem $"element" [($"name", $"rcv"); ($"type", $"StationType"); ($"doc", $"Station code of receiving antenna.")] [] [];
  Elem $"element" [($"name", $"sys"); ($"type", $"SysType"); ($"doc", $"Coordinate system for station coordinates and covariance.")] [] [];
  Elem $"element" [($"name", $"ctr"); ($"type", $"CtrType"); ($"doc", $"Origin of the reference system. Use an enumerated subset of public SPICE codes, e.g., 399 is the geocenter.")] [] [];
  Elem $"element" [($"name", $"pos1"); ($"type", $"DecimalTypeW14"); ($"doc", $"Position of observer per sys, 1st value")] [] [];
  Elem $"element" [($"name", $"pos2"); ($"type", $"DecimalTypeW14"); ($"doc", $"Position of observer per sys, 2nd value")] [] [];
  Elem $"element" [($"name", $"pos3"); ($"type", $"DecimalTypeW14"); ($"doc", $"Position of observer per sys, 3rd value")] [] [];
  Elem $"element" [($"name", $"vel1"); ($"type", $"DecimalTypeW14"); ($"doc", $"Velocity of observer per sys, 1st value")] [] [];
  Elem $"element" [($"name", $"vel2"); ($"type", $"DecimalTypeW14"); ($"doc", $"Velocity of observer per sys, 2nd value")] [] [];
  Elem $"element" [($"name", $"vel3"); ($"type", $"DecimalTypeW14"); ($"doc", $"Velocity of observer per sys, 3rd value")] [] [];
  Elem $"element" [($"name", $"posCov11"); ($"type", $"DoubleTypeW21"); ($"doc", $"11 covariance per sys")] [] [];
  Elem $"element" [($"name", $"posCov12"); ($"type", $"DoubleTypeW21"); ($"doc", $"12 covariance per sys")] [] [];
  Elem $"element" [($"name", $"posCov13"); ($"type", $"DoubleTypeW21"); ($"doc", $"13 covariance per sys")] [] [];
  Elem $"element" [($"name", $"posCov22"); ($"type", $"DoubleTypeW21"); ($"doc", $"22 covariance per sys")] [] [];
  Elem $"element" [($"name", $"posCov23"); ($"type", $"DoubleTypeW21"); ($"doc", $"23 covariance per sys")] [] [];
  Elem $"element" [($"name", $"posCov33"); ($"type", $"DoubleTypeW21"); ($"doc", $"33 covariance per sys")] [] [];
  Elem $"element" [($"name", $"prog"); ($"type", $"ProgType"); ($"doc", $"Program code as assigned by the MPC.")] [] [];
  Elem $"element" [($"name", $"obsTime"); ($"type", $"TimeType"); ($"doc", $"UTC time of the observation in ISO 8601 format, i.e., {\em yyyy-mm-ddThh:mm:ss.ssZ}.")] [] [];
  Elem $"element" [($"name", $"rmsTime"); ($"type", $"PosDecimalTypeW8"); ($"doc", $"Random component of the obsTime $1\sigma$ uncertainty in seconds as estimated by the observer.")] [] [];
  Elem $"element" [($"name", $"ra"); ($"type", $"RAType"); ($"doc", $"J2000.0 Astrometric equatorial right ascension in decimal degrees.")] [] [];
  Elem $"element" [($"name", $"dec"); ($"type", $"DeclinationType"); ($"doc", $"J2000.0 Astrometric equatorial declination in decimal degrees.  Positive DEC values may optionally include a \verb|+| sign")] [] [];
  Elem $"element" [($"name", $"raStar"); ($"type", $"RAType"); ($"doc", $"J2000.0 RA in decimal degrees of the occulted star")] [] [];
  Elem $"element" [($"name", $"decStar"); ($"type", $"DeclinationType"); ($"doc", $"J2000.0 DEC in decimal degrees of the occulted star")] [] [];
  Elem $"element" [($"name", $"obsCenter"); ($"type", $"ObsCenterType"); ($"doc", $"Center of offset observation may be planet or other body with PermID or ProvID")] [] [];
  Elem $"element" [($"name", $"deltaRA"); ($"type", $"DecimalTypeW10"); ($"doc", $"Measured $\Delta(\mathrm{RA}\cos\mathrm{ DEC})$ in arcseconds.  For offset measurements of a satellite with respect to its primary, or for occultation observations with respect to the star in rectangular coordinates, J2000.0 frame.")] [] [];
  Elem $"element" [($"name", $"deltaDec"); ($"type", $"DecimalTypeW10"); ($"doc", $"Measured  $\Delta$DEC in  arcseconds.  For offset measurements of a satellite with respect to its primary, or for occultation observations with respect to the star in rectangular coordinates, J2000.0 frame")] [] [];
  Elem $"element" [($"name", $"dist"); ($"type", $"PosDecimalTypeW10"); ($"doc", $"Measured distance in arcseconds.  For offset measurements of a satellite with respect to its primary, or for occultation observations with respect to the star in polar coordinates.")] [] [];
  Elem $"element" [($"name", $"pa"); ($"type", $"RAType"); ($"doc", $"Measured position angle in degrees.  For offset measurements of a satellite with respect to its primary, or for occultation observations with respect to the star in polar coordinates.")] [] [];
  Elem $"element" [($"name", $"rmsRA"); ($"type", $"PosDecimalTypeW7"); ($"doc", $"Random component of the $\mathrm{RA}\cos\mathrm{DEC}$ $1\sigma$ uncertainty in arcseconds as estimated by the observer as part of the image processing and astrometric reduction.")] [] [];
  Elem $"element" [($"name", $"rmsDec"); ($"type", $"PosDecimalTypeW7"); ($"doc", $"Random component of the DEC $1\sigma$ uncertainty in arcseconds as estimated by the observer as part of the image processing and astrometric reduction.")] [] [];
  Elem $"element" [($"name", $"rmsDist"); ($"type", $"PosDecimalTypeW6"); ($"doc", $"Random component of the distance $1\sigma$ uncertainty in arcseconds as estimated by the observer as part of the image processing and astrometric reduction.")] [] [];
  Elem $"element" [($"name", $"rmsPA"); ($"type", $"PosDecimalTypeW6"); ($"doc", $"Random component of the polar angle $1\sigma$ uncertainty in degrees  as estimated by the observer as part of the image processing and astrometric reduction.")] [] [];
  Elem $"element" [($"name", $"rmsCorr"); ($"type", $"CorrDecimalType"); ($"doc", $"Correlation between RA and DEC or dist and PA that may result from the astrometric reduction.  This is derived from the $\mathrm{RA}$-$\mathrm{DEC}$ or $\mathrm{dist}$-$\mathrm{PA}$ covariance matrix, where the off-diagonal term is $\mathrm{rmsCorr} * \mathrm{rmsRA} * \mathrm{rmsDec}$ or $\mathrm{rmsCorr} * \mathrm{rmsDist} * \mathrm{rmsPA}$.")] [] [];
  Elem $"element" [($"name", $"delay"); ($"type", $"PosDecimalTypeW14"); ($"doc", $"Observed radar delay value in seconds.")] [] [];
  Elem $"element" [($"name", $"rmsDelay"); ($"type", $"PosDecimalTypeW6"); ($"doc", $"Measurement $1\sigma$ uncertainty in \si{\micro\second} for radar delay")] [] [];
  Elem $"element" [($"name", $"doppler"); ($"type", $"DecimalTypeW14"); ($"doc", $"observed radar doppler value in \si{\hertz}")] [] [];
  Elem $"element" [($"name", $"rmsDoppler"); ($"type", $"PosDecimalTypeW6"); ($"doc", $"Measurement $1\sigma$ uncertainty in \si{\hertz} for radar doppler")] [] [];
  Elem $"element" [($"name", $"astCat"); ($"type", $"CatType"); ($"doc", $"Star catalog used for the astrometric reduction or for the occulted star in the case of occultation observations.)")] [] [];
  Elem $"element" [($"name", $"mag"); ($"type", $"MagType"); ($"doc", $"Apparent Magnitude in specified band")] [] [];
  Elem $"element" [($"name", $"rmsMag"); ($"type", $"PosDecimalTypeW6"); ($"doc", $"Apparent magnitude $1\sigma$ uncertainty in magnitudes.")] [] [];
  Elem $"element" [($"name", $"band"); ($"type", $"BandType"); ($"doc", $"Passband designation for photometry. This is normally the passband of the reference star catalog.")] [] [];
  Elem $"element" [($"name", $"fltr"); ($"type", $"BandType"); ($"doc", $"Filter used for observation. This is primarily used to distinguish simultaneous multi-filter astrometry.")] [] [];
  Elem $"element" [($"name", $"photCat"); ($"type", $"CatType"); ($"doc", $"Star catalog used for photometry measurements.")] [] [];
  Elem $"element" [($"name", $"photAp"); ($"type", $"PosDecimalTypeW6"); ($"doc", $"Photometric aperture radius in arcseconds.")] [] [];
  Elem $"element" [($"name", $"nucMag"); ($"type", $"LogicalType"); ($"doc", $"Nuclear magnitude flag for comets.  0 for total magnitude (i.e., for most archival comet observations and all asteroid observations), 1 for nuclear magnitude. Primarily used for archival data as photAp should be used to communicate this information in the new standard")] [] [];
  Elem $"element" [($"name", $"logSNR"); ($"type", $"DecimalTypeW6"); ($"doc", $"$\log_{10}$ of the signal-to-noise ratio of the source in the image integrated on the entire aperture used for the astrometric centroid.")] [] [];
  Elem $"element" [($"name", $"shapeOcc"); ($"type", $"LogicalType"); ($"doc", $"For occultation observations, a flag to indicate that the observation reduction assumes a shape-based (non-circular) plane-of-sky cross-section. False implies that a circular cross section was assumed.")] [] [];
  Elem $"element" [($"name", $"seeing"); ($"type", $"PosDecimalTypeW6"); ($"doc", $"Size of seeing disc in arcseconds, measured at Full Width Half Maximum (FWHM) of target point spread function (PSF). ")] [] [];
  Elem $"element" [($"name", $"exp"); ($"type", $"PosDecimalTypeW6"); ($"doc", $"Exposure time in \si{\second}.  Total exposure time in the case of stacked image detections ")] [] [];
  Elem $"element" [($"name", $"rmsFit"); ($"type", $"PosDecimalTypeW6"); ($"doc", $"RMS of fit of astrometric comparison stars in arcseconds. ")] [] [];
  Elem $"element" [($"name", $"nStars"); ($"type", $"PosIntegerTypeW6"); ($"doc", $"Number of stars in astrometric fit.")] [] [];
  Elem $"element" [($"name", $"com"); ($"type", $"LogicalType"); ($"doc", $"Flag to indicate that the observation is reduced to the center of mass.  0 implies a measurement to the peak power position, which is usually interpreted as the leading edge of the target, with the reflection point being modeled one object radius prior to the center of mass.")] [] [];
  Elem $"element" [($"name", $"frq"); ($"type", $"FrequencyType"); ($"doc", $"Carrier reference frequence in \si{\mega\hertz}")] [] [];
  Elem $"element" [($"name", $"ref"); ($"type", $"RefType"); ($"doc", $"Standard reference field used for citations.")] [] [];
  Elem $"element" [($"name", $"disc"); ($"type", $"DiscType"); ($"doc", $"Discovery flag; `*' marks a new discovery record; '+' marks the first measurement of a previously observed object; otherwise not present")] [] [];
  Elem $"element" [($"name", $"subFrm"); ($"type", $"SubFrmType"); ($"doc", $"Reference frame for the original submission of reported angular measurements.")] [] [];
  Elem $"element" [($"name", $"subFmt"); ($"type", $"SubFmtType"); ($"doc", $"Format in which the observation was originally submitted to the MPC, e.g., M92 for MPC1992 format or A17 for the current standard standard.  Filled by the MPC according to a list provided and maintained by the MPC.")] [] [];
  Elem $"element" [($"name", $"precTime"); ($"type", $"TimePrecType"); ($"doc", $"Precision in millionths of a day of the reported obeservation time for archived MPC1992 data records")] [] [];
  Elem $"element" [($"name", $"precRA"); ($"type", $"RaDecPrecType"); ($"doc", $"Precision in seconds of the reported RA for archived MPC1992 data records.")] [] [];
  Elem $"element" [($"name", $"precDec"); ($"type", $"RaDecPrecType"); ($"doc", $"Precision in arcseconds of the reported DEC for archived MPC1992 data records.")] [] [];
  Elem $"element" [($"name", $"uncTime"); ($"type", $"PosDecimalTypeW8"); ($"doc", $"Estimated time uncertainty in seconds. Unlike the preceding RMS fields, which indicate random errors, this field indicates a presumed level of systematic clock error.  NB: This field is generally only to be used to communicate exceptions and problems with clock calibration and is not intended to be used in routine submissions where clock errors are not a significant source of astrometric error.")] [] [];
  Elem $"element" [($"name", $"notes"); ($"type", $"NotesType"); ($"doc", $"A set of one-character note flags to communicate observing circumstances.")] [] [];
  Elem $"element" [($"name", $"remarks"); ($"type", $"RemarkType"); ($"doc", $"Comment field provided by the observer.  This field can be used to report additional information that is not reportable in the notes field, but that may be of relevance for interpretation of the observations.")] [] [];
  Elem $"element" [($"name", $"deprecated"); ($"type", $"DeprecatedType"); ($"doc", $"Marks deprecated observation.")] [] [];
  Elem $"element" [($"name", $"localUse"); ($"type", $"LocalUseType"); ($"doc", $"For user-defined fields in observations")] [] []].

(** /ades/XSDElementTypes *)
Definition master_docs_2 : xml :=
 Elem $"XSDElementTypes" [($"purpose", $"observations residual sub-elements")] [] [
  Elem $"element" [($"name", $"orbProd"); ($"type", $"StringTypeW100"); ($"doc", $"Orbit producer.  Can be institution, individual, or even email address, e.g.`MPC'")] [] [];
  Elem $"element" [($"name", $"orbID"); ($"type", $"StringTypeW25"); ($"doc", $"Local reference for orbit, e.g., `JPL 7' or `MPO 12345'.")] [] [];
  Elem $"element" [($"name", $"resRA"); ($"type", $"DoubleTypeW7"); ($"doc", $"Residuals in $\mathrm{RA}\cos\mathrm{DEC}$ in arcseconds")] [] [];
  Elem $"element" [($"name", $"resDec"); ($"type", $"DoubleTypeW7"); ($"doc", $"Residuals in DEC in arcseconds")] [] [];
  Elem $"element" [($"name", $"selAst"); ($"type", $"SelResType"); ($"doc", $"Inclusion/rejection flag for astrometry")] [] [];
  Elem $"element" [($"name", $"sigRA"); ($"type", $"PosDecimalTypeW7"); ($"doc", $"Adopted $\mathrm{RA}\cos\mathrm{DEC}$ $1\sigma$ uncertainty in arcseconds.")] [] [];
  Elem $"element" [($"name", $"sigDec"); ($"type", $"PosDecimalTypeW7"); ($"doc", $"Adopted DEC $1\sigma$ uncertainty in arcseconds.")] [] [];
  Elem $"element" [($"name", $"sigCorr"); ($"type", $"CorrDecimalType"); ($"doc", $"Adopted correlation between $\mathrm{RA}\cos\mathrm{DEC}$ and $\mathrm{DEC}$.")] [] [];
  Elem $"element" [($"name", $"sigTime"); ($"type", $"PosDecimalTypeW8"); ($"doc", $"Adopted $1\sigma$ time uncertainty in seconds.")] [] [];
  Elem $"element" [($"name", $"biasRA"); ($"type", $"DecimalTypeW8"); ($"doc", $"Adopted $\mathrm{RA}\cos\mathrm{DEC}$ bias in arcseconds.")] [] [];
  Elem $"element" [($"name", $"biasDec"); ($"type", $"DecimalTypeW8"); ($"doc", $"Adopted $\mathrm{DEC}$ bias in arcseconds.")] [] [];
  Elem $"element" [($"name", $"biasTime"); ($"type", $"DecimalTypeW10"); ($"doc", $"Adopted time bias in \si{\second}.")] [] [];
  Elem $"element" [($"name", $"photProd"); ($"type", $"StringTypeW100"); ($"doc", $"Producer of photometric residuals.   Can be institution, individual, or even email address, e.g.`MPC'")] [] [];
  Elem $"element" [($"name", $"resMag"); ($"type", $"DoubleTypeW7"); ($"doc", $"Photometric residual in magnitudes")] [] [];
  Elem $"element" [($"name", $"selPhot"); ($"type", $"SelResType"); ($"doc", $"Inclusion/rejection flag for photometry")] [] [];
  Elem $"element" [($"name", $"sigMag"); ($"type", $"PosDecimalTypeW6"); ($"doc", $"Adopted $1\sigma$ magnitude uncertainy in magnitudees.")] [] [];
  Elem $"element" [($"name", $"biasMag"); ($"type", $"DecimalTypeW6"); ($"doc", $"Adopted photometric bias in magnitudes")] [] [];
  Elem $"element" [($"name", $"photMod"); ($"type", $"PhotModType"); ($"doc", $"Description of the photometric model.")] [] [];
  Elem $"element" [($"name", $"resDelay"); ($"type", $"DoubleTypeW7"); ($"doc", $"Residual of the radar measurement in \si{\micro\second} for delay")] [] [];
  Elem $"element" [($"name", $"selDelay"); ($"type", $"SelResType"); ($"doc", $"Inclusion/rejection flag for radar astrometry")] [] [];
  Elem $"element" [($"name", $"sigDelay"); ($"type", $"PosDecimalTypeW6"); ($"doc", $"Adopted uncertainty for the radar measurement in \si{\micro\second} for delay")] [] [];
  Elem $"element" [($"name", $"resDoppler"); ($"type", $"DoubleTypeW7"); ($"doc", $"Residual of the radar measurement in \si{\hertz} for Doppler")] [] [];
  Elem $"element" [($"name", $"selDoppler"); ($"type", $"SelResType"); ($"doc", $"Inclusion/rejection flag for radar astrometry")] [] [];
  Elem $"element" [($"name", $"sigDoppler"); ($"type", $"PosDecimalTypeW6"); ($"doc", $"Adopted uncertainty for the radar measurement in \si{\hertz} for Doppler")] [] []].

(** /ades/XSDElementTypes *)
Definition master_docs_3 : xml :=
 Elem $"XSDElementTypes" [($"purpose", $"observation-context sub-elements")] [] [
  Elem $"doc" [] $"These elements are for the observation context types" [];
  Elem $"element" [($"name", $"observatory"); ($"type", $"ObservatoryType"); ($"doc", $"observatory information block")] [] [];
  Elem $"element" [($"name", $"submitter"); ($"type", $"SubmitterType"); ($"doc", $"Contact information block")] [] [];
  Elem $"element" [($"name", $"observers"); ($"type", $"NamesType"); ($"doc", $"list of observer names (initials then surname)")] [] [];
  Elem $"element" [($"name", $"measurers"); ($"type", $"NamesType"); ($"doc", $"list of measurer names (initials then surnames)")] [] [];
  Elem $"element" [($"name", $"telescope"); ($"type", $"TelescopeType"); ($"doc", $"Description of telescope")] [] [];
  Elem $"element" [($"name", $"software"); ($"type", $"SoftwareType"); ($"doc", $"Description of software")] [] [];
  Elem $"element" [($"name", $"coinvestigators"); ($"type", $"NamesType"); ($"doc", $"list of coinvestigator names (initials then surname)")] [] [];
  Elem $"element" [($"name", $"collaborators"); ($"type", $"NamesType"); ($"doc", $"list of collaborator names (initials then surname)")] [] [];
  Elem $"element" [($"name", $"fundingSource"); ($"type", $"StringTypeW100"); ($"doc", $"funding source")] [] [];
  Elem $"element" [($"name", $"comment"); ($"type", $"CommentType"); ($"doc", $"comment for observation context")] [] []].

(** /ades/XSDElementTypes *)
Definition master_docs_4 : xml :=
 Elem $"XSDElementTypes" [($"purpose", $"observation types")] [] [
  Elem $"doc" [] $"These are the five observation types" [];
  Elem $"element" [($"name", $"optical"); ($"type", $"OpticalType"); ($"doc", $"optical observation")] [] [];
  Elem $"element" [($"name", $"offset"); ($"type", $"OffsetType"); ($"doc", $"optical offset")] [] [];
  Elem $"element" [($"name", $"occultation"); ($"type", $"OccultationType"); ($"doc", $"optical occultation")] [] [];
  Elem $"element" [($"name", $"radar"); ($"type", $"RadarType"); ($"doc", $"delay or doppler radar")] [] []].

(** /ades/XSDElementTypes *)
Definition master_docs_5 : xml :=
 Elem $"XSDElementTypes" [($"purpose", $"observation-context, obsBlock")] [] [
  Elem $"doc" [] $"These are the top-level types>" [];
  Elem $"element" [($"name", $"obsContext"); ($"type", $"ObsContextType"); ($"doc", $"observation context information")] [] [];
  Elem $"element" [($"name", $"obsData"); ($"type", $"ObsDataType"); ($"doc", $"list of optical or radar observations")] [] [];
  Elem $"element" [($"name", $"obsBlock"); ($"type", $"ObsBlockType"); ($"doc", $"obsBlock contains an obsContext and obsData")] [] []].

(** /ades/XSDElementTypes *)
Definition master_docs_6 : xml :=
 Elem $"XSDElementTypes" [($"purpose", $"Free-Standing Residuals")] [] [
  Elem $"doc" [] $"These are the top-level types for residuals>" [];
  Elem $"element" [($"name", $"opticalResidual"); ($"type", $"OpticalResType"); ($"doc", $"optical residual")] [] [];
  Elem $"element" [($"name", $"radarResidual"); ($"type", $"RadarResType"); ($"doc", $"radar residual")] [] []].

(** /ades/XSDElementTypes *)
Definition master_docs_7 : xml :=
 Elem $"XSDElementTypes" [($"purpose", $"ADES root")] [] [
  Elem $"doc" [] $"The intended top-level document root" [];
  Elem $"element" [($"name", $"ades"); ($"type", $"ADESType"); ($"doc", $"document root")] [] []].

(** /ades/PSVObservationFields *)
Definition master_docs_8 : xml :=
 Elem $"PSVObservationFields" [($"doc", $" PSVObservationFields doc ")] [] [
  Elem $"psv" [($"tagtype", $"optical"); ($"name", $"permID"); ($"width", $"7"); ($"justification", $"R"); ($"dpos", $"0")] [] [];
  Elem $"psv" [($"tagtype", $"optical"); ($"name", $"provID"); ($"width", $"11"); ($"justification", $"L"); ($"dpos", $"0")] [] [];
  Elem $"psv" [($"tagtype", $"optical"); ($"name", $"artSat"); ($"width", $"8"); ($"justification", $"R"); ($"dpos", $"0")] [] [];
  Elem $"psv" [($"tagtype", $"optical"); ($"name", $"trkSub"); ($"width", $"7"); ($"justification", $"R"); ($"dpos", $"0")] [] [];
  Elem $"psv" [($"tagtype", $"optical"); ($"name", $"mode"); ($"width", $"3"); ($"justification", $"R"); ($"dpos", $"0")] [] [];
  Elem $"psv" [($"tagtype", $"optical"); ($"name", $"stn"); ($"width", $"4"); ($"justification", $"L"); ($"dpos", $"0")] [] [];
  Elem $"psv" [($"tagtype", $"optical"); ($"name", $"prog"); ($"width", $"2"); ($"justification", $"R"); ($"dpos", $"0")] [] [];
  Elem $"psv" [($"tagtype", $"optical"); ($"name", $"obsTime"); ($"width", $"23"); ($"justification", $"L"); ($"dpos", $"0")] [] [];
  Elem $"psv" [($"tagtype", $"optical"); ($"name", $"ra"); ($"width", $"12"); ($"justification", $"D"); ($"dpos", $"4")] [] [];
  Elem $"psv" [($"tagtype", $"optical"); ($"name", $"dec"); ($"width", $"12"); ($"justification", $"D"); ($"dpos", $"4")] [] [];
  Elem $"psv" [($"tagtype", $"optical"); ($"name", $"rmsRA"); ($"width", $"7"); ($"justification", $"D"); ($"dpos", $"2")] [] [];
  Elem $"psv" [($"tagtype", $"optical"); ($"name", $"rmsDec"); ($"width", $"7"); ($"justification", $"D"); ($"dpos", $"2")] [] [];
  Elem $"psv" [($"tagtype", $"optical"); ($"name", $"rmsCorr"); ($"width", $"7"); ($"justification", $"D"); ($"dpos", $"3")] [] [];
  Elem $"psv" [($"tagtype", $"optical"); ($"name", $"astCat"); ($"width", $"3"); ($"justification", $"R"); ($"dpos", $"0")] [] [];
  Elem $"psv" [($"tagtype", $"optical"); ($"name", $"mag"); ($"width", $"5"); ($"justification", $"D"); ($"dpos", $"3")] [] [];
  Elem $"psv" [($"tagtype", $"optical"); ($"name", $"rmsMag"); ($"width", $"4"); ($"justification", $"D"); ($"dpos", $"2")] [] [];
  Elem $"psv" [($"tagtype", $"optical"); ($"name", $"band"); ($"width", $"3"); ($"justification", $"R"); ($"dpos", $"0")] [] [];
  Elem $"psv" [($"tagtype", $"optical"); ($"name", $"photCat"); ($"width", $"3"); ($"justification", $"R"); ($"dpos", $"0")] [] [];
  Elem $"psv" [($"tagtype", $"optical"); ($"name", $"photAp"); ($"width", $"4"); ($"justification", $"D"); ($"dpos", $"3")] [] [];
  Elem $"psv" [($"tagtype", $"optical"); ($"name", $"logSNR"); ($"width", $"4"); ($"justification", $"D"); ($"dpos", $"2")] [] [];
  Elem $"psv" [($"tagtype", $"optical"); ($"name", $"seeing"); ($"width", $"3"); ($"justification", $"D"); ($"dpos", $"2")] [] [];
  Elem $"psv" [($"tagtype", $"optical"); ($"name", $"exp"); ($"width", $"4"); ($"justification", $"R"); ($"dpos", $"0")] [] [];
  Elem $"psv" [($"tagtype", $"optical"); ($"name", $"notes"); ($"width", $"5"); ($"justification", $"L"); ($"dpos", $"0")] [] [];
  Elem $"psv" [($"tagtype", $"optical"); ($"name", $"remarks"); ($"width", $"0"); ($"justification", $"L"); ($"dpos", $"0")] [] [];
  Elem $"psv" [($"tagtype", $"offset"); ($"name", $"permID"); ($"width", $"7"); ($"justification", $"R"); ($"dpos", $"0")] [] [];
  Elem $"psv" [($"tagtype", $"offset"); ($"name", $"provID"); ($"width", $"11"); ($"justification", $"L"); ($"dpos", $"0")] [] [];
  Elem $"psv" [($"tagtype", $"offset"); ($"name", $"artSat"); ($"width", $"8"); ($"justification", $"R"); ($"dpos", $"0")] [] [];
  Elem $"psv" [($"tagtype", $"offset"); ($"name", $"trkSub"); ($"width", $"7"); ($"justification", $"R"); ($"dpos", $"0")] [] [];
  Elem $"psv" [($"tagtype", $"offset"); ($"name", $"mode"); ($"width", $"3"); ($"justification", $"R"); ($"dpos", $"0")] [] [];
  Elem $"psv" [($"tagtype", $"offset"); ($"name", $"stn"); ($"width", $"4"); ($"justification", $"L"); ($"dpos", $"0")] [] [];
  Elem $"psv" [($"tagtype", $"offset"); ($"name", $"prog"); ($"width", $"2"); ($"justification", $"R"); ($"dpos", $"0")] [] [];
  Elem $"psv" [($"tagtype", $"offset"); ($"name", $"obsTime"); ($"width", $"23"); ($"justification", $"L"); ($"dpos", $"0")] [] [];
  Elem $"psv" [($"tagtype", $"offset"); ($"name", $"obsCenter"); ($"width", $"8"); ($"justification", $"L"); ($"dpos", $"0")] [] [];
  Elem $"psv" [($"tagtype", $"offset"); ($"name", $"deltaRA"); ($"width", $"12"); ($"justification", $"D"); ($"dpos", $"4")] [] [];
  Elem $"psv" [($"tagtype", $"offset"); ($"name", $"deltaDec"); ($"width", $"12"); ($"justification", $"D"); ($"dpos", $"4")] [] [];
  Elem $"psv" [($"tagtype", $"offset"); ($"name", $"rmsRA"); ($"width", $"7"); ($"justification", $"D"); ($"dpos", $"2")] [] [];
  Elem $"psv" [($"tagtype", $"offset"); ($"name", $"rmsDec"); ($"width", $"7"); ($"justification", $"D"); ($"dpos", $"2")] [] [];
  Elem $"psv" [($"tagtype", $"offset"); ($"name", $"dist"); ($"width", $"5"); ($"justification", $"D"); ($"dpos", $"2")] [] [];
  Elem $"psv" [($"tagtype", $"offset"); ($"name", $"pa"); ($"width", $"6"); ($"justification", $"D"); ($"dpos", $"2")] [] [];
  Elem $"psv" [($"tagtype", $"offset"); ($"name", $"rmsdist"); ($"width", $"7"); ($"justification", $"D"); ($"dpos", $"3")] [] [];
  Elem $"psv" [($"tagtype", $"offset"); ($"name", $"rmsPA"); ($"width", $"6"); ($"justification", $"D"); ($"dpos", $"3")] [] [];
  Elem $"psv" [($"tagtype", $"offset"); ($"name", $"rmsCorr"); ($"width", $"6"); ($"justification", $"D"); ($"dpos", $"2")] [] [];
  Elem $"psv" [($"tagtype", $"offset"); ($"name", $"astCat"); ($"width", $"3"); ($"justification", $"R"); ($"dpos", $"0")] [] [];
  Elem $"psv" [($"tagtype", $"offset"); ($"name", $"astCat"); ($"width", $"3"); ($"justification", $"R"); ($"dpos", $"0")] [] [];
  Elem $"psv" [($"tagtype", $"offset"); ($"name", $"mag"); ($"width", $"5"); ($"justification", $"D"); ($"dpos", $"3")] [] [];
  Elem $"psv" [($"tagtype", $"offset"); ($"name", $"rmsMag"); ($"width", $"4"); ($"justification", $"D"); ($"dpos", $"2")] [] [];
  Elem $"psv" [($"tagtype", $"offset"); ($"name", $"band"); ($"width", $"3"); ($"justification", $"R"); ($"dpos", $"0")] [] [];
  Elem $"psv" [($"tagtype", $"offset"); ($"name", $"photCat"); ($"width", $"3"); ($"justification", $"R"); ($"dpos", $"0")] [] [];
  Elem $"psv" [($"tagtype", $"offset"); ($"name", $"photAp"); ($"width", $"4"); ($"justification", $"D"); ($"dpos", $"3")] [] [];
  Elem $"psv" [($"tagtype", $"offset"); ($"name", $"logSNR"); ($"width", $"4"); ($"justification", $"D"); ($"dpos", $"2")] [] [];
  Elem $"psv" [($"tagtype", $"offset"); ($"name", $"seeing"); ($"width", $"3"); ($"justification", $"D"); ($"dpos", $"2")] [] [];
  Elem $"psv" [($"tagtype", $"offset"); ($"name", $"exp"); ($"width", $"4"); ($"justification", $"R"); ($"dpos", $"0")] [] [];
  Elem $"psv" [($"tagtype", $"offset"); ($"name", $"notes"); ($"width", $"5"); ($"justification", $"L"); ($"dpos", $"0")] [] [];
  Elem $"psv" [($"tagtype", $"offset"); ($"name", $"remarks"); ($"width", $"0"); ($"justification", $"L"); ($"dpos", $"0")] [] [];
  Elem $"psv" [($"tagtype", $"occultation"); ($"name", $"permID"); ($"width", $"7"); ($"justification", $"R"); ($"dpos", $"0")] [] [];
  Elem $"psv" [($"tagtype", $"occultation"); ($"name", $"provID"); ($"width", $"11"); ($"justification", $"L"); ($"dpos", $"0")] [] [];
  Elem $"psv" [($"tagtype", $"occultation"); ($"name", $"artSat"); ($"width", $"8"); ($"justification", $"R"); ($"dpos", $"0")] [] [];
  Elem $"psv" [($"tagtype", $"occultation"); ($"name", $"trkSub"); ($"width", $"7"); ($"justification", $"R"); ($"dpos", $"0")] [] [];
  Elem $"psv" [($"tagtype", $"occultation"); ($"name", $"stn"); ($"width", $"4"); ($"justification", $"L"); ($"dpos", $"0")] [] [];
  Elem $"psv" [($"tagtype", $"occultation"); ($"name", $"prog"); ($"width", $"2"); ($"justification", $"R"); ($"dpos", $"0")] [] [];
  Elem $"psv" [($"tagtype", $"occultation"); ($"name", $"obsTime"); ($"width", $"23"); ($"justification", $"L"); ($"dpos", $"0")] [] [];
  Elem $"psv" [($"tagtype", $"occultation"); ($"name", $"obsCenter"); ($"width", $"8"); ($"justification", $"L"); ($"dpos", $"0")] [] [];
  Elem $"psv" [($"tagtype", $"occultation"); ($"name", $"raStar"); ($"width", $"13"); ($"justification", $"D"); ($"dpos", $"4")] [] [];
  Elem $"psv" [($"tagtype", $"occultation"); ($"name", $"decStar"); ($"width", $"12"); ($"justification", $"D"); ($"dpos", $"4")] [] [];
  Elem $"psv" [($"tagtype", $"occultation"); ($"name", $"deltaRA"); ($"width", $"12"); ($"justification", $"D"); ($"dpos", $"4")] [] [];
  Elem $"psv" [($"tagtype", $"occultation"); ($"name", $"deltaDec"); ($"width", $"13"); ($"justification", $"D"); ($"dpos", $"4")] [] [];
  Elem $"psv" [($"tagtype", $"occultation"); ($"name", $"rmsRA"); ($"width", $"7"); ($"justification", $"D"); ($"dpos", $"3")] [] [];
  Elem $"psv" [($"tagtype", $"occultation"); ($"name", $"rmsDec"); ($"width", $"7"); ($"justification", $"D"); ($"dpos", $"3")] [] [];
  Elem $"psv" [($"tagtype", $"occultation"); ($"name", $"dist"); ($"width", $"11"); ($"justification", $"D"); ($"dpos", $"4")] [] [];
  Elem $"psv" [($"tagtype", $"occultation"); ($"name", $"pa"); ($"width", $"11"); ($"justification", $"D"); ($"dpos", $"4")] [] [];
  Elem $"psv" [($"tagtype", $"occultation"); ($"name", $"rmsdist"); ($"width", $"6"); ($"justification", $"D"); ($"dpos", $"3")] [] [];
  Elem $"psv" [($"tagtype", $"occultation"); ($"name", $"rmsPA"); ($"width", $"6"); ($"justification", $"D"); ($"dpos", $"3")] [] [];
  Elem $"psv" [($"tagtype", $"occultation"); ($"name", $"rmsCorr"); ($"width", $"5"); ($"justification", $"D"); ($"dpos", $"2")] [] [];
  Elem $"psv" [($"tagtype", $"occultation"); ($"name", $"astCat"); ($"width", $"3"); ($"justification", $"R"); ($"dpos", $"0")] [] [];
  Elem $"psv" [($"tagtype", $"occultation"); ($"name", $"mag"); ($"width", $"5"); ($"justification", $"D"); ($"dpos", $"3")] [] [];
  Elem $"psv" [($"tagtype", $"occultation"); ($"name", $"rmsMag"); ($"width", $"4"); ($"justification", $"D"); ($"dpos", $"2")] [] [];
  Elem $"psv" [($"tagtype", $"occultation"); ($"name", $"band"); ($"width", $"3"); ($"justification", $"R"); ($"dpos", $"0")] [] [];
  Elem $"psv" [($"tagtype", $"occultation"); ($"name", $"photCat"); ($"width", $"3"); ($"justification", $"R"); ($"dpos", $"0")] [] [];
  Elem $"psv" [($"tagtype", $"occultation"); ($"name", $"photAp"); ($"width", $"4"); ($"justification", $"D"); ($"dpos", $"3")] [] [];
  Elem $"psv" [($"tagtype", $"occultation"); ($"name", $"logSNR"); ($"width", $"4"); ($"justification", $"D"); ($"dpos", $"2")] [] [];
  Elem $"psv" [($"tagtype", $"occultation"); ($"name", $"shapeOcc"); ($"width", $"1"); ($"justification", $"L"); ($"dpos", $"0")] [] [];
  Elem $"psv" [($"tagtype", $"occultation"); ($"name", $"seeing"); ($"width", $"3"); ($"justification", $"D"); ($"dpos", $"2")] [] [];
  Elem $"psv" [($"tagtype", $"occultation"); ($"name", $"exp"); ($"width", $"4"); ($"justification", $"R"); ($"dpos", $"0")] [] [];
  Elem $"psv" [($"tagtype", $"occultation"); ($"name", $"notes"); ($"width", $"5"); ($"justification", $"L"); ($"dpos", $"0")] [] [];
  Elem $"psv" [($"tagtype", $"occultation"); ($"name", $"remarks"); ($"width", $"0"); ($"justification", $"L"); ($"dpos", $"0")] [] [];
  Elem $"psv" [($"tagtype", $"radar"); ($"name", $"permID"); ($"width", $"7"); ($"justification", $"R"); ($"dpos", $"0")] [] [];
  Elem $"psv" [($"tagtype", $"radar"); ($"name", $"provID"); ($"width", $"11"); ($"justification", $"L"); ($"dpos", $"0")] [] [];
  Elem $"psv" [($"tagtype", $"radar"); ($"name", $"trkSub"); ($"width", $"7"); ($"justification", $"R"); ($"dpos", $"0")] [] [];
  Elem $"psv" [($"tagtype", $"radar"); ($"name", $"obsID"); ($"width", $"7"); ($"justification", $"R"); ($"dpos", $"0")] [] [];
  Elem $"psv" [($"tagtype", $"radar"); ($"name", $"trx"); ($"width", $"4"); ($"justification", $"L"); ($"dpos", $"0")] [] [];
  Elem $"psv" [($"tagtype", $"radar"); ($"name", $"rcv"); ($"width", $"4"); ($"justification", $"L"); ($"dpos", $"0")] [] [];
  Elem $"psv" [($"tagtype", $"radar"); ($"name", $"prog"); ($"width", $"2"); ($"justification", $"R"); ($"dpos", $"0")] [] [];
  Elem $"psv" [($"tagtype", $"radar"); ($"name", $"obsTime"); ($"width", $"23"); ($"justification", $"L"); ($"dpos", $"0")] [] [];
  Elem $"psv" [($"tagtype", $"radar"); ($"name", $"doppler"); ($"width", $"11"); ($"justification", $"D"); ($"dpos", $"4")] [] [];
  Elem $"psv" [($"tagtype", $"radar"); ($"name", $"delay"); ($"width", $"11"); ($"justification", $"D"); ($"dpos", $"4")] [] [];
  Elem $"psv" [($"tagtype", $"radar"); ($"name", $"rmsDoppler"); ($"width", $"6"); ($"justification", $"D"); ($"dpos", $"3")] [] [];
  Elem $"psv" [($"tagtype", $"radar"); ($"name", $"rmsDelay"); ($"width", $"6"); ($"justification", $"D"); ($"dpos", $"3")] [] [];
  Elem $"psv" [($"tagtype", $"radar"); ($"name", $"logSNR"); ($"width", $"4"); ($"justification", $"D"); ($"dpos", $"2")] [] [];
  Elem $"psv" [($"tagtype", $"radar"); ($"name", $"remarks"); ($"width", $"0"); ($"justification", $"L"); ($"dpos", $"0")] [] []].

(** xml/adesmaster.xml *)
Definition adesmaster_docs : xml := Elem $"ades" [] [] [master_docs_0; master_docs_1; master_docs_2; master_docs_3; master_docs_4; master_docs_5; master_docs_6; master_docs_7; master_docs_8].
