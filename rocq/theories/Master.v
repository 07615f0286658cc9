(** GENERATED by tools/gen_master.py from xml/adesmaster.xml: do not edit.
    The element tree of xml/adesmaster.xml restricted to XSDTypes,
    XSDElementTypes and PSVObservationFields; doc elements and attributes,
    comments and (white space) text nodes are left out. *)
From Verif Require Import Xml.

(** /ades/XSDTypes  *)
Definition master_0 : xml :=
 Elem $"XSDTypes" [] [] [
  Elem $"simpletype" [($"name", $"AlphaNumericType")] [] [
   Elem $"restriction" [($"base", $"StringType")] [] [
    Elem $"restrict" [($"name", $"xsd:pattern"); ($"value", $"[A-Za-z0-9_]*")] [] []]];
  Elem $"simpletype" [($"name", $"MagType")] [] [
   Elem $"restriction" [($"base", $"DecimalTypeW8")] [] [
    Elem $"restrict" [($"name", $"xsd:minInclusive"); ($"value", $"-5.0")] [] [];
    Elem $"restrict" [($"name", $"xsd:maxInclusive"); ($"value", $"35.0")] [] []]];
  Elem $"simpletype" [($"name", $"BandType")] [] [
   Elem $"restriction" [($"base", $"AlphaNumericType")] [] [
    Elem $"restrict" [($"name", $"xsd:maxLength"); ($"value", $"3")] [] []]];
  Elem $"simpletype" [($"name", $"CatType")] [] [
   Elem $"restriction" [($"base", $"StringType")] [] [
    Elem $"restrict" [($"name", $"xsd:pattern"); ($"value", $"[.A-Za-z0-9_]*")] [] [];
    Elem $"restrict" [($"name", $"xsd:maxLength"); ($"value", $"8")] [] []]];
  Elem $"simpletype" [($"name", $"CorrDecimalType")] [] [
   Elem $"restriction" [($"base", $"xsd:decimal")] [] [
    Elem $"restrict" [($"name", $"xsd:minExclusive"); ($"value", $"-1.0")] [] [];
    Elem $"restrict" [($"name", $"xsd:maxExclusive"); ($"value", $"1.0")] [] [];
    Elem $"restrict" [($"name", $"xsd:pattern"); ($"value", $"[+\-]?(0|1)(\.[0123456789]{0,11})?")] [] []]];
  Elem $"simpletype" [($"name", $"DecimalType")] [] [
   Elem $"restriction" [($"base", $"xsd:decimal")] [] [
    Elem $"restrict" [($"name", $"xsd:pattern"); ($"value", $"[+\-]?(0|([1-9][0-9]*))(\.[0-9]*)?")] [] []]];
  Elem $"simpletype" [($"name", $"DecimalTypeW6")] [] [
   Elem $"restriction" [($"base", $"DecimalType")] [] [
    Elem $"restrict" [($"name", $"xsd:pattern"); ($"value", $"[+\-]?[0123456789\.]{1,5}")] [] []]];
  Elem $"simpletype" [($"name", $"DecimalTypeW8")] [] [
   Elem $"restriction" [($"base", $"DecimalType")] [] [
    Elem $"restrict" [($"name", $"xsd:pattern"); ($"value", $"[+\-]?[0123456789\.]{1,7}")] [] []]];
  Elem $"simpletype" [($"name", $"DecimalTypeW10")] [] [
   Elem $"restriction" [($"base", $"DecimalType")] [] [
    Elem $"restrict" [($"name", $"xsd:pattern"); ($"value", $"[+\-]?[0123456789\.]{1,9}")] [] []]];
  Elem $"simpletype" [($"name", $"DecimalTypeW14")] [] [
   Elem $"restriction" [($"base", $"DecimalType")] [] [
    Elem $"restrict" [($"name", $"xsd:pattern"); ($"value", $"[+\-]?[0123456789\.]{1,13}")] [] []]];
  Elem $"simpletype" [($"name", $"DeclinationType")] [] [
   Elem $"restriction" [($"base", $"xsd:decimal")] [] [
    Elem $"restrict" [($"name", $"xsd:minInclusive"); ($"value", $"-90.0")] [] [];
    Elem $"restrict" [($"name", $"xsd:maxInclusive"); ($"value", $"90.0")] [] [];
    Elem $"restrict" [($"name", $"xsd:pattern"); ($"value", $"[+\-]?([1-9]?[0-9])?(\.[0123456789]{0,9})?")] [] []]];
  Elem $"simpletype" [($"name", $"DeprecatedType")] [] [
   Elem $"restriction" [($"base", $"xsd:string")] [] [
    Elem $"restrict" [($"name", $"xsd:enumeration"); ($"value", $"X")] [] []]];
  Elem $"simpletype" [($"name", $"DiscType")] [] [
   Elem $"restriction" [($"base", $"xsd:string")] [] [
    Elem $"restrict" [($"name", $"xsd:enumeration"); ($"value", $"*")] [] [];
    Elem $"restrict" [($"name", $"xsd:enumeration"); ($"value", $"+")] [] []]];
  Elem $"simpletype" [($"name", $"DoubleTypeW7")] [] [
   Elem $"restriction" [($"base", $"xsd:double")] [] [
    Elem $"restrict" [($"name", $"xsd:pattern"); ($"value", $"[+\-]?[+\-Ee0123456789\.]{1,6}")] [] []]];
  Elem $"simpletype" [($"name", $"DoubleTypeW21")] [] [
   Elem $"restriction" [($"base", $"xsd:double")] [] [
    Elem $"restrict" [($"name", $"xsd:pattern"); ($"value", $"[+\-]?[+\-Ee0123456789\.]{1,20}")] [] []]];
  Elem $"simpletype" [($"name", $"SubFrmType")] [] [
   Elem $"restriction" [($"base", $"StringType")] [] [
    Elem $"restrict" [($"name", $"xsd:pattern"); ($"value", $"([BJ]\d{4}.0)|APP\.")] [] []]];
  Elem $"simpletype" [($"name", $"LeapSecondsHelp")] [] [
   Elem $"restriction" [($"base", $"xsd:string")] [] [
    Elem $"restrict" [($"name", $"xsd:pattern"); ($"value", $"19(72|81|82|83|85|92|93|94|97)-06-30T23:59:60(\.\d+)?Z")] [] [];
    Elem $"restrict" [($"name", $"xsd:pattern"); ($"value", $"19(72|73|74|75|76|77|78|79|87|89|90|95|98)-12-31T23:59:60(\.\d+)?Z")] [] [];
    Elem $"restrict" [($"name", $"xsd:pattern"); ($"value", $"20(12|15)-06-30T23:59:60(\.\d+)?Z")] [] [];
    Elem $"restrict" [($"name", $"xsd:pattern"); ($"value", $"20(05|08|16)-12-31T23:59:60(.\d+)?Z")] [] [];
    Elem $"restrict" [($"name", $"xsd:pattern"); ($"value", $"(2[1-9]\d{2}|20[2-9]\d|201[7-9])-12-31T23:59:60(\.\d+)?Z")] [] [];
    Elem $"restrict" [($"name", $"xsd:pattern"); ($"value", $"(2[1-9]\d{2}|20[2-9]\d|201[7-9])-06-30T23:59:60(\.\d+)?Z")] [] [];
    Elem $"restrict" [($"name", $"xsd:pattern"); ($"value", $"[3-9]\d{3}-06-30T23:59:60(\.\d+)?Z")] [] [];
    Elem $"restrict" [($"name", $"xsd:pattern"); ($"value", $"[3-9]\d{3}-12-31T23:59:60(\.\d+)?Z")] [] []]];
  Elem $"simpletype" [($"name", $"LogicalType")] [] [
   Elem $"restriction" [($"base", $"xsd:integer")] [] [
    Elem $"restrict" [($"name", $"xsd:enumeration"); ($"value", $"0")] [] [];
    Elem $"restrict" [($"name", $"xsd:enumeration"); ($"value", $"1")] [] []]];
  Elem $"simpletype" [($"name", $"ModeType")] [] [
   Elem $"restriction" [($"base", $"AlphaNumericType")] [] [
    Elem $"restrict" [($"name", $"xsd:maxLength"); ($"value", $"3")] [] []]];
  Elem $"simpletype" [($"name", $"ObsCenterType")] [] [
   Elem $"union" [($"memberTypes", $"PermIDType ProvIDType PlanetNameType")] [] [];
   Elem $"submitunion" [($"memberTypes", $"PermIDType ProvIDType PlanetNameType")] [] []];
  Elem $"simpletype" [($"name", $"NotesType")] [] [
   Elem $"restriction" [($"base", $"AlphaNumericType")] [] [
    Elem $"restrict" [($"name", $"xsd:maxLength"); ($"value", $"6")] [] []]];
  Elem $"simpletype" [($"name", $"ObsIDType")] [] [
   Elem $"restriction" [($"base", $"AlphaNumericType")] [] [
    Elem $"restrict" [($"name", $"xsd:maxLength"); ($"value", $"25")] [] []]];
  Elem $"simpletype" [($"name", $"PermIDType")] [] [
   Elem $"restriction" [($"base", $"StringTypeW25")] [] [
    Elem $"restrict" [($"name", $"xsd:pattern"); ($"value", $"\d+([IPD](-[A-Z]{1,2})?)?|((Mars|Jupiter|Saturn|Uranus|Neptune) \d{1,3}|\(\d+\) \d{1,3})")] [] []]];
  Elem $"simpletype" [($"name", $"PhotModType")] [] [
   Elem $"restriction" [($"base", $"AlphaNumericType")] [] [
    Elem $"restrict" [($"name", $"xsd:maxLength"); ($"value", $"8")] [] []]];
  Elem $"simpletype" [($"name", $"PlanetNameType")] [] [
   Elem $"restriction" [($"base", $"StringTypeW25")] [] [
    Elem $"restrict" [($"name", $"xsd:enumeration"); ($"value", $"Mercury")] [] [];
    Elem $"restrict" [($"name", $"xsd:enumeration"); ($"value", $"Venus")] [] [];
    Elem $"restrict" [($"name", $"xsd:enumeration"); ($"value", $"Earth")] [] [];
    Elem $"restrict" [($"name", $"xsd:enumeration"); ($"value", $"Moon")] [] [];
    Elem $"restrict" [($"name", $"xsd:enumeration"); ($"value", $"Mars")] [] [];
    Elem $"restrict" [($"name", $"xsd:enumeration"); ($"value", $"Jupiter")] [] [];
    Elem $"restrict" [($"name", $"xsd:enumeration"); ($"value", $"Saturn")] [] [];
    Elem $"restrict" [($"name", $"xsd:enumeration"); ($"value", $"Uranus")] [] [];
    Elem $"restrict" [($"name", $"xsd:enumeration"); ($"value", $"Neptune")] [] []]];
  Elem $"simpletype" [($"name", $"PosDecimalType")] [] [
   Elem $"restriction" [($"base", $"xsd:decimal")] [] [
    Elem $"restrict" [($"name", $"xsd:minExclusive"); ($"value", $"0.0")] [] [];
    Elem $"restrict" [($"name", $"xsd:maxExclusive"); ($"value", $"100000.0")] [] [];
    Elem $"restrict" [($"name", $"xsd:pattern"); ($"value", $"(0|([1-9][0-9]*))(\.[0-9]*)?")] [] []]];
  Elem $"simpletype" [($"name", $"PosIntegerTypeW6")] [] [
   Elem $"restriction" [($"base", $"xsd:positiveInteger")] [] [
    Elem $"restrict" [($"name", $"xsd:maxExclusive"); ($"value", $"1000000")] [] []]];
  Elem $"simpletype" [($"name", $"CtrType")] [] [
   Elem $"restriction" [($"base", $"SPICEIDType")] [] [
    Elem $"restrict" [($"name", $"xsd:enumeration"); ($"value", $"399")] [] []]];
  Elem $"simpletype" [($"name", $"SPICEIDType")] [] [
   Elem $"restriction" [($"base", $"xsd:integer")] [] [
    Elem $"restrict" [($"name", $"xsd:maxExclusive"); ($"value", $"+1000000000")] [] [];
    Elem $"restrict" [($"name", $"xsd:minExclusive"); ($"value", $"-1000000000")] [] []]];
  Elem $"simpletype" [($"name", $"PosDecimalTypeW6")] [] [
   Elem $"restriction" [($"base", $"PosDecimalType")] [] [
    Elem $"restrict" [($"name", $"xsd:pattern"); ($"value", $"[0123456789\.]{1,6}")] [] []]];
  Elem $"simpletype" [($"name", $"PosDecimalTypeW7")] [] [
   Elem $"restriction" [($"base", $"PosDecimalType")] [] [
    Elem $"restrict" [($"name", $"xsd:pattern"); ($"value", $"[0123456789\.]{1,7}")] [] []]];
  Elem $"simpletype" [($"name", $"PosDecimalTypeW8")] [] [
   Elem $"restriction" [($"base", $"PosDecimalType")] [] [
    Elem $"restrict" [($"name", $"xsd:pattern"); ($"value", $"[0123456789\.]{1,8}")] [] []]];
  Elem $"simpletype" [($"name", $"PosDecimalTypeW10")] [] [
   Elem $"restriction" [($"base", $"PosDecimalType")] [] [
    Elem $"restrict" [($"name", $"xsd:pattern"); ($"value", $"[0123456789\.]{1,10}")] [] []]];
  Elem $"simpletype" [($"name", $"PosDecimalTypeW14")] [] [
   Elem $"restriction" [($"base", $"PosDecimalType")] [] [
    Elem $"restrict" [($"name", $"xsd:pattern"); ($"value", $"[0123456789\.]{1,14}")] [] []]];
  Elem $"simpletype" [($"name", $"FrequencyType")] [] [
   Elem $"restriction" [($"base", $"xsd:decimal")] [] [
    Elem $"restrict" [($"name", $"xsd:minExclusive"); ($"value", $"0.0")] [] [];
    Elem $"restrict" [($"name", $"xsd:pattern"); ($"value", $"[0123456789\.]{1,16}")] [] []]];
  Elem $"simpletype" [($"name", $"ProgType")] [] [
   Elem $"restriction" [($"base", $"AlphaNumericType")] [] [
    Elem $"restrict" [($"name", $"xsd:maxLength"); ($"value", $"2")] [] []]];
  Elem $"simpletype" [($"name", $"BaseProvIDType")] [] [
   Elem $"restriction" [($"base", $"StringTypeW25")] [] [
    Elem $"restrict" [($"name", $"xsd:pattern"); ($"value", $"\d{4} [A-HJ-Y][A-HJ-Z]\d*|\d{4} (P-L|T-[123])|[ADCPX]/\d{4} [A-Z]{1,2}\d*(-[A-Z])?|S/\d{4} ((M|J|S|U|N)|\((\d+|\d{4} [A-HJ-Y][A-HJ-Z]?\d+)\)) \d+")] [] []]];
  Elem $"simpletype" [($"name", $"OldProvIDType")] [] [
   Elem $"restriction" [($"base", $"StringTypeW25")] [] [
    Elem $"restrict" [($"name", $"xsd:pattern"); ($"value", $"A[89]\d{2} [A-HJ-Y][A-HJ-Z]")] [] []]];
  Elem $"simpletype" [($"name", $"ProvIDType")] [] [
   Elem $"union" [($"memberTypes", $"BaseProvIDType OldProvIDType")] [] [];
   Elem $"submitunion" [($"memberTypes", $"BaseProvIDType")] [] []];
  Elem $"simpletype" [($"name", $"RaDecPrecType")] [] [
   Elem $"restriction" [($"base", $"xsd:decimal")] [] [
    Elem $"restrict" [($"name", $"xsd:enumeration"); ($"value", $"0.1")] [] [];
    Elem $"restrict" [($"name", $"xsd:enumeration"); ($"value", $"0.6")] [] [];
    Elem $"restrict" [($"name", $"xsd:enumeration"); ($"value", $"0.01")] [] [];
    Elem $"restrict" [($"name", $"xsd:enumeration"); ($"value", $"0.001")] [] [];
    Elem $"restrict" [($"name", $"xsd:enumeration"); ($"value", $"60")] [] [];
    Elem $"restrict" [($"name", $"xsd:enumeration"); ($"value", $"6")] [] [];
    Elem $"restrict" [($"name", $"xsd:enumeration"); ($"value", $"1")] [] []]];
  Elem $"simpletype" [($"name", $"RAType")] [] [
   Elem $"restriction" [($"base", $"xsd:decimal")] [] [
    Elem $"restrict" [($"name", $"xsd:minInclusive"); ($"value", $"0.0")] [] [];
    Elem $"restrict" [($"name", $"xsd:maxExclusive"); ($"value", $"360.0")] [] [];
    Elem $"restrict" [($"name", $"xsd:pattern"); ($"value", $"([1-3][0-9]{2}|[1-9]?[0-9])?(\.[0-9]{0,9})?")] [] []]];
  Elem $"simpletype" [($"name", $"RefType")] [] [
   Elem $"restriction" [($"base", $"StringType")] [] [
    Elem $"restrict" [($"name", $"xsd:maxLength"); ($"value", $"16")] [] []]];
  Elem $"simpletype" [($"name", $"RemarkType")] [] [
   Elem $"restriction" [($"base", $"StringType")] [] [
    Elem $"restrict" [($"name", $"xsd:maxLength"); ($"value", $"300")] [] []]];
  Elem $"simpletype" [($"name", $"SelResType"); ($"base", $"xsd:string")] [] [
   Elem $"restriction" [($"base", $"xsd:string")] [] [
    Elem $"restrict" [($"name", $"xsd:enumeration"); ($"value", $"A")] [] [];
    Elem $"restrict" [($"name", $"xsd:enumeration"); ($"value", $"a")] [] [];
    Elem $"restrict" [($"name", $"xsd:enumeration"); ($"value", $"D")] [] [];
    Elem $"restrict" [($"name", $"xsd:enumeration"); ($"value", $"d")] [] []]];
  Elem $"simpletype" [($"name", $"StationType")] [] [
   Elem $"restriction" [($"base", $"AlphaNumericType")] [] [
    Elem $"restrict" [($"name", $"xsd:minLength"); ($"value", $"3")] [] [];
    Elem $"restrict" [($"name", $"xsd:maxLength"); ($"value", $"4")] [] []]];
  Elem $"simpletype" [($"name", $"StringType")] [] [
   Elem $"restriction" [($"base", $"xsd:string")] [] [
    Elem $"restrict" [($"name", $"xsd:pattern"); ($"value", $"[^|]*[^|\s][^|]*")] [] []]];
  Elem $"simpletype" [($"name", $"StringTypeW25")] [] [
   Elem $"restriction" [($"base", $"StringType")] [] [
    Elem $"restrict" [($"name", $"xsd:maxLength"); ($"value", $"25")] [] []]];
  Elem $"simpletype" [($"name", $"StringTypeW100")] [] [
   Elem $"restriction" [($"base", $"StringType")] [] [
    Elem $"restrict" [($"name", $"xsd:maxLength"); ($"value", $"100")] [] []]];
  Elem $"simpletype" [($"name", $"SubFmtType")] [] [
   Elem $"restriction" [($"base", $"AlphaNumericType")] [] [
    Elem $"restrict" [($"name", $"xsd:maxLength"); ($"value", $"4")] [] []]];
  Elem $"simpletype" [($"name", $"SysType")] [] [
   Elem $"restriction" [($"base", $"xsd:string")] [] [
    Elem $"restrict" [($"name", $"xsd:enumeration"); ($"value", $"WGS84")] [] [];
    Elem $"restrict" [($"name", $"xsd:enumeration"); ($"value", $"ITRF")] [] [];
    Elem $"restrict" [($"name", $"xsd:enumeration"); ($"value", $"IAU")] [] [];
    Elem $"restrict" [($"name", $"xsd:enumeration"); ($"value", $"ICRF_AU")] [] [];
    Elem $"restrict" [($"name", $"xsd:enumeration"); ($"value", $"ICRF_KM")] [] []]];
  Elem $"simpletype" [($"name", $"TimeHelp")] [] [
   Elem $"restriction" [($"base", $"xsd:dateTime")] [] [
    Elem $"restrict" [($"name", $"xsd:pattern"); ($"value", $"\d{4}-\d{2}-\d{2}T\d{2}:\d{2}:\d{2}(\.\d{1,6})?Z")] [] []]];
  Elem $"simpletype" [($"name", $"TimePrecType")] [] [
   Elem $"restriction" [($"base", $"xsd:decimal")] [] [
    Elem $"restrict" [($"name", $"xsd:enumeration"); ($"value", $"100000")] [] [];
    Elem $"restrict" [($"name", $"xsd:enumeration"); ($"value", $"10000")] [] [];
    Elem $"restrict" [($"name", $"xsd:enumeration"); ($"value", $"1000")] [] [];
    Elem $"restrict" [($"name", $"xsd:enumeration"); ($"value", $"100")] [] [];
    Elem $"restrict" [($"name", $"xsd:enumeration"); ($"value", $"10")] [] [];
    Elem $"restrict" [($"name", $"xsd:enumeration"); ($"value", $"1")] [] [];
    Elem $"restrict" [($"name", $"xsd:enumeration"); ($"value", $"41667")] [] [];
    Elem $"restrict" [($"name", $"xsd:enumeration"); ($"value", $"4167")] [] [];
    Elem $"restrict" [($"name", $"xsd:enumeration"); ($"value", $"694")] [] [];
    Elem $"restrict" [($"name", $"xsd:enumeration"); ($"value", $"69")] [] []]];
  Elem $"simpletype" [($"name", $"TimeType")] [] [
   Elem $"union" [($"memberTypes", $"TimeHelp LeapSecondsHelp")] [] [];
   Elem $"submitunion" [($"memberTypes", $"TimeHelp LeapSecondsHelp")] [] []];
  Elem $"simpletype" [($"name", $"TrkIDType")] [] [
   Elem $"restriction" [($"base", $"StringType")] [] [
    Elem $"restrict" [($"name", $"xsd:pattern"); ($"value", $"[-A-Za-z0-9_]*")] [] [];
    Elem $"restrict" [($"name", $"xsd:maxLength"); ($"value", $"12")] [] []]];
  Elem $"simpletype" [($"name", $"BaseTrkSubType")] [] [
   Elem $"restriction" [($"base", $"StringType")] [] [
    Elem $"restrict" [($"name", $"xsd:pattern"); ($"value", $"[-A-Za-z0-9_]*")] [] [];
    Elem $"restrict" [($"name", $"xsd:maxLength"); ($"value", $"8")] [] []]];
  Elem $"simpletype" [($"name", $"OldTrkSubType")] [] [
   Elem $"restriction" [($"base", $"StringType")] [] [
    Elem $"restrict" [($"name", $"xsd:pattern"); ($"value", $"[- ?+@.()/\\A-Za-z0-9_]*")] [] [];
    Elem $"restrict" [($"name", $"xsd:maxLength"); ($"value", $"8")] [] []]];
  Elem $"simpletype" [($"name", $"TrkSubType")] [] [
   Elem $"union" [($"memberTypes", $"BaseTrkSubType OldTrkSubType")] [] [];
   Elem $"submitunion" [($"memberTypes", $"BaseTrkSubType")] [] []];
  Elem $"simpletype" [($"name", $"VersionType")] [] [
   Elem $"restriction" [($"base", $"xsd:string")] [] [
    Elem $"restrict" [($"name", $"xsd:enumeration"); ($"value", $"2022")] [] []]];
  Elem $"complextype" [($"name", $"NamesType")] [] [
   Elem $"sequence" [] [] [
    Elem $"element" [($"name", $"name"); ($"type", $"StringTypeW100"); ($"use", $"unbounded")] [] []]];
  Elem $"complextype" [($"name", $"ObservatoryType")] [] [
   Elem $"all" [] [] [
    Elem $"element" [($"name", $"mpcCode"); ($"type", $"StationType")] [] [];
    Elem $"element" [($"name", $"name"); ($"type", $"StringTypeW100"); ($"use", $"optional")] [] []]];
  Elem $"complextype" [($"name", $"SubmitterType")] [] [
   Elem $"all" [] [] [
    Elem $"element" [($"name", $"name"); ($"type", $"StringTypeW100")] [] [];
    Elem $"element" [($"name", $"institution"); ($"type", $"StringTypeW100"); ($"use", $"optional")] [] []]];
  Elem $"complextype" [($"name", $"TelescopeType")] [] [
   Elem $"all" [] [] [
    Elem $"element" [($"name", $"name"); ($"type", $"StringTypeW100"); ($"use", $"optional")] [] [];
    Elem $"element" [($"name", $"design"); ($"type", $"StringTypeW25")] [] [];
    Elem $"element" [($"name", $"aperture"); ($"type", $"PosDecimalTypeW6")] [] [];
    Elem $"element" [($"name", $"detector"); ($"type", $"StringTypeW25")] [] [];
    Elem $"element" [($"name", $"fRatio"); ($"type", $"PosDecimalTypeW6"); ($"use", $"optional")] [] [];
    Elem $"element" [($"name", $"filter"); ($"type", $"StringTypeW25"); ($"use", $"optional")] [] [];
    Elem $"element" [($"name", $"arraySize"); ($"type", $"StringTypeW25"); ($"use", $"optional")] [] [];
    Elem $"element" [($"name", $"pixelScale"); ($"type", $"PosDecimalTypeW6"); ($"use", $"optional")] [] []]];
  Elem $"complextype" [($"name", $"SoftwareType")] [] [
   Elem $"all" [] [] [
    Elem $"element" [($"name", $"astrometry"); ($"type", $"StringTypeW100"); ($"use", $"optional")] [] [];
    Elem $"element" [($"name", $"fitOrder"); ($"type", $"StringTypeW25"); ($"use", $"optional")] [] [];
    Elem $"element" [($"name", $"photometry"); ($"type", $"StringTypeW100"); ($"use", $"optional")] [] [];
    Elem $"element" [($"name", $"objectDetection"); ($"type", $"StringTypeW100"); ($"use", $"optional")] [] []]];
  Elem $"complextype" [($"name", $"CommentType")] [] [
   Elem $"sequence" [] [] [
    Elem $"element" [($"name", $"line"); ($"type", $"StringTypeW100"); ($"use", $"unbounded")] [] []]];
  Elem $"grouptype" [($"name", $"MPCID")] [] [
   Elem $"choice" [] [] [
    Elem $"sequence" [] [] [
     Elem $"element" [($"ref", $"permID")] [] [];
     Elem $"element" [($"ref", $"provID"); ($"use", $"optional")] [] []];
    Elem $"sequence" [] [] [
     Elem $"element" [($"ref", $"provID")] [] []];
    Elem $"sequence" [] [] [
     Elem $"element" [($"ref", $"artSat")] [] []]]];
  Elem $"grouptype" [($"name", $"OpticalID")] [] [
   Elem $"sequence" [] [] [
    Elem $"choice" [] [] [
     Elem $"sequence" [] [] [
      Elem $"group" [($"ref", $"MPCID")] [] [];
      Elem $"element" [($"ref", $"trkSub"); ($"use", $"optional")] [] []];
     Elem $"sequence" [] [] [
      Elem $"element" [($"ref", $"trkSub")] [] []]];
    Elem $"element" [($"ref", $"obsID"); ($"use", $"NoSubmit")] [] [];
    Elem $"element" [($"ref", $"obsSubID"); ($"use", $"optional")] [] [];
    Elem $"element" [($"ref", $"trkID"); ($"use", $"NoSubmit")] [] [];
    Elem $"element" [($"ref", $"trkMPC"); ($"use", $"NoSubmit")] [] []]];
  Elem $"grouptype" [($"name", $"RadarID")] [] [
   Elem $"sequence" [] [] [
    Elem $"group" [($"ref", $"MPCID")] [] [];
    Elem $"element" [($"ref", $"trkSub"); ($"use", $"optional")] [] [];
    Elem $"element" [($"ref", $"obsID"); ($"use", $"NoSubmit")] [] []]];
  Elem $"grouptype" [($"name", $"RadarValue")] [] [
   Elem $"choice" [] [] [
    Elem $"sequence" [] [] [
     Elem $"element" [($"ref", $"doppler")] [] [];
     Elem $"element" [($"ref", $"rmsDoppler")] [] []];
    Elem $"sequence" [] [] [
     Elem $"element" [($"ref", $"delay")] [] [];
     Elem $"element" [($"ref", $"rmsDelay")] [] []]]];
  Elem $"grouptype" [($"name", $"Precision")] [] [
   Elem $"sequence" [] [] [
    Elem $"element" [($"ref", $"precTime")] [] [];
    Elem $"element" [($"ref", $"precRA")] [] [];
    Elem $"element" [($"ref", $"precDec")] [] []]];
  Elem $"grouptype" [($"name", $"Location")] [] [
   Elem $"sequence" [] [] [
    Elem $"element" [($"ref", $"sys")] [] [];
    Elem $"element" [($"ref", $"ctr")] [] [];
    Elem $"element" [($"ref", $"pos1")] [] [];
    Elem $"element" [($"ref", $"pos2")] [] [];
    Elem $"element" [($"ref", $"pos3")] [] [];
    Elem $"element" [($"ref", $"vel1"); ($"use", $"optional")] [] [];
    Elem $"element" [($"ref", $"vel2"); ($"use", $"optional")] [] [];
    Elem $"element" [($"ref", $"vel3"); ($"use", $"optional")] [] [];
    Elem $"element" [($"ref", $"posCov11"); ($"use", $"optional")] [] [];
    Elem $"element" [($"ref", $"posCov12"); ($"use", $"optional")] [] [];
    Elem $"element" [($"ref", $"posCov13"); ($"use", $"optional")] [] [];
    Elem $"element" [($"ref", $"posCov22"); ($"use", $"optional")] [] [];
    Elem $"element" [($"ref", $"posCov23"); ($"use", $"optional")] [] [];
    Elem $"element" [($"ref", $"posCov33"); ($"use", $"optional")] [] []]];
  Elem $"grouptype" [($"name", $"Photometry")] [] [
   Elem $"sequence" [] [] [
    Elem $"element" [($"ref", $"mag")] [] [];
    Elem $"element" [($"ref", $"rmsMag"); ($"use", $"optional")] [] [];
    Elem $"element" [($"ref", $"band")] [] [];
    Elem $"element" [($"ref", $"fltr"); ($"use", $"optional")] [] [];
    Elem $"element" [($"ref", $"photCat"); ($"use", $"optional")] [] [];
    Elem $"element" [($"ref", $"photAp"); ($"use", $"optional")] [] [];
    Elem $"element" [($"ref", $"nucMag"); ($"use", $"NoSubmit")] [] []]];
  Elem $"grouptype" [($"name", $"OffsetVal")] [] [
   Elem $"choice" [] [] [
    Elem $"sequence" [] [] [
     Elem $"element" [($"ref", $"deltaRA")] [] [];
     Elem $"element" [($"ref", $"deltaDec")] [] [];
     Elem $"element" [($"ref", $"rmsRA"); ($"use", $"optional")] [] [];
     Elem $"element" [($"ref", $"rmsDec"); ($"use", $"optional")] [] [];
     Elem $"element" [($"ref", $"rmsCorr"); ($"use", $"optional")] [] []];
    Elem $"sequence" [] [] [
     Elem $"element" [($"ref", $"dist")] [] [];
     Elem $"element" [($"ref", $"pa")] [] [];
     Elem $"element" [($"ref", $"rmsDist"); ($"use", $"optional")] [] [];
     Elem $"element" [($"ref", $"rmsPA"); ($"use", $"optional")] [] [];
     Elem $"element" [($"ref", $"rmsCorr"); ($"use", $"optional")] [] []]]];
  Elem $"grouptype" [($"name", $"OpticalRes")] [] [
   Elem $"sequence" [] [] [
    Elem $"element" [($"ref", $"resRA")] [] [];
    Elem $"element" [($"ref", $"resDec")] [] [];
    Elem $"element" [($"ref", $"selAst")] [] [];
    Elem $"element" [($"ref", $"sigRA")] [] [];
    Elem $"element" [($"ref", $"sigDec")] [] [];
    Elem $"element" [($"ref", $"sigCorr"); ($"use", $"optional")] [] [];
    Elem $"element" [($"ref", $"sigTime"); ($"use", $"optional")] [] [];
    Elem $"element" [($"ref", $"biasRA"); ($"use", $"optional")] [] [];
    Elem $"element" [($"ref", $"biasDec"); ($"use", $"optional")] [] [];
    Elem $"element" [($"ref", $"biasTime"); ($"use", $"optional")] [] []]];
  Elem $"grouptype" [($"name", $"OpticalResMag")] [] [
   Elem $"sequence" [] [] [
    Elem $"element" [($"ref", $"photProd"); ($"use", $"optional")] [] [];
    Elem $"element" [($"ref", $"resMag")] [] [];
    Elem $"element" [($"ref", $"selPhot")] [] [];
    Elem $"element" [($"ref", $"sigMag")] [] [];
    Elem $"element" [($"ref", $"biasMag"); ($"use", $"optional")] [] [];
    Elem $"element" [($"ref", $"photMod"); ($"use", $"optional")] [] []]];
  Elem $"grouptype" [($"name", $"OpticalResiduals")] [] [
   Elem $"sequence" [] [] [
    Elem $"element" [($"ref", $"orbProd")] [] [];
    Elem $"element" [($"ref", $"orbID")] [] [];
    Elem $"choice" [] [] [
     Elem $"sequence" [] [] [
      Elem $"group" [($"ref", $"OpticalRes")] [] [];
      Elem $"group" [($"ref", $"OpticalResMag"); ($"use", $"optional")] [] []];
     Elem $"sequence" [] [] [
      Elem $"group" [($"ref", $"OpticalResMag")] [] []]]]];
  Elem $"grouptype" [($"name", $"RadarResiduals")] [] [
   Elem $"sequence" [] [] [
    Elem $"element" [($"ref", $"orbProd")] [] [];
    Elem $"element" [($"ref", $"orbID")] [] [];
    Elem $"choice" [] [] [
     Elem $"sequence" [] [] [
      Elem $"element" [($"ref", $"resDelay")] [] [];
      Elem $"element" [($"ref", $"selDelay")] [] [];
      Elem $"element" [($"ref", $"sigDelay")] [] []];
     Elem $"sequence" [] [] [
      Elem $"element" [($"ref", $"resDoppler")] [] [];
      Elem $"element" [($"ref", $"selDoppler")] [] [];
      Elem $"element" [($"ref", $"sigDoppler")] [] []]]]];
  Elem $"complextype" [($"name", $"LocalUseType")] [] [
   Elem $"sequence" [] [] [
    Elem $"any" [] [] []]];
  Elem $"complextype" [($"name", $"OpticalType")] [] [
   Elem $"sequence" [] [] [
    Elem $"group" [($"ref", $"OpticalID")] [] [];
    Elem $"element" [($"ref", $"mode")] [] [];
    Elem $"element" [($"ref", $"stn")] [] [];
    Elem $"group" [($"ref", $"Location"); ($"use", $"optional")] [] [];
    Elem $"element" [($"ref", $"prog"); ($"use", $"NoSubmit")] [] [];
    Elem $"element" [($"ref", $"obsTime")] [] [];
    Elem $"element" [($"ref", $"rmsTime"); ($"use", $"optional")] [] [];
    Elem $"element" [($"ref", $"ra")] [] [];
    Elem $"element" [($"ref", $"dec")] [] [];
    Elem $"element" [($"ref", $"rmsRA"); ($"use", $"optional")] [] [];
    Elem $"element" [($"ref", $"rmsDec"); ($"use", $"optional")] [] [];
    Elem $"element" [($"ref", $"rmsCorr"); ($"use", $"optional")] [] [];
    Elem $"element" [($"ref", $"astCat")] [] [];
    Elem $"group" [($"ref", $"Photometry"); ($"use", $"optional")] [] [];
    Elem $"element" [($"ref", $"logSNR"); ($"use", $"optional")] [] [];
    Elem $"element" [($"ref", $"seeing"); ($"use", $"optional")] [] [];
    Elem $"element" [($"ref", $"exp"); ($"use", $"optional")] [] [];
    Elem $"element" [($"ref", $"rmsFit"); ($"use", $"optional")] [] [];
    Elem $"element" [($"ref", $"nStars"); ($"use", $"optional")] [] [];
    Elem $"element" [($"ref", $"ref"); ($"use", $"NoSubmit")] [] [];
    Elem $"element" [($"ref", $"disc"); ($"use", $"optional")] [] [];
    Elem $"element" [($"ref", $"subFrm"); ($"use", $"NoSubmit")] [] [];
    Elem $"element" [($"ref", $"subFmt"); ($"use", $"NoSubmit")] [] [];
    Elem $"group" [($"ref", $"Precision"); ($"use", $"NoSubmit")] [] [];
    Elem $"element" [($"ref", $"uncTime"); ($"use", $"optional")] [] [];
    Elem $"element" [($"ref", $"notes"); ($"use", $"optional")] [] [];
    Elem $"element" [($"ref", $"remarks"); ($"use", $"optional")] [] [];
    Elem $"group" [($"ref", $"OpticalResiduals"); ($"use", $"NoSubmit")] [] [];
    Elem $"element" [($"ref", $"deprecated"); ($"use", $"NoSubmit")] [] [];
    Elem $"element" [($"ref", $"localUse"); ($"use", $"NoSubmit")] [] []]];
  Elem $"complextype" [($"name", $"OffsetType")] [] [
   Elem $"sequence" [] [] [
    Elem $"group" [($"ref", $"OpticalID")] [] [];
    Elem $"element" [($"ref", $"mode")] [] [];
    Elem $"element" [($"ref", $"stn")] [] [];
    Elem $"group" [($"ref", $"Location"); ($"use", $"optional")] [] [];
    Elem $"element" [($"ref", $"prog"); ($"use", $"NoSubmit")] [] [];
    Elem $"element" [($"ref", $"obsTime")] [] [];
    Elem $"element" [($"ref", $"rmsTime"); ($"use", $"optional")] [] [];
    Elem $"element" [($"ref", $"obsCenter")] [] [];
    Elem $"group" [($"ref", $"OffsetVal")] [] [];
    Elem $"group" [($"ref", $"Photometry"); ($"use", $"optional")] [] [];
    Elem $"element" [($"ref", $"logSNR"); ($"use", $"optional")] [] [];
    Elem $"element" [($"ref", $"seeing"); ($"use", $"optional")] [] [];
    Elem $"element" [($"ref", $"exp"); ($"use", $"optional")] [] [];
    Elem $"element" [($"ref", $"rmsFit"); ($"use", $"optional")] [] [];
    Elem $"element" [($"ref", $"nStars"); ($"use", $"optional")] [] [];
    Elem $"element" [($"ref", $"ref"); ($"use", $"NoSubmit")] [] [];
    Elem $"element" [($"ref", $"disc"); ($"use", $"optional")] [] [];
    Elem $"element" [($"ref", $"subFrm"); ($"use", $"NoSubmit")] [] [];
    Elem $"element" [($"ref", $"subFmt"); ($"use", $"NoSubmit")] [] [];
    Elem $"group" [($"ref", $"Precision"); ($"use", $"NoSubmit")] [] [];
    Elem $"element" [($"ref", $"uncTime"); ($"use", $"optional")] [] [];
    Elem $"element" [($"ref", $"notes"); ($"use", $"optional")] [] [];
    Elem $"element" [($"ref", $"remarks"); ($"use", $"optional")] [] [];
    Elem $"group" [($"ref", $"OpticalResiduals"); ($"use", $"NoSubmit")] [] [];
    Elem $"element" [($"ref", $"deprecated"); ($"use", $"NoSubmit")] [] [];
    Elem $"element" [($"ref", $"localUse"); ($"use", $"NoSubmit")] [] []]];
  Elem $"complextype" [($"name", $"OccultationType")] [] [
   Elem $"sequence" [] [] [
    Elem $"group" [($"ref", $"OpticalID")] [] [];
    Elem $"element" [($"ref", $"mode")] [] [];
    Elem $"element" [($"ref", $"stn")] [] [];
    Elem $"group" [($"ref", $"Location"); ($"use", $"optional")] [] [];
    Elem $"element" [($"ref", $"prog"); ($"use", $"NoSubmit")] [] [];
    Elem $"element" [($"ref", $"obsTime")] [] [];
    Elem $"element" [($"ref", $"rmsTime"); ($"use", $"optional")] [] [];
    Elem $"element" [($"ref", $"raStar")] [] [];
    Elem $"element" [($"ref", $"decStar")] [] [];
    Elem $"group" [($"ref", $"OffsetVal")] [] [];
    Elem $"element" [($"ref", $"astCat")] [] [];
    Elem $"group" [($"ref", $"Photometry"); ($"use", $"optional")] [] [];
    Elem $"element" [($"ref", $"logSNR"); ($"use", $"optional")] [] [];
    Elem $"element" [($"ref", $"shapeOcc"); ($"use", $"optional")] [] [];
    Elem $"element" [($"ref", $"seeing"); ($"use", $"optional")] [] [];
    Elem $"element" [($"ref", $"ref"); ($"use", $"NoSubmit")] [] [];
    Elem $"element" [($"ref", $"disc"); ($"use", $"optional")] [] [];
    Elem $"element" [($"ref", $"subFrm"); ($"use", $"NoSubmit")] [] [];
    Elem $"element" [($"ref", $"subFmt"); ($"use", $"NoSubmit")] [] [];
    Elem $"group" [($"ref", $"Precision"); ($"use", $"NoSubmit")] [] [];
    Elem $"element" [($"ref", $"uncTime"); ($"use", $"optional")] [] [];
    Elem $"element" [($"ref", $"notes"); ($"use", $"optional")] [] [];
    Elem $"element" [($"ref", $"remarks"); ($"use", $"optional")] [] [];
    Elem $"group" [($"ref", $"OpticalResiduals"); ($"use", $"NoSubmit")] [] [];
    Elem $"element" [($"ref", $"deprecated"); ($"use", $"NoSubmit")] [] [];
    Elem $"element" [($"ref", $"localUse"); ($"use", $"NoSubmit")] [] []]];
  Elem $"complextype" [($"name", $"RadarType")] [] [
   Elem $"sequence" [] [] [
    Elem $"group" [($"ref", $"RadarID")] [] [];
    Elem $"element" [($"ref", $"trx")] [] [];
    Elem $"element" [($"ref", $"rcv")] [] [];
    Elem $"element" [($"ref", $"prog"); ($"use", $"NoSubmit")] [] [];
    Elem $"element" [($"ref", $"obsTime")] [] [];
    Elem $"group" [($"ref", $"RadarValue")] [] [];
    Elem $"element" [($"ref", $"logSNR"); ($"use", $"optional")] [] [];
    Elem $"element" [($"ref", $"com"); ($"use", $"optional")] [] [];
    Elem $"element" [($"ref", $"frq")] [] [];
    Elem $"element" [($"ref", $"ref"); ($"use", $"NoSubmit")] [] [];
    Elem $"element" [($"ref", $"remarks"); ($"use", $"optional")] [] [];
    Elem $"group" [($"ref", $"RadarResiduals"); ($"use", $"NoSubmit")] [] [];
    Elem $"element" [($"ref", $"localUse"); ($"use", $"NoSubmit")] [] []]];
  Elem $"complextype" [($"name", $"ObsContextType")] [] [
   Elem $"all" [] [] [
    Elem $"element" [($"ref", $"observatory")] [] [];
    Elem $"element" [($"ref", $"submitter")] [] [];
    Elem $"element" [($"ref", $"observers"); ($"use", $"optional")] [] [];
    Elem $"element" [($"ref", $"measurers")] [] [];
    Elem $"element" [($"ref", $"telescope")] [] [];
    Elem $"element" [($"ref", $"software"); ($"use", $"optional")] [] [];
    Elem $"element" [($"ref", $"coinvestigators"); ($"use", $"optional")] [] [];
    Elem $"element" [($"ref", $"collaborators"); ($"use", $"optional")] [] [];
    Elem $"element" [($"ref", $"fundingSource"); ($"use", $"optional")] [] [];
    Elem $"element" [($"ref", $"comment"); ($"use", $"optional")] [] []]];
  Elem $"complextype" [($"name", $"ObsDataType")] [] [
   Elem $"choice" [] [] [
    Elem $"element" [($"ref", $"optical"); ($"use", $"unbounded")] [] [];
    Elem $"element" [($"ref", $"offset"); ($"use", $"unbounded")] [] [];
    Elem $"element" [($"ref", $"occultation"); ($"use", $"unbounded")] [] [];
    Elem $"element" [($"ref", $"radar"); ($"use", $"unbounded")] [] []]];
  Elem $"complextype" [($"name", $"ObsBlockType")] [] [
   Elem $"sequence" [] [] [
    Elem $"element" [($"ref", $"obsContext")] [] [];
    Elem $"element" [($"ref", $"obsData")] [] []]];
  Elem $"complextype" [($"name", $"OpticalResType")] [] [
   Elem $"sequence" [] [] [
    Elem $"group" [($"ref", $"OpticalID")] [] [];
    Elem $"element" [($"ref", $"obsTime")] [] [];
    Elem $"group" [($"ref", $"OpticalResiduals")] [] []]];
  Elem $"complextype" [($"name", $"RadarResType")] [] [
   Elem $"sequence" [] [] [
    Elem $"group" [($"ref", $"RadarID")] [] [];
    Elem $"element" [($"ref", $"obsTime")] [] [];
    Elem $"group" [($"ref", $"RadarResiduals")] [] []]];
  Elem $"complextype" [($"name", $"ADESType")] [] [
   Elem $"attribute" [($"name", $"version"); ($"type", $"VersionType"); ($"use", $"requiredAttribute")] [] [];
   Elem $"choice" [($"use", $"unbounded")] [] [
    Elem $"element" [($"ref", $"optical"); ($"use", $"NoSubmit")] [] [];
    Elem $"element" [($"ref", $"offset"); ($"use", $"NoSubmit")] [] [];
    Elem $"element" [($"ref", $"occultation"); ($"use", $"NoSubmit")] [] [];
    Elem $"element" [($"ref", $"radar"); ($"use", $"NoSubmit")] [] [];
    Elem $"element" [($"ref", $"opticalResidual"); ($"use", $"NoSubmit")] [] [];
    Elem $"element" [($"ref", $"radarResidual"); ($"use", $"NoSubmit")] [] [];
    Elem $"element" [($"ref", $"obsBlock")] [] []]]].

(** /ades/XSDElementTypes ADES observation sub-elements *)
Definition master_1 : xml :=
 Elem $"XSDElementTypes" [] [] [
  Elem $"element" [($"name", $"permID"); ($"type", $"PermIDType")] [] [];
  Elem $"element" [($"name", $"provID"); ($"type", $"ProvIDType")] [] [];
  Elem $"element" [($"name", $"artSat"); ($"type", $"StringTypeW25")] [] [];
  Elem $"element" [($"name", $"trkSub"); ($"type", $"TrkSubType")] [] [];
  Elem $"element" [($"name", $"obsID"); ($"type", $"ObsIDType")] [] [];
  Elem $"element" [($"name", $"obsSubID"); ($"type", $"StringTypeW25")] [] [];
  Elem $"element" [($"name", $"trkID"); ($"type", $"TrkIDType")] [] [];
  Elem $"element" [($"name", $"trkMPC"); ($"type", $"TrkIDType")] [] [];
  Elem $"element" [($"name", $"mode"); ($"type", $"ModeType")] [] [];
  Elem $"element" [($"name", $"stn"); ($"type", $"StationType")] [] [];
  Elem $"element" [($"name", $"trx"); ($"type", $"StationType")] [] [];
  Elem $"element" [($"name", $"rcv"); ($"type", $"StationType")] [] [];
  Elem $"element" [($"name", $"sys"); ($"type", $"SysType")] [] [];
  Elem $"element" [($"name", $"ctr"); ($"type", $"CtrType")] [] [];
  Elem $"element" [($"name", $"pos1"); ($"type", $"DecimalTypeW14")] [] [];
  Elem $"element" [($"name", $"pos2"); ($"type", $"DecimalTypeW14")] [] [];
  Elem $"element" [($"name", $"pos3"); ($"type", $"DecimalTypeW14")] [] [];
  Elem $"element" [($"name", $"vel1"); ($"type", $"DecimalTypeW14")] [] [];
  Elem $"element" [($"name", $"vel2"); ($"type", $"DecimalTypeW14")] [] [];
  Elem $"element" [($"name", $"vel3"); ($"type", $"DecimalTypeW14")] [] [];
  Elem $"element" [($"name", $"posCov11"); ($"type", $"DoubleTypeW21")] [] [];
  Elem $"element" [($"name", $"posCov12"); ($"type", $"DoubleTypeW21")] [] [];
  Elem $"element" [($"name", $"posCov13"); ($"type", $"DoubleTypeW21")] [] [];
  Elem $"element" [($"name", $"posCov22"); ($"type", $"DoubleTypeW21")] [] [];
  Elem $"element" [($"name", $"posCov23"); ($"type", $"DoubleTypeW21")] [] [];
  Elem $"element" [($"name", $"posCov33"); ($"type", $"DoubleTypeW21")] [] [];
  Elem $"element" [($"name", $"prog"); ($"type", $"ProgType")] [] [];
  Elem $"element" [($"name", $"obsTime"); ($"type", $"TimeType")] [] [];
  Elem $"element" [($"name", $"rmsTime"); ($"type", $"PosDecimalTypeW8")] [] [];
  Elem $"element" [($"name", $"ra"); ($"type", $"RAType")] [] [];
  Elem $"element" [($"name", $"dec"); ($"type", $"DeclinationType")] [] [];
  Elem $"element" [($"name", $"raStar"); ($"type", $"RAType")] [] [];
  Elem $"element" [($"name", $"decStar"); ($"type", $"DeclinationType")] [] [];
  Elem $"element" [($"name", $"obsCenter"); ($"type", $"ObsCenterType")] [] [];
  Elem $"element" [($"name", $"deltaRA"); ($"type", $"DecimalTypeW10")] [] [];
  Elem $"element" [($"name", $"deltaDec"); ($"type", $"DecimalTypeW10")] [] [];
  Elem $"element" [($"name", $"dist"); ($"type", $"PosDecimalTypeW10")] [] [];
  Elem $"element" [($"name", $"pa"); ($"type", $"RAType")] [] [];
  Elem $"element" [($"name", $"rmsRA"); ($"type", $"PosDecimalTypeW7")] [] [];
  Elem $"element" [($"name", $"rmsDec"); ($"type", $"PosDecimalTypeW7")] [] [];
  Elem $"element" [($"name", $"rmsDist"); ($"type", $"PosDecimalTypeW6")] [] [];
  Elem $"element" [($"name", $"rmsPA"); ($"type", $"PosDecimalTypeW6")] [] [];
  Elem $"element" [($"name", $"rmsCorr"); ($"type", $"CorrDecimalType")] [] [];
  Elem $"element" [($"name", $"delay"); ($"type", $"PosDecimalTypeW14")] [] [];
  Elem $"element" [($"name", $"rmsDelay"); ($"type", $"PosDecimalTypeW6")] [] [];
  Elem $"element" [($"name", $"doppler"); ($"type", $"DecimalTypeW14")] [] [];
  Elem $"element" [($"name", $"rmsDoppler"); ($"type", $"PosDecimalTypeW6")] [] [];
  Elem $"element" [($"name", $"astCat"); ($"type", $"CatType")] [] [];
  Elem $"element" [($"name", $"mag"); ($"type", $"MagType")] [] [];
  Elem $"element" [($"name", $"rmsMag"); ($"type", $"PosDecimalTypeW6")] [] [];
  Elem $"element" [($"name", $"band"); ($"type", $"BandType")] [] [];
  Elem $"element" [($"name", $"fltr"); ($"type", $"BandType")] [] [];
  Elem $"element" [($"name", $"photCat"); ($"type", $"CatType")] [] [];
  Elem $"element" [($"name", $"photAp"); ($"type", $"PosDecimalTypeW6")] [] [];
  Elem $"element" [($"name", $"nucMag"); ($"type", $"LogicalType")] [] [];
  Elem $"element" [($"name", $"logSNR"); ($"type", $"DecimalTypeW6")] [] [];
  Elem $"element" [($"name", $"shapeOcc"); ($"type", $"LogicalType")] [] [];
  Elem $"element" [($"name", $"seeing"); ($"type", $"PosDecimalTypeW6")] [] [];
  Elem $"element" [($"name", $"exp"); ($"type", $"PosDecimalTypeW6")] [] [];
  Elem $"element" [($"name", $"rmsFit"); ($"type", $"PosDecimalTypeW6")] [] [];
  Elem $"element" [($"name", $"nStars"); ($"type", $"PosIntegerTypeW6")] [] [];
  Elem $"element" [($"name", $"com"); ($"type", $"LogicalType")] [] [];
  Elem $"element" [($"name", $"frq"); ($"type", $"FrequencyType")] [] [];
  Elem $"element" [($"name", $"ref"); ($"type", $"RefType")] [] [];
  Elem $"element" [($"name", $"disc"); ($"type", $"DiscType")] [] [];
  Elem $"element" [($"name", $"subFrm"); ($"type", $"SubFrmType")] [] [];
  Elem $"element" [($"name", $"subFmt"); ($"type", $"SubFmtType")] [] [];
  Elem $"element" [($"name", $"precTime"); ($"type", $"TimePrecType")] [] [];
  Elem $"element" [($"name", $"precRA"); ($"type", $"RaDecPrecType")] [] [];
  Elem $"element" [($"name", $"precDec"); ($"type", $"RaDecPrecType")] [] [];
  Elem $"element" [($"name", $"uncTime"); ($"type", $"PosDecimalTypeW8")] [] [];
  Elem $"element" [($"name", $"notes"); ($"type", $"NotesType")] [] [];
  Elem $"element" [($"name", $"remarks"); ($"type", $"RemarkType")] [] [];
  Elem $"element" [($"name", $"deprecated"); ($"type", $"DeprecatedType")] [] [];
  Elem $"element" [($"name", $"localUse"); ($"type", $"LocalUseType")] [] []].

(** /ades/XSDElementTypes observations residual sub-elements *)
Definition master_2 : xml :=
 Elem $"XSDElementTypes" [] [] [
  Elem $"element" [($"name", $"orbProd"); ($"type", $"StringTypeW100")] [] [];
  Elem $"element" [($"name", $"orbID"); ($"type", $"StringTypeW25")] [] [];
  Elem $"element" [($"name", $"resRA"); ($"type", $"DoubleTypeW7")] [] [];
  Elem $"element" [($"name", $"resDec"); ($"type", $"DoubleTypeW7")] [] [];
  Elem $"element" [($"name", $"selAst"); ($"type", $"SelResType")] [] [];
  Elem $"element" [($"name", $"sigRA"); ($"type", $"PosDecimalTypeW7")] [] [];
  Elem $"element" [($"name", $"sigDec"); ($"type", $"PosDecimalTypeW7")] [] [];
  Elem $"element" [($"name", $"sigCorr"); ($"type", $"CorrDecimalType")] [] [];
  Elem $"element" [($"name", $"sigTime"); ($"type", $"PosDecimalTypeW8")] [] [];
  Elem $"element" [($"name", $"biasRA"); ($"type", $"DecimalTypeW8")] [] [];
  Elem $"element" [($"name", $"biasDec"); ($"type", $"DecimalTypeW8")] [] [];
  Elem $"element" [($"name", $"biasTime"); ($"type", $"DecimalTypeW10")] [] [];
  Elem $"element" [($"name", $"photProd"); ($"type", $"StringTypeW100")] [] [];
  Elem $"element" [($"name", $"resMag"); ($"type", $"DoubleTypeW7")] [] [];
  Elem $"element" [($"name", $"selPhot"); ($"type", $"SelResType")] [] [];
  Elem $"element" [($"name", $"sigMag"); ($"type", $"PosDecimalTypeW6")] [] [];
  Elem $"element" [($"name", $"biasMag"); ($"type", $"DecimalTypeW6")] [] [];
  Elem $"element" [($"name", $"photMod"); ($"type", $"PhotModType")] [] [];
  Elem $"element" [($"name", $"resDelay"); ($"type", $"DoubleTypeW7")] [] [];
  Elem $"element" [($"name", $"selDelay"); ($"type", $"SelResType")] [] [];
  Elem $"element" [($"name", $"sigDelay"); ($"type", $"PosDecimalTypeW6")] [] [];
  Elem $"element" [($"name", $"resDoppler"); ($"type", $"DoubleTypeW7")] [] [];
  Elem $"element" [($"name", $"selDoppler"); ($"type", $"SelResType")] [] [];
  Elem $"element" [($"name", $"sigDoppler"); ($"type", $"PosDecimalTypeW6")] [] []].

(** /ades/XSDElementTypes observation-context sub-elements *)
Definition master_3 : xml :=
 Elem $"XSDElementTypes" [] [] [
  Elem $"element" [($"name", $"observatory"); ($"type", $"ObservatoryType")] [] [];
  Elem $"element" [($"name", $"submitter"); ($"type", $"SubmitterType")] [] [];
  Elem $"element" [($"name", $"observers"); ($"type", $"NamesType")] [] [];
  Elem $"element" [($"name", $"measurers"); ($"type", $"NamesType")] [] [];
  Elem $"element" [($"name", $"telescope"); ($"type", $"TelescopeType")] [] [];
  Elem $"element" [($"name", $"software"); ($"type", $"SoftwareType")] [] [];
  Elem $"element" [($"name", $"coinvestigators"); ($"type", $"NamesType")] [] [];
  Elem $"element" [($"name", $"collaborators"); ($"type", $"NamesType")] [] [];
  Elem $"element" [($"name", $"fundingSource"); ($"type", $"StringTypeW100")] [] [];
  Elem $"element" [($"name", $"comment"); ($"type", $"CommentType")] [] []].

(** /ades/XSDElementTypes observation types *)
Definition master_4 : xml :=
 Elem $"XSDElementTypes" [] [] [
  Elem $"element" [($"name", $"optical"); ($"type", $"OpticalType")] [] [];
  Elem $"element" [($"name", $"offset"); ($"type", $"OffsetType")] [] [];
  Elem $"element" [($"name", $"occultation"); ($"type", $"OccultationType")] [] [];
  Elem $"element" [($"name", $"radar"); ($"type", $"RadarType")] [] []].

(** /ades/XSDElementTypes observation-context, obsBlock *)
Definition master_5 : xml :=
 Elem $"XSDElementTypes" [] [] [
  Elem $"element" [($"name", $"obsContext"); ($"type", $"ObsContextType")] [] [];
  Elem $"element" [($"name", $"obsData"); ($"type", $"ObsDataType")] [] [];
  Elem $"element" [($"name", $"obsBlock"); ($"type", $"ObsBlockType")] [] []].

(** /ades/XSDElementTypes Free-Standing Residuals *)
Definition master_6 : xml :=
 Elem $"XSDElementTypes" [] [] [
  Elem $"element" [($"name", $"opticalResidual"); ($"type", $"OpticalResType")] [] [];
  Elem $"element" [($"name", $"radarResidual"); ($"type", $"RadarResType")] [] []].

(** /ades/XSDElementTypes ADES root *)
Definition master_7 : xml :=
 Elem $"XSDElementTypes" [] [] [
  Elem $"element" [($"name", $"ades"); ($"type", $"ADESType")] [] []].

(** /ades/PSVObservationFields  *)
Definition master_8 : xml :=
 Elem $"PSVObservationFields" [] [] [
  Elem $"psv" [($"tagtype", $"optical"); ($"name", $"permID"); ($"width", $"7"); ($"justification", $"R"); ($"dpos", $"0")] [] [];
  Elem $"psv" [($"tagtype", $"optical"); ($"name", $"provID"); ($"width", $"11"); ($"justification", $"L"); ($"dpos", $"0")] [] [];
  Elem $"psv" [($"tagtype", $"optical"); ($"name", $"artSat"); ($"width", $"8"); ($"justification", $"R"); ($"dpos", $"0")] [] [];
  Elem $"psv" [($"tagtype", $"optical"); ($"name", $"trkSub"); ($"width", $"7"); ($"justification", $"R"); ($"dpos", $"0")] [] [];
  Elem $"psv" [($"tagtype", $"optical"); ($"name", $"mode"); ($"width", $"3"); ($"justification", $"R"); ($"dpos", $"0")] [] [];
  Elem $"psv" [($"tagtype", $"optical"); ($"name", $"stn"); ($"width", $"4"); ($"justification", $"L"); ($"dpos", $"0")] [] [];
  Elem $"psv" [($"tagtype", $"optical"); ($"name", $"prog"); ($"width", $"2"); ($"justification", $"R"); ($"dpos", $"0")] [] [];
  Elem $"psv" [($"tagtype", $"optical"); ($"name", $"obsTime"); ($"width", $"23"); ($"justification", $"L"); ($"dpos", $"0")] [] [];
  Elem $"psv" [($"tagtype", $"optical"); ($"name", $"ra"); ($"width", $"12"); ($"justification", $"D"); ($"dpos", $"4")] [] [];
  Elem $"psv" [($"tagtype", $"optical"); ($"name", $"dec"); ($"width", $"12"); ($"justification", $"D"); ($"dpos", $"4")] [] [];
  Elem $"psv" [($"tagtype", $"optical"); ($"name", $"rmsRA"); ($"width", $"7"); ($"justification", $"D"); ($"dpos", $"2")] [] [];
  Elem $"psv" [($"tagtype", $"optical"); ($"name", $"rmsDec"); ($"width", $"7"); ($"justification", $"D"); ($"dpos", $"2")] [] [];
  Elem $"psv" [($"tagtype", $"optical"); ($"name", $"rmsCorr"); ($"width", $"7"); ($"justification", $"D"); ($"dpos", $"3")] [] [];
  Elem $"psv" [($"tagtype", $"optical"); ($"name", $"astCat"); ($"width", $"3"); ($"justification", $"R"); ($"dpos", $"0")] [] [];
  Elem $"psv" [($"tagtype", $"optical"); ($"name", $"mag"); ($"width", $"5"); ($"justification", $"D"); ($"dpos", $"3")] [] [];
  Elem $"psv" [($"tagtype", $"optical"); ($"name", $"rmsMag"); ($"width", $"4"); ($"justification", $"D"); ($"dpos", $"2")] [] [];
  Elem $"psv" [($"tagtype", $"optical"); ($"name", $"band"); ($"width", $"3"); ($"justification", $"R"); ($"dpos", $"0")] [] [];
  Elem $"psv" [($"tagtype", $"optical"); ($"name", $"photCat"); ($"width", $"3"); ($"justification", $"R"); ($"dpos", $"0")] [] [];
  Elem $"psv" [($"tagtype", $"optical"); ($"name", $"photAp"); ($"width", $"4"); ($"justification", $"D"); ($"dpos", $"3")] [] [];
  Elem $"psv" [($"tagtype", $"optical"); ($"name", $"logSNR"); ($"width", $"4"); ($"justification", $"D"); ($"dpos", $"2")] [] [];
  Elem $"psv" [($"tagtype", $"optical"); ($"name", $"seeing"); ($"width", $"3"); ($"justification", $"D"); ($"dpos", $"2")] [] [];
  Elem $"psv" [($"tagtype", $"optical"); ($"name", $"exp"); ($"width", $"4"); ($"justification", $"R"); ($"dpos", $"0")] [] [];
  Elem $"psv" [($"tagtype", $"optical"); ($"name", $"notes"); ($"width", $"5"); ($"justification", $"L"); ($"dpos", $"0")] [] [];
  Elem $"psv" [($"tagtype", $"optical"); ($"name", $"remarks"); ($"width", $"0"); ($"justification", $"L"); ($"dpos", $"0")] [] [];
  Elem $"psv" [($"tagtype", $"offset"); ($"name", $"permID"); ($"width", $"7"); ($"justification", $"R"); ($"dpos", $"0")] [] [];
  Elem $"psv" [($"tagtype", $"offset"); ($"name", $"provID"); ($"width", $"11"); ($"justification", $"L"); ($"dpos", $"0")] [] [];
  Elem $"psv" [($"tagtype", $"offset"); ($"name", $"artSat"); ($"width", $"8"); ($"justification", $"R"); ($"dpos", $"0")] [] [];
  Elem $"psv" [($"tagtype", $"offset"); ($"name", $"trkSub"); ($"width", $"7"); ($"justification", $"R"); ($"dpos", $"0")] [] [];
  Elem $"psv" [($"tagtype", $"offset"); ($"name", $"mode"); ($"width", $"3"); ($"justification", $"R"); ($"dpos", $"0")] [] [];
  Elem $"psv" [($"tagtype", $"offset"); ($"name", $"stn"); ($"width", $"4"); ($"justification", $"L"); ($"dpos", $"0")] [] [];
  Elem $"psv" [($"tagtype", $"offset"); ($"name", $"prog"); ($"width", $"2"); ($"justification", $"R"); ($"dpos", $"0")] [] [];
  Elem $"psv" [($"tagtype", $"offset"); ($"name", $"obsTime"); ($"width", $"23"); ($"justification", $"L"); ($"dpos", $"0")] [] [];
  Elem $"psv" [($"tagtype", $"offset"); ($"name", $"obsCenter"); ($"width", $"8"); ($"justification", $"L"); ($"dpos", $"0")] [] [];
  Elem $"psv" [($"tagtype", $"offset"); ($"name", $"deltaRA"); ($"width", $"12"); ($"justification", $"D"); ($"dpos", $"4")] [] [];
  Elem $"psv" [($"tagtype", $"offset"); ($"name", $"deltaDec"); ($"width", $"12"); ($"justification", $"D"); ($"dpos", $"4")] [] [];
  Elem $"psv" [($"tagtype", $"offset"); ($"name", $"rmsRA"); ($"width", $"7"); ($"justification", $"D"); ($"dpos", $"2")] [] [];
  Elem $"psv" [($"tagtype", $"offset"); ($"name", $"rmsDec"); ($"width", $"7"); ($"justification", $"D"); ($"dpos", $"2")] [] [];
  Elem $"psv" [($"tagtype", $"offset"); ($"name", $"dist"); ($"width", $"5"); ($"justification", $"D"); ($"dpos", $"2")] [] [];
  Elem $"psv" [($"tagtype", $"offset"); ($"name", $"pa"); ($"width", $"6"); ($"justification", $"D"); ($"dpos", $"2")] [] [];
  Elem $"psv" [($"tagtype", $"offset"); ($"name", $"rmsdist"); ($"width", $"7"); ($"justification", $"D"); ($"dpos", $"3")] [] [];
  Elem $"psv" [($"tagtype", $"offset"); ($"name", $"rmsPA"); ($"width", $"6"); ($"justification", $"D"); ($"dpos", $"3")] [] [];
  Elem $"psv" [($"tagtype", $"offset"); ($"name", $"rmsCorr"); ($"width", $"6"); ($"justification", $"D"); ($"dpos", $"2")] [] [];
  Elem $"psv" [($"tagtype", $"offset"); ($"name", $"astCat"); ($"width", $"3"); ($"justification", $"R"); ($"dpos", $"0")] [] [];
  Elem $"psv" [($"tagtype", $"offset"); ($"name", $"astCat"); ($"width", $"3"); ($"justification", $"R"); ($"dpos", $"0")] [] [];
  Elem $"psv" [($"tagtype", $"offset"); ($"name", $"mag"); ($"width", $"5"); ($"justification", $"D"); ($"dpos", $"3")] [] [];
  Elem $"psv" [($"tagtype", $"offset"); ($"name", $"rmsMag"); ($"width", $"4"); ($"justification", $"D"); ($"dpos", $"2")] [] [];
  Elem $"psv" [($"tagtype", $"offset"); ($"name", $"band"); ($"width", $"3"); ($"justification", $"R"); ($"dpos", $"0")] [] [];
  Elem $"psv" [($"tagtype", $"offset"); ($"name", $"photCat"); ($"width", $"3"); ($"justification", $"R"); ($"dpos", $"0")] [] [];
  Elem $"psv" [($"tagtype", $"offset"); ($"name", $"photAp"); ($"width", $"4"); ($"justification", $"D"); ($"dpos", $"3")] [] [];
  Elem $"psv" [($"tagtype", $"offset"); ($"name", $"logSNR"); ($"width", $"4"); ($"justification", $"D"); ($"dpos", $"2")] [] [];
  Elem $"psv" [($"tagtype", $"offset"); ($"name", $"seeing"); ($"width", $"3"); ($"justification", $"D"); ($"dpos", $"2")] [] [];
  Elem $"psv" [($"tagtype", $"offset"); ($"name", $"exp"); ($"width", $"4"); ($"justification", $"R"); ($"dpos", $"0")] [] [];
  Elem $"psv" [($"tagtype", $"offset"); ($"name", $"notes"); ($"width", $"5"); ($"justification", $"L"); ($"dpos", $"0")] [] [];
  Elem $"psv" [($"tagtype", $"offset"); ($"name", $"remarks"); ($"width", $"0"); ($"justification", $"L"); ($"dpos", $"0")] [] [];
  Elem $"psv" [($"tagtype", $"occultation"); ($"name", $"permID"); ($"width", $"7"); ($"justification", $"R"); ($"dpos", $"0")] [] [];
  Elem $"psv" [($"tagtype", $"occultation"); ($"name", $"provID"); ($"width", $"11"); ($"justification", $"L"); ($"dpos", $"0")] [] [];
  Elem $"psv" [($"tagtype", $"occultation"); ($"name", $"artSat"); ($"width", $"8"); ($"justification", $"R"); ($"dpos", $"0")] [] [];
  Elem $"psv" [($"tagtype", $"occultation"); ($"name", $"trkSub"); ($"width", $"7"); ($"justification", $"R"); ($"dpos", $"0")] [] [];
  Elem $"psv" [($"tagtype", $"occultation"); ($"name", $"stn"); ($"width", $"4"); ($"justification", $"L"); ($"dpos", $"0")] [] [];
  Elem $"psv" [($"tagtype", $"occultation"); ($"name", $"prog"); ($"width", $"2"); ($"justification", $"R"); ($"dpos", $"0")] [] [];
  Elem $"psv" [($"tagtype", $"occultation"); ($"name", $"obsTime"); ($"width", $"23"); ($"justification", $"L"); ($"dpos", $"0")] [] [];
  Elem $"psv" [($"tagtype", $"occultation"); ($"name", $"obsCenter"); ($"width", $"8"); ($"justification", $"L"); ($"dpos", $"0")] [] [];
  Elem $"psv" [($"tagtype", $"occultation"); ($"name", $"raStar"); ($"width", $"13"); ($"justification", $"D"); ($"dpos", $"4")] [] [];
  Elem $"psv" [($"tagtype", $"occultation"); ($"name", $"decStar"); ($"width", $"12"); ($"justification", $"D"); ($"dpos", $"4")] [] [];
  Elem $"psv" [($"tagtype", $"occultation"); ($"name", $"deltaRA"); ($"width", $"12"); ($"justification", $"D"); ($"dpos", $"4")] [] [];
  Elem $"psv" [($"tagtype", $"occultation"); ($"name", $"deltaDec"); ($"width", $"13"); ($"justification", $"D"); ($"dpos", $"4")] [] [];
  Elem $"psv" [($"tagtype", $"occultation"); ($"name", $"rmsRA"); ($"width", $"7"); ($"justification", $"D"); ($"dpos", $"3")] [] [];
  Elem $"psv" [($"tagtype", $"occultation"); ($"name", $"rmsDec"); ($"width", $"7"); ($"justification", $"D"); ($"dpos", $"3")] [] [];
  Elem $"psv" [($"tagtype", $"occultation"); ($"name", $"dist"); ($"width", $"11"); ($"justification", $"D"); ($"dpos", $"4")] [] [];
  Elem $"psv" [($"tagtype", $"occultation"); ($"name", $"pa"); ($"width", $"11"); ($"justification", $"D"); ($"dpos", $"4")] [] [];
  Elem $"psv" [($"tagtype", $"occultation"); ($"name", $"rmsdist"); ($"width", $"6"); ($"justification", $"D"); ($"dpos", $"3")] [] [];
  Elem $"psv" [($"tagtype", $"occultation"); ($"name", $"rmsPA"); ($"width", $"6"); ($"justification", $"D"); ($"dpos", $"3")] [] [];
  Elem $"psv" [($"tagtype", $"occultation"); ($"name", $"rmsCorr"); ($"width", $"5"); ($"justification", $"D"); ($"dpos", $"2")] [] [];
  Elem $"psv" [($"tagtype", $"occultation"); ($"name", $"astCat"); ($"width", $"3"); ($"justification", $"R"); ($"dpos", $"0")] [] [];
  Elem $"psv" [($"tagtype", $"occultation"); ($"name", $"mag"); ($"width", $"5"); ($"justification", $"D"); ($"dpos", $"3")] [] [];
  Elem $"psv" [($"tagtype", $"occultation"); ($"name", $"rmsMag"); ($"width", $"4"); ($"justification", $"D"); ($"dpos", $"2")] [] [];
  Elem $"psv" [($"tagtype", $"occultation"); ($"name", $"band"); ($"width", $"3"); ($"justification", $"R"); ($"dpos", $"0")] [] [];
  Elem $"psv" [($"tagtype", $"occultation"); ($"name", $"photCat"); ($"width", $"3"); ($"justification", $"R"); ($"dpos", $"0")] [] [];
  Elem $"psv" [($"tagtype", $"occultation"); ($"name", $"photAp"); ($"width", $"4"); ($"justification", $"D"); ($"dpos", $"3")] [] [];
  Elem $"psv" [($"tagtype", $"occultation"); ($"name", $"logSNR"); ($"width", $"4"); ($"justification", $"D"); ($"dpos", $"2")] [] [];
  Elem $"psv" [($"tagtype", $"occultation"); ($"name", $"shapeOcc"); ($"width", $"1"); ($"justification", $"L"); ($"dpos", $"0")] [] [];
  Elem $"psv" [($"tagtype", $"occultation"); ($"name", $"seeing"); ($"width", $"3"); ($"justification", $"D"); ($"dpos", $"2")] [] [];
  Elem $"psv" [($"tagtype", $"occultation"); ($"name", $"exp"); ($"width", $"4"); ($"justification", $"R"); ($"dpos", $"0")] [] [];
  Elem $"psv" [($"tagtype", $"occultation"); ($"name", $"notes"); ($"width", $"5"); ($"justification", $"L"); ($"dpos", $"0")] [] [];
  Elem $"psv" [($"tagtype", $"occultation"); ($"name", $"remarks"); ($"width", $"0"); ($"justification", $"L"); ($"dpos", $"0")] [] [];
  Elem $"psv" [($"tagtype", $"radar"); ($"name", $"permID"); ($"width", $"7"); ($"justification", $"R"); ($"dpos", $"0")] [] [];
  Elem $"psv" [($"tagtype", $"radar"); ($"name", $"provID"); ($"width", $"11"); ($"justification", $"L"); ($"dpos", $"0")] [] [];
  Elem $"psv" [($"tagtype", $"radar"); ($"name", $"trkSub"); ($"width", $"7"); ($"justification", $"R"); ($"dpos", $"0")] [] [];
  Elem $"psv" [($"tagtype", $"radar"); ($"name", $"obsID"); ($"width", $"7"); ($"justification", $"R"); ($"dpos", $"0")] [] [];
  Elem $"psv" [($"tagtype", $"radar"); ($"name", $"trx"); ($"width", $"4"); ($"justification", $"L"); ($"dpos", $"0")] [] [];
  Elem $"psv" [($"tagtype", $"radar"); ($"name", $"rcv"); ($"width", $"4"); ($"justification", $"L"); ($"dpos", $"0")] [] [];
  Elem $"psv" [($"tagtype", $"radar"); ($"name", $"prog"); ($"width", $"2"); ($"justification", $"R"); ($"dpos", $"0")] [] [];
  Elem $"psv" [($"tagtype", $"radar"); ($"name", $"obsTime"); ($"width", $"23"); ($"justification", $"L"); ($"dpos", $"0")] [] [];
  Elem $"psv" [($"tagtype", $"radar"); ($"name", $"doppler"); ($"width", $"11"); ($"justification", $"D"); ($"dpos", $"4")] [] [];
  Elem $"psv" [($"tagtype", $"radar"); ($"name", $"delay"); ($"width", $"11"); ($"justification", $"D"); ($"dpos", $"4")] [] [];
  Elem $"psv" [($"tagtype", $"radar"); ($"name", $"rmsDoppler"); ($"width", $"6"); ($"justification", $"D"); ($"dpos", $"3")] [] [];
  Elem $"psv" [($"tagtype", $"radar"); ($"name", $"rmsDelay"); ($"width", $"6"); ($"justification", $"D"); ($"dpos", $"3")] [] [];
  Elem $"psv" [($"tagtype", $"radar"); ($"name", $"logSNR"); ($"width", $"4"); ($"justification", $"D"); ($"dpos", $"2")] [] [];
  Elem $"psv" [($"tagtype", $"radar"); ($"name", $"remarks"); ($"width", $"0"); ($"justification", $"L"); ($"dpos", $"0")] [] []].

(** xml/adesmaster.xml *)
Definition adesmaster : xml := Elem $"ades" [] [] [master_0; master_1; master_2; master_3; master_4; master_5; master_6; master_7; master_8].
