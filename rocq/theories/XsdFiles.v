(** GENERATED by tools/gen_xsd.py from xsd/submit.xsd and xsd/general.xsd: do not edit. *)
From Verif Require Import Xml.

(** xsd/submit.xsd *)
Definition submit_xsd : xml :=
 Elem $"xsd:schema" [] [] [
  Elem $"xsd:simpleType" [($"name", $"AlphaNumericType")] [] [
   Elem $"xsd:restriction" [($"base", $"StringType")] [] [
    Elem $"xsd:pattern" [($"value", $"[A-Za-z0-9_]*")] [] []]];
  Elem $"xsd:simpleType" [($"name", $"MagType")] [] [
   Elem $"xsd:restriction" [($"base", $"DecimalTypeW8")] [] [
    Elem $"xsd:minInclusive" [($"value", $"-5.0")] [] [];
    Elem $"xsd:maxInclusive" [($"value", $"35.0")] [] []]];
  Elem $"xsd:simpleType" [($"name", $"BandType")] [] [
   Elem $"xsd:restriction" [($"base", $"AlphaNumericType")] [] [
    Elem $"xsd:maxLength" [($"value", $"3")] [] []]];
  Elem $"xsd:simpleType" [($"name", $"CatType")] [] [
   Elem $"xsd:restriction" [($"base", $"StringType")] [] [
    Elem $"xsd:pattern" [($"value", $"[.A-Za-z0-9_]*")] [] [];
    Elem $"xsd:maxLength" [($"value", $"8")] [] []]];
  Elem $"xsd:simpleType" [($"name", $"CorrDecimalType")] [] [
   Elem $"xsd:restriction" [($"base", $"xsd:decimal")] [] [
    Elem $"xsd:minExclusive" [($"value", $"-1.0")] [] [];
    Elem $"xsd:maxExclusive" [($"value", $"1.0")] [] [];
    Elem $"xsd:pattern" [($"value", $"[+\-]?(0|1)(\.[0123456789]{0,11})?")] [] []]];
  Elem $"xsd:simpleType" [($"name", $"DecimalType")] [] [
   Elem $"xsd:restriction" [($"base", $"xsd:decimal")] [] [
    Elem $"xsd:pattern" [($"value", $"[+\-]?(0|([1-9][0-9]*))(\.[0-9]*)?")] [] []]];
  Elem $"xsd:simpleType" [($"name", $"DecimalTypeW6")] [] [
   Elem $"xsd:restriction" [($"base", $"DecimalType")] [] [
    Elem $"xsd:pattern" [($"value", $"[+\-]?[0123456789\.]{1,5}")] [] []]];
  Elem $"xsd:simpleType" [($"name", $"DecimalTypeW8")] [] [
   Elem $"xsd:restriction" [($"base", $"DecimalType")] [] [
    Elem $"xsd:pattern" [($"value", $"[+\-]?[0123456789\.]{1,7}")] [] []]];
  Elem $"xsd:simpleType" [($"name", $"DecimalTypeW10")] [] [
   Elem $"xsd:restriction" [($"base", $"DecimalType")] [] [
    Elem $"xsd:pattern" [($"value", $"[+\-]?[0123456789\.]{1,9}")] [] []]];
  Elem $"xsd:simpleType" [($"name", $"DecimalTypeW14")] [] [
   Elem $"xsd:restriction" [($"base", $"DecimalType")] [] [
    Elem $"xsd:pattern" [($"value", $"[+\-]?[0123456789\.]{1,13}")] [] []]];
  Elem $"xsd:simpleType" [($"name", $"DeclinationType")] [] [
   Elem $"xsd:restriction" [($"base", $"xsd:decimal")] [] [
    Elem $"xsd:minInclusive" [($"value", $"-90.0")] [] [];
    Elem $"xsd:maxInclusive" [($"value", $"90.0")] [] [];
    Elem $"xsd:pattern" [($"value", $"[+\-]?([1-9]?[0-9])?(\.[0123456789]{0,9})?")] [] []]];
  Elem $"xsd:simpleType" [($"name", $"DeprecatedType")] [] [
   Elem $"xsd:restriction" [($"base", $"xsd:string")] [] [
    Elem $"xsd:enumeration" [($"value", $"X")] [] []]];
  Elem $"xsd:simpleType" [($"name", $"DiscType")] [] [
   Elem $"xsd:restriction" [($"base", $"xsd:string")] [] [
    Elem $"xsd:enumeration" [($"value", $"*")] [] [];
    Elem $"xsd:enumeration" [($"value", $"+")] [] []]];
  Elem $"xsd:simpleType" [($"name", $"DoubleTypeW7")] [] [
   Elem $"xsd:restriction" [($"base", $"xsd:double")] [] [
    Elem $"xsd:pattern" [($"value", $"[+\-]?[+\-Ee0123456789\.]{1,6}")] [] []]];
  Elem $"xsd:simpleType" [($"name", $"DoubleTypeW21")] [] [
   Elem $"xsd:restriction" [($"base", $"xsd:double")] [] [
    Elem $"xsd:pattern" [($"value", $"[+\-]?[+\-Ee0123456789\.]{1,20}")] [] []]];
  Elem $"xsd:simpleType" [($"name", $"SubFrmType")] [] [
   Elem $"xsd:restriction" [($"base", $"StringType")] [] [
    Elem $"xsd:pattern" [($"value", $"([BJ]\d{4}.0)|APP\.")] [] []]];
  Elem $"xsd:simpleType" [($"name", $"LeapSecondsHelp")] [] [
   Elem $"xsd:restriction" [($"base", $"xsd:string")] [] [
    Elem $"xsd:pattern" [($"value", $"19(72|81|82|83|85|92|93|94|97)-06-30T23:59:60(\.\d+)?Z")] [] [];
    Elem $"xsd:pattern" [($"value", $"19(72|73|74|75|76|77|78|79|87|89|90|95|98)-12-31T23:59:60(\.\d+)?Z")] [] [];
    Elem $"xsd:pattern" [($"value", $"20(12|15)-06-30T23:59:60(\.\d+)?Z")] [] [];
    Elem $"xsd:pattern" [($"value", $"20(05|08|16)-12-31T23:59:60(.\d+)?Z")] [] [];
    Elem $"xsd:pattern" [($"value", $"(2[1-9]\d{2}|20[2-9]\d|201[7-9])-12-31T23:59:60(\.\d+)?Z")] [] [];
    Elem $"xsd:pattern" [($"value", $"(2[1-9]\d{2}|20[2-9]\d|201[7-9])-06-30T23:59:60(\.\d+)?Z")] [] [];
    Elem $"xsd:pattern" [($"value", $"[3-9]\d{3}-06-30T23:59:60(\.\d+)?Z")] [] [];
    Elem $"xsd:pattern" [($"value", $"[3-9]\d{3}-12-31T23:59:60(\.\d+)?Z")] [] []]];
  Elem $"xsd:simpleType" [($"name", $"LogicalType")] [] [
   Elem $"xsd:restriction" [($"base", $"xsd:integer")] [] [
    Elem $"xsd:enumeration" [($"value", $"0")] [] [];
    Elem $"xsd:enumeration" [($"value", $"1")] [] []]];
  Elem $"xsd:simpleType" [($"name", $"ModeType")] [] [
   Elem $"xsd:restriction" [($"base", $"AlphaNumericType")] [] [
    Elem $"xsd:maxLength" [($"value", $"3")] [] []]];
  Elem $"xsd:simpleType" [($"name", $"ObsCenterType")] [] [
   Elem $"xsd:union" [($"memberTypes", $"PermIDType ProvIDType PlanetNameType")] [] []];
  Elem $"xsd:simpleType" [($"name", $"NotesType")] [] [
   Elem $"xsd:restriction" [($"base", $"AlphaNumericType")] [] [
    Elem $"xsd:maxLength" [($"value", $"6")] [] []]];
  Elem $"xsd:simpleType" [($"name", $"ObsIDType")] [] [
   Elem $"xsd:restriction" [($"base", $"AlphaNumericType")] [] [
    Elem $"xsd:maxLength" [($"value", $"25")] [] []]];
  Elem $"xsd:simpleType" [($"name", $"PermIDType")] [] [
   Elem $"xsd:restriction" [($"base", $"StringTypeW25")] [] [
    Elem $"xsd:pattern" [($"value", $"\d+([IPD](-[A-Z]{1,2})?)?|((Mars|Jupiter|Saturn|Uranus|Neptune) \d{1,3}|\(\d+\) \d{1,3})")] [] []]];
  Elem $"xsd:simpleType" [($"name", $"PhotModType")] [] [
   Elem $"xsd:restriction" [($"base", $"AlphaNumericType")] [] [
    Elem $"xsd:maxLength" [($"value", $"8")] [] []]];
  Elem $"xsd:simpleType" [($"name", $"PlanetNameType")] [] [
   Elem $"xsd:restriction" [($"base", $"StringTypeW25")] [] [
    Elem $"xsd:enumeration" [($"value", $"Mercury")] [] [];
    Elem $"xsd:enumeration" [($"value", $"Venus")] [] [];
    Elem $"xsd:enumeration" [($"value", $"Earth")] [] [];
    Elem $"xsd:enumeration" [($"value", $"Moon")] [] [];
    Elem $"xsd:enumeration" [($"value", $"Mars")] [] [];
    Elem $"xsd:enumeration" [($"value", $"Jupiter")] [] [];
    Elem $"xsd:enumeration" [($"value", $"Saturn")] [] [];
    Elem $"xsd:enumeration" [($"value", $"Uranus")] [] [];
    Elem $"xsd:enumeration" [($"value", $"Neptune")] [] []]];
  Elem $"xsd:simpleType" [($"name", $"PosDecimalType")] [] [
   Elem $"xsd:restriction" [($"base", $"xsd:decimal")] [] [
    Elem $"xsd:minExclusive" [($"value", $"0.0")] [] [];
    Elem $"xsd:maxExclusive" [($"value", $"100000.0")] [] [];
    Elem $"xsd:pattern" [($"value", $"(0|([1-9][0-9]*))(\.[0-9]*)?")] [] []]];
  Elem $"xsd:simpleType" [($"name", $"PosIntegerTypeW6")] [] [
   Elem $"xsd:restriction" [($"base", $"xsd:positiveInteger")] [] [
    Elem $"xsd:maxExclusive" [($"value", $"1000000")] [] []]];
  Elem $"xsd:simpleType" [($"name", $"CtrType")] [] [
   Elem $"xsd:restriction" [($"base", $"SPICEIDType")] [] [
    Elem $"xsd:enumeration" [($"value", $"399")] [] []]];
  Elem $"xsd:simpleType" [($"name", $"SPICEIDType")] [] [
   Elem $"xsd:restriction" [($"base", $"xsd:integer")] [] [
    Elem $"xsd:maxExclusive" [($"value", $"+1000000000")] [] [];
    Elem $"xsd:minExclusive" [($"value", $"-1000000000")] [] []]];
  Elem $"xsd:simpleType" [($"name", $"PosDecimalTypeW6")] [] [
   Elem $"xsd:restriction" [($"base", $"PosDecimalType")] [] [
    Elem $"xsd:pattern" [($"value", $"[0123456789\.]{1,6}")] [] []]];
  Elem $"xsd:simpleType" [($"name", $"PosDecimalTypeW7")] [] [
   Elem $"xsd:restriction" [($"base", $"PosDecimalType")] [] [
    Elem $"xsd:pattern" [($"value", $"[0123456789\.]{1,7}")] [] []]];
  Elem $"xsd:simpleType" [($"name", $"PosDecimalTypeW8")] [] [
   Elem $"xsd:restriction" [($"base", $"PosDecimalType")] [] [
    Elem $"xsd:pattern" [($"value", $"[0123456789\.]{1,8}")] [] []]];
  Elem $"xsd:simpleType" [($"name", $"PosDecimalTypeW10")] [] [
   Elem $"xsd:restriction" [($"base", $"PosDecimalType")] [] [
    Elem $"xsd:pattern" [($"value", $"[0123456789\.]{1,10}")] [] []]];
  Elem $"xsd:simpleType" [($"name", $"PosDecimalTypeW14")] [] [
   Elem $"xsd:restriction" [($"base", $"PosDecimalType")] [] [
    Elem $"xsd:pattern" [($"value", $"[0123456789\.]{1,14}")] [] []]];
  Elem $"xsd:simpleType" [($"name", $"FrequencyType")] [] [
   Elem $"xsd:restriction" [($"base", $"xsd:decimal")] [] [
    Elem $"xsd:minExclusive" [($"value", $"0.0")] [] [];
    Elem $"xsd:pattern" [($"value", $"[0123456789\.]{1,16}")] [] []]];
  Elem $"xsd:simpleType" [($"name", $"ProgType")] [] [
   Elem $"xsd:restriction" [($"base", $"AlphaNumericType")] [] [
    Elem $"xsd:maxLength" [($"value", $"2")] [] []]];
  Elem $"xsd:simpleType" [($"name", $"BaseProvIDType")] [] [
   Elem $"xsd:restriction" [($"base", $"StringTypeW25")] [] [
    Elem $"xsd:pattern" [($"value", $"\d{4} [A-HJ-Y][A-HJ-Z]\d*|\d{4} (P-L|T-[123])|[ADCPX]/\d{4} [A-Z]{1,2}\d*(-[A-Z])?|S/\d{4} ((M|J|S|U|N)|\((\d+|\d{4} [A-HJ-Y][A-HJ-Z]?\d+)\)) \d+")] [] []]];
  Elem $"xsd:simpleType" [($"name", $"OldProvIDType")] [] [
   Elem $"xsd:restriction" [($"base", $"StringTypeW25")] [] [
    Elem $"xsd:pattern" [($"value", $"A[89]\d{2} [A-HJ-Y][A-HJ-Z]")] [] []]];
  Elem $"xsd:simpleType" [($"name", $"ProvIDType")] [] [
   Elem $"xsd:union" [($"memberTypes", $"BaseProvIDType")] [] []];
  Elem $"xsd:simpleType" [($"name", $"RaDecPrecType")] [] [
   Elem $"xsd:restriction" [($"base", $"xsd:decimal")] [] [
    Elem $"xsd:enumeration" [($"value", $"0.1")] [] [];
    Elem $"xsd:enumeration" [($"value", $"0.6")] [] [];
    Elem $"xsd:enumeration" [($"value", $"0.01")] [] [];
    Elem $"xsd:enumeration" [($"value", $"0.001")] [] [];
    Elem $"xsd:enumeration" [($"value", $"60")] [] [];
    Elem $"xsd:enumeration" [($"value", $"6")] [] [];
    Elem $"xsd:enumeration" [($"value", $"1")] [] []]];
  Elem $"xsd:simpleType" [($"name", $"RAType")] [] [
   Elem $"xsd:restriction" [($"base", $"xsd:decimal")] [] [
    Elem $"xsd:minInclusive" [($"value", $"0.0")] [] [];
    Elem $"xsd:maxExclusive" [($"value", $"360.0")] [] [];
    Elem $"xsd:pattern" [($"value", $"([1-3][0-9]{2}|[1-9]?[0-9])?(\.[0-9]{0,9})?")] [] []]];
  Elem $"xsd:simpleType" [($"name", $"RefType")] [] [
   Elem $"xsd:restriction" [($"base", $"StringType")] [] [
    Elem $"xsd:maxLength" [($"value", $"16")] [] []]];
  Elem $"xsd:simpleType" [($"name", $"RemarkType")] [] [
   Elem $"xsd:restriction" [($"base", $"StringType")] [] [
    Elem $"xsd:maxLength" [($"value", $"300")] [] []]];
  Elem $"xsd:simpleType" [($"name", $"SelResType")] [] [
   Elem $"xsd:restriction" [($"base", $"xsd:string")] [] [
    Elem $"xsd:enumeration" [($"value", $"A")] [] [];
    Elem $"xsd:enumeration" [($"value", $"a")] [] [];
    Elem $"xsd:enumeration" [($"value", $"D")] [] [];
    Elem $"xsd:enumeration" [($"value", $"d")] [] []]];
  Elem $"xsd:simpleType" [($"name", $"StationType")] [] [
   Elem $"xsd:restriction" [($"base", $"AlphaNumericType")] [] [
    Elem $"xsd:minLength" [($"value", $"3")] [] [];
    Elem $"xsd:maxLength" [($"value", $"4")] [] []]];
  Elem $"xsd:simpleType" [($"name", $"StringType")] [] [
   Elem $"xsd:restriction" [($"base", $"xsd:string")] [] [
    Elem $"xsd:pattern" [($"value", $"[^|]*[^|\s][^|]*")] [] []]];
  Elem $"xsd:simpleType" [($"name", $"StringTypeW25")] [] [
   Elem $"xsd:restriction" [($"base", $"StringType")] [] [
    Elem $"xsd:maxLength" [($"value", $"25")] [] []]];
  Elem $"xsd:simpleType" [($"name", $"StringTypeW100")] [] [
   Elem $"xsd:restriction" [($"base", $"StringType")] [] [
    Elem $"xsd:maxLength" [($"value", $"100")] [] []]];
  Elem $"xsd:simpleType" [($"name", $"SubFmtType")] [] [
   Elem $"xsd:restriction" [($"base", $"AlphaNumericType")] [] [
    Elem $"xsd:maxLength" [($"value", $"4")] [] []]];
  Elem $"xsd:simpleType" [($"name", $"SysType")] [] [
   Elem $"xsd:restriction" [($"base", $"xsd:string")] [] [
    Elem $"xsd:enumeration" [($"value", $"WGS84")] [] [];
    Elem $"xsd:enumeration" [($"value", $"ITRF")] [] [];
    Elem $"xsd:enumeration" [($"value", $"IAU")] [] [];
    Elem $"xsd:enumeration" [($"value", $"ICRF_AU")] [] [];
    Elem $"xsd:enumeration" [($"value", $"ICRF_KM")] [] []]];
  Elem $"xsd:simpleType" [($"name", $"TimeHelp")] [] [
   Elem $"xsd:restriction" [($"base", $"xsd:dateTime")] [] [
    Elem $"xsd:pattern" [($"value", $"\d{4}-\d{2}-\d{2}T\d{2}:\d{2}:\d{2}(\.\d{1,6})?Z")] [] []]];
  Elem $"xsd:simpleType" [($"name", $"TimePrecType")] [] [
   Elem $"xsd:restriction" [($"base", $"xsd:decimal")] [] [
    Elem $"xsd:enumeration" [($"value", $"100000")] [] [];
    Elem $"xsd:enumeration" [($"value", $"10000")] [] [];
    Elem $"xsd:enumeration" [($"value", $"1000")] [] [];
    Elem $"xsd:enumeration" [($"value", $"100")] [] [];
    Elem $"xsd:enumeration" [($"value", $"10")] [] [];
    Elem $"xsd:enumeration" [($"value", $"1")] [] [];
    Elem $"xsd:enumeration" [($"value", $"41667")] [] [];
    Elem $"xsd:enumeration" [($"value", $"4167")] [] [];
    Elem $"xsd:enumeration" [($"value", $"694")] [] [];
    Elem $"xsd:enumeration" [($"value", $"69")] [] []]];
  Elem $"xsd:simpleType" [($"name", $"TimeType")] [] [
   Elem $"xsd:union" [($"memberTypes", $"TimeHelp LeapSecondsHelp")] [] []];
  Elem $"xsd:simpleType" [($"name", $"TrkIDType")] [] [
   Elem $"xsd:restriction" [($"base", $"StringType")] [] [
    Elem $"xsd:pattern" [($"value", $"[-A-Za-z0-9_]*")] [] [];
    Elem $"xsd:maxLength" [($"value", $"12")] [] []]];
  Elem $"xsd:simpleType" [($"name", $"BaseTrkSubType")] [] [
   Elem $"xsd:restriction" [($"base", $"StringType")] [] [
    Elem $"xsd:pattern" [($"value", $"[-A-Za-z0-9_]*")] [] [];
    Elem $"xsd:maxLength" [($"value", $"8")] [] []]];
  Elem $"xsd:simpleType" [($"name", $"OldTrkSubType")] [] [
   Elem $"xsd:restriction" [($"base", $"StringType")] [] [
    Elem $"xsd:pattern" [($"value", $"[- ?+@.()/\\A-Za-z0-9_]*")] [] [];
    Elem $"xsd:maxLength" [($"value", $"8")] [] []]];
  Elem $"xsd:simpleType" [($"name", $"TrkSubType")] [] [
   Elem $"xsd:union" [($"memberTypes", $"BaseTrkSubType")] [] []];
  Elem $"xsd:simpleType" [($"name", $"VersionType")] [] [
   Elem $"xsd:restriction" [($"base", $"xsd:string")] [] [
    Elem $"xsd:enumeration" [($"value", $"2022")] [] []]];
  Elem $"xsd:complexType" [($"name", $"NamesType")] [] [
   Elem $"xsd:sequence" [] [] [
    Elem $"xsd:element" [($"name", $"name"); ($"type", $"StringTypeW100"); ($"maxOccurs", $"unbounded")] [] []]];
  Elem $"xsd:complexType" [($"name", $"ObservatoryType")] [] [
   Elem $"xsd:all" [] [] [
    Elem $"xsd:element" [($"name", $"mpcCode"); ($"type", $"StationType")] [] [];
    Elem $"xsd:element" [($"name", $"name"); ($"type", $"StringTypeW100"); ($"minOccurs", $"0")] [] []]];
  Elem $"xsd:complexType" [($"name", $"SubmitterType")] [] [
   Elem $"xsd:all" [] [] [
    Elem $"xsd:element" [($"name", $"name"); ($"type", $"StringTypeW100")] [] [];
    Elem $"xsd:element" [($"name", $"institution"); ($"type", $"StringTypeW100"); ($"minOccurs", $"0")] [] []]];
  Elem $"xsd:complexType" [($"name", $"TelescopeType")] [] [
   Elem $"xsd:all" [] [] [
    Elem $"xsd:element" [($"name", $"name"); ($"type", $"StringTypeW100"); ($"minOccurs", $"0")] [] [];
    Elem $"xsd:element" [($"name", $"design"); ($"type", $"StringTypeW25")] [] [];
    Elem $"xsd:element" [($"name", $"aperture"); ($"type", $"PosDecimalTypeW6")] [] [];
    Elem $"xsd:element" [($"name", $"detector"); ($"type", $"StringTypeW25")] [] [];
    Elem $"xsd:element" [($"name", $"fRatio"); ($"type", $"PosDecimalTypeW6"); ($"minOccurs", $"0")] [] [];
    Elem $"xsd:element" [($"name", $"filter"); ($"type", $"StringTypeW25"); ($"minOccurs", $"0")] [] [];
    Elem $"xsd:element" [($"name", $"arraySize"); ($"type", $"StringTypeW25"); ($"minOccurs", $"0")] [] [];
    Elem $"xsd:element" [($"name", $"pixelScale"); ($"type", $"PosDecimalTypeW6"); ($"minOccurs", $"0")] [] []]];
  Elem $"xsd:complexType" [($"name", $"SoftwareType")] [] [
   Elem $"xsd:all" [] [] [
    Elem $"xsd:element" [($"name", $"astrometry"); ($"type", $"StringTypeW100"); ($"minOccurs", $"0")] [] [];
    Elem $"xsd:element" [($"name", $"fitOrder"); ($"type", $"StringTypeW25"); ($"minOccurs", $"0")] [] [];
    Elem $"xsd:element" [($"name", $"photometry"); ($"type", $"StringTypeW100"); ($"minOccurs", $"0")] [] [];
    Elem $"xsd:element" [($"name", $"objectDetection"); ($"type", $"StringTypeW100"); ($"minOccurs", $"0")] [] []]];
  Elem $"xsd:complexType" [($"name", $"CommentType")] [] [
   Elem $"xsd:sequence" [] [] [
    Elem $"xsd:element" [($"name", $"line"); ($"type", $"StringTypeW100"); ($"maxOccurs", $"unbounded")] [] []]];
  Elem $"xsd:group" [($"name", $"MPCID")] [] [
   Elem $"xsd:choice" [] [] [
    Elem $"xsd:sequence" [] [] [
     Elem $"xsd:element" [($"ref", $"permID")] [] [];
     Elem $"xsd:element" [($"ref", $"provID"); ($"minOccurs", $"0")] [] []];
    Elem $"xsd:sequence" [] [] [
     Elem $"xsd:element" [($"ref", $"provID")] [] []];
    Elem $"xsd:sequence" [] [] [
     Elem $"xsd:element" [($"ref", $"artSat")] [] []]]];
  Elem $"xsd:group" [($"name", $"OpticalID")] [] [
   Elem $"xsd:sequence" [] [] [
    Elem $"xsd:choice" [] [] [
     Elem $"xsd:sequence" [] [] [
      Elem $"xsd:group" [($"ref", $"MPCID")] [] [];
      Elem $"xsd:element" [($"ref", $"trkSub"); ($"minOccurs", $"0")] [] []];
     Elem $"xsd:sequence" [] [] [
      Elem $"xsd:element" [($"ref", $"trkSub")] [] []]];
    Elem $"xsd:element" [($"ref", $"obsSubID"); ($"minOccurs", $"0")] [] []]];
  Elem $"xsd:group" [($"name", $"RadarID")] [] [
   Elem $"xsd:sequence" [] [] [
    Elem $"xsd:group" [($"ref", $"MPCID")] [] [];
    Elem $"xsd:element" [($"ref", $"trkSub"); ($"minOccurs", $"0")] [] []]];
  Elem $"xsd:group" [($"name", $"RadarValue")] [] [
   Elem $"xsd:choice" [] [] [
    Elem $"xsd:sequence" [] [] [
     Elem $"xsd:element" [($"ref", $"doppler")] [] [];
     Elem $"xsd:element" [($"ref", $"rmsDoppler")] [] []];
    Elem $"xsd:sequence" [] [] [
     Elem $"xsd:element" [($"ref", $"delay")] [] [];
     Elem $"xsd:element" [($"ref", $"rmsDelay")] [] []]]];
  Elem $"xsd:group" [($"name", $"Precision")] [] [
   Elem $"xsd:sequence" [] [] [
    Elem $"xsd:element" [($"ref", $"precTime")] [] [];
    Elem $"xsd:element" [($"ref", $"precRA")] [] [];
    Elem $"xsd:element" [($"ref", $"precDec")] [] []]];
  Elem $"xsd:group" [($"name", $"Location")] [] [
   Elem $"xsd:sequence" [] [] [
    Elem $"xsd:element" [($"ref", $"sys")] [] [];
    Elem $"xsd:element" [($"ref", $"ctr")] [] [];
    Elem $"xsd:element" [($"ref", $"pos1")] [] [];
    Elem $"xsd:element" [($"ref", $"pos2")] [] [];
    Elem $"xsd:element" [($"ref", $"pos3")] [] [];
    Elem $"xsd:element" [($"ref", $"vel1"); ($"minOccurs", $"0")] [] [];
    Elem $"xsd:element" [($"ref", $"vel2"); ($"minOccurs", $"0")] [] [];
    Elem $"xsd:element" [($"ref", $"vel3"); ($"minOccurs", $"0")] [] [];
    Elem $"xsd:element" [($"ref", $"posCov11"); ($"minOccurs", $"0")] [] [];
    Elem $"xsd:element" [($"ref", $"posCov12"); ($"minOccurs", $"0")] [] [];
    Elem $"xsd:element" [($"ref", $"posCov13"); ($"minOccurs", $"0")] [] [];
    Elem $"xsd:element" [($"ref", $"posCov22"); ($"minOccurs", $"0")] [] [];
    Elem $"xsd:element" [($"ref", $"posCov23"); ($"minOccurs", $"0")] [] [];
    Elem $"xsd:element" [($"ref", $"posCov33"); ($"minOccurs", $"0")] [] []]];
  Elem $"xsd:group" [($"name", $"Photometry")] [] [
   Elem $"xsd:sequence" [] [] [
    Elem $"xsd:element" [($"ref", $"mag")] [] [];
    Elem $"xsd:element" [($"ref", $"rmsMag"); ($"minOccurs", $"0")] [] [];
    Elem $"xsd:element" [($"ref", $"band")] [] [];
    Elem $"xsd:element" [($"ref", $"fltr"); ($"minOccurs", $"0")] [] [];
    Elem $"xsd:element" [($"ref", $"photCat"); ($"minOccurs", $"0")] [] [];
    Elem $"xsd:element" [($"ref", $"photAp"); ($"minOccurs", $"0")] [] []]];
  Elem $"xsd:group" [($"name", $"OffsetVal")] [] [
   Elem $"xsd:choice" [] [] [
    Elem $"xsd:sequence" [] [] [
     Elem $"xsd:element" [($"ref", $"deltaRA")] [] [];
     Elem $"xsd:element" [($"ref", $"deltaDec")] [] [];
     Elem $"xsd:element" [($"ref", $"rmsRA"); ($"minOccurs", $"0")] [] [];
     Elem $"xsd:element" [($"ref", $"rmsDec"); ($"minOccurs", $"0")] [] [];
     Elem $"xsd:element" [($"ref", $"rmsCorr"); ($"minOccurs", $"0")] [] []];
    Elem $"xsd:sequence" [] [] [
     Elem $"xsd:element" [($"ref", $"dist")] [] [];
     Elem $"xsd:element" [($"ref", $"pa")] [] [];
     Elem $"xsd:element" [($"ref", $"rmsDist"); ($"minOccurs", $"0")] [] [];
     Elem $"xsd:element" [($"ref", $"rmsPA"); ($"minOccurs", $"0")] [] [];
     Elem $"xsd:element" [($"ref", $"rmsCorr"); ($"minOccurs", $"0")] [] []]]];
  Elem $"xsd:group" [($"name", $"OpticalRes")] [] [
   Elem $"xsd:sequence" [] [] [
    Elem $"xsd:element" [($"ref", $"resRA")] [] [];
    Elem $"xsd:element" [($"ref", $"resDec")] [] [];
    Elem $"xsd:element" [($"ref", $"selAst")] [] [];
    Elem $"xsd:element" [($"ref", $"sigRA")] [] [];
    Elem $"xsd:element" [($"ref", $"sigDec")] [] [];
    Elem $"xsd:element" [($"ref", $"sigCorr"); ($"minOccurs", $"0")] [] [];
    Elem $"xsd:element" [($"ref", $"sigTime"); ($"minOccurs", $"0")] [] [];
    Elem $"xsd:element" [($"ref", $"biasRA"); ($"minOccurs", $"0")] [] [];
    Elem $"xsd:element" [($"ref", $"biasDec"); ($"minOccurs", $"0")] [] [];
    Elem $"xsd:element" [($"ref", $"biasTime"); ($"minOccurs", $"0")] [] []]];
  Elem $"xsd:group" [($"name", $"OpticalResMag")] [] [
   Elem $"xsd:sequence" [] [] [
    Elem $"xsd:element" [($"ref", $"photProd"); ($"minOccurs", $"0")] [] [];
    Elem $"xsd:element" [($"ref", $"resMag")] [] [];
    Elem $"xsd:element" [($"ref", $"selPhot")] [] [];
    Elem $"xsd:element" [($"ref", $"sigMag")] [] [];
    Elem $"xsd:element" [($"ref", $"biasMag"); ($"minOccurs", $"0")] [] [];
    Elem $"xsd:element" [($"ref", $"photMod"); ($"minOccurs", $"0")] [] []]];
  Elem $"xsd:group" [($"name", $"OpticalResiduals")] [] [
   Elem $"xsd:sequence" [] [] [
    Elem $"xsd:element" [($"ref", $"orbProd")] [] [];
    Elem $"xsd:element" [($"ref", $"orbID")] [] [];
    Elem $"xsd:choice" [] [] [
     Elem $"xsd:sequence" [] [] [
      Elem $"xsd:group" [($"ref", $"OpticalRes")] [] [];
      Elem $"xsd:group" [($"ref", $"OpticalResMag"); ($"minOccurs", $"0")] [] []];
     Elem $"xsd:sequence" [] [] [
      Elem $"xsd:group" [($"ref", $"OpticalResMag")] [] []]]]];
  Elem $"xsd:group" [($"name", $"RadarResiduals")] [] [
   Elem $"xsd:sequence" [] [] [
    Elem $"xsd:element" [($"ref", $"orbProd")] [] [];
    Elem $"xsd:element" [($"ref", $"orbID")] [] [];
    Elem $"xsd:choice" [] [] [
     Elem $"xsd:sequence" [] [] [
      Elem $"xsd:element" [($"ref", $"resDelay")] [] [];
      Elem $"xsd:element" [($"ref", $"selDelay")] [] [];
      Elem $"xsd:element" [($"ref", $"sigDelay")] [] []];
     Elem $"xsd:sequence" [] [] [
      Elem $"xsd:element" [($"ref", $"resDoppler")] [] [];
      Elem $"xsd:element" [($"ref", $"selDoppler")] [] [];
      Elem $"xsd:element" [($"ref", $"sigDoppler")] [] []]]]];
  Elem $"xsd:complexType" [($"name", $"LocalUseType")] [] [
   Elem $"xsd:sequence" [] [] [
    Elem $"xsd:any" [($"minOccurs", $"0"); ($"maxOccurs", $"unbounded"); ($"processContents", $"lax")] [] []]];
  Elem $"xsd:complexType" [($"name", $"OpticalType")] [] [
   Elem $"xsd:sequence" [] [] [
    Elem $"xsd:group" [($"ref", $"OpticalID")] [] [];
    Elem $"xsd:element" [($"ref", $"mode")] [] [];
    Elem $"xsd:element" [($"ref", $"stn")] [] [];
    Elem $"xsd:group" [($"ref", $"Location"); ($"minOccurs", $"0")] [] [];
    Elem $"xsd:element" [($"ref", $"obsTime")] [] [];
    Elem $"xsd:element" [($"ref", $"rmsTime"); ($"minOccurs", $"0")] [] [];
    Elem $"xsd:element" [($"ref", $"ra")] [] [];
    Elem $"xsd:element" [($"ref", $"dec")] [] [];
    Elem $"xsd:element" [($"ref", $"rmsRA"); ($"minOccurs", $"0")] [] [];
    Elem $"xsd:element" [($"ref", $"rmsDec"); ($"minOccurs", $"0")] [] [];
    Elem $"xsd:element" [($"ref", $"rmsCorr"); ($"minOccurs", $"0")] [] [];
    Elem $"xsd:element" [($"ref", $"astCat")] [] [];
    Elem $"xsd:group" [($"ref", $"Photometry"); ($"minOccurs", $"0")] [] [];
    Elem $"xsd:element" [($"ref", $"logSNR"); ($"minOccurs", $"0")] [] [];
    Elem $"xsd:element" [($"ref", $"seeing"); ($"minOccurs", $"0")] [] [];
    Elem $"xsd:element" [($"ref", $"exp"); ($"minOccurs", $"0")] [] [];
    Elem $"xsd:element" [($"ref", $"rmsFit"); ($"minOccurs", $"0")] [] [];
    Elem $"xsd:element" [($"ref", $"nStars"); ($"minOccurs", $"0")] [] [];
    Elem $"xsd:element" [($"ref", $"disc"); ($"minOccurs", $"0")] [] [];
    Elem $"xsd:element" [($"ref", $"uncTime"); ($"minOccurs", $"0")] [] [];
    Elem $"xsd:element" [($"ref", $"notes"); ($"minOccurs", $"0")] [] [];
    Elem $"xsd:element" [($"ref", $"remarks"); ($"minOccurs", $"0")] [] []]];
  Elem $"xsd:complexType" [($"name", $"OffsetType")] [] [
   Elem $"xsd:sequence" [] [] [
    Elem $"xsd:group" [($"ref", $"OpticalID")] [] [];
    Elem $"xsd:element" [($"ref", $"mode")] [] [];
    Elem $"xsd:element" [($"ref", $"stn")] [] [];
    Elem $"xsd:group" [($"ref", $"Location"); ($"minOccurs", $"0")] [] [];
    Elem $"xsd:element" [($"ref", $"obsTime")] [] [];
    Elem $"xsd:element" [($"ref", $"rmsTime"); ($"minOccurs", $"0")] [] [];
    Elem $"xsd:element" [($"ref", $"obsCenter")] [] [];
    Elem $"xsd:group" [($"ref", $"OffsetVal")] [] [];
    Elem $"xsd:group" [($"ref", $"Photometry"); ($"minOccurs", $"0")] [] [];
    Elem $"xsd:element" [($"ref", $"logSNR"); ($"minOccurs", $"0")] [] [];
    Elem $"xsd:element" [($"ref", $"seeing"); ($"minOccurs", $"0")] [] [];
    Elem $"xsd:element" [($"ref", $"exp"); ($"minOccurs", $"0")] [] [];
    Elem $"xsd:element" [($"ref", $"rmsFit"); ($"minOccurs", $"0")] [] [];
    Elem $"xsd:element" [($"ref", $"nStars"); ($"minOccurs", $"0")] [] [];
    Elem $"xsd:element" [($"ref", $"disc"); ($"minOccurs", $"0")] [] [];
    Elem $"xsd:element" [($"ref", $"uncTime"); ($"minOccurs", $"0")] [] [];
    Elem $"xsd:element" [($"ref", $"notes"); ($"minOccurs", $"0")] [] [];
    Elem $"xsd:element" [($"ref", $"remarks"); ($"minOccurs", $"0")] [] []]];
  Elem $"xsd:complexType" [($"name", $"OccultationType")] [] [
   Elem $"xsd:sequence" [] [] [
    Elem $"xsd:group" [($"ref", $"OpticalID")] [] [];
    Elem $"xsd:element" [($"ref", $"mode")] [] [];
    Elem $"xsd:element" [($"ref", $"stn")] [] [];
    Elem $"xsd:group" [($"ref", $"Location"); ($"minOccurs", $"0")] [] [];
    Elem $"xsd:element" [($"ref", $"obsTime")] [] [];
    Elem $"xsd:element" [($"ref", $"rmsTime"); ($"minOccurs", $"0")] [] [];
    Elem $"xsd:element" [($"ref", $"raStar")] [] [];
    Elem $"xsd:element" [($"ref", $"decStar")] [] [];
    Elem $"xsd:group" [($"ref", $"OffsetVal")] [] [];
    Elem $"xsd:element" [($"ref", $"astCat")] [] [];
    Elem $"xsd:group" [($"ref", $"Photometry"); ($"minOccurs", $"0")] [] [];
    Elem $"xsd:element" [($"ref", $"logSNR"); ($"minOccurs", $"0")] [] [];
    Elem $"xsd:element" [($"ref", $"shapeOcc"); ($"minOccurs", $"0")] [] [];
    Elem $"xsd:element" [($"ref", $"seeing"); ($"minOccurs", $"0")] [] [];
    Elem $"xsd:element" [($"ref", $"disc"); ($"minOccurs", $"0")] [] [];
    Elem $"xsd:element" [($"ref", $"uncTime"); ($"minOccurs", $"0")] [] [];
    Elem $"xsd:element" [($"ref", $"notes"); ($"minOccurs", $"0")] [] [];
    Elem $"xsd:element" [($"ref", $"remarks"); ($"minOccurs", $"0")] [] []]];
  Elem $"xsd:complexType" [($"name", $"RadarType")] [] [
   Elem $"xsd:sequence" [] [] [
    Elem $"xsd:group" [($"ref", $"RadarID")] [] [];
    Elem $"xsd:element" [($"ref", $"trx")] [] [];
    Elem $"xsd:element" [($"ref", $"rcv")] [] [];
    Elem $"xsd:element" [($"ref", $"obsTime")] [] [];
    Elem $"xsd:group" [($"ref", $"RadarValue")] [] [];
    Elem $"xsd:element" [($"ref", $"logSNR"); ($"minOccurs", $"0")] [] [];
    Elem $"xsd:element" [($"ref", $"com"); ($"minOccurs", $"0")] [] [];
    Elem $"xsd:element" [($"ref", $"frq")] [] [];
    Elem $"xsd:element" [($"ref", $"remarks"); ($"minOccurs", $"0")] [] []]];
  Elem $"xsd:complexType" [($"name", $"ObsContextType")] [] [
   Elem $"xsd:all" [] [] [
    Elem $"xsd:element" [($"ref", $"observatory")] [] [];
    Elem $"xsd:element" [($"ref", $"submitter")] [] [];
    Elem $"xsd:element" [($"ref", $"observers"); ($"minOccurs", $"0")] [] [];
    Elem $"xsd:element" [($"ref", $"measurers")] [] [];
    Elem $"xsd:element" [($"ref", $"telescope")] [] [];
    Elem $"xsd:element" [($"ref", $"software"); ($"minOccurs", $"0")] [] [];
    Elem $"xsd:element" [($"ref", $"coinvestigators"); ($"minOccurs", $"0")] [] [];
    Elem $"xsd:element" [($"ref", $"collaborators"); ($"minOccurs", $"0")] [] [];
    Elem $"xsd:element" [($"ref", $"fundingSource"); ($"minOccurs", $"0")] [] [];
    Elem $"xsd:element" [($"ref", $"comment"); ($"minOccurs", $"0")] [] []]];
  Elem $"xsd:complexType" [($"name", $"ObsDataType")] [] [
   Elem $"xsd:choice" [] [] [
    Elem $"xsd:element" [($"ref", $"optical"); ($"maxOccurs", $"unbounded")] [] [];
    Elem $"xsd:element" [($"ref", $"offset"); ($"maxOccurs", $"unbounded")] [] [];
    Elem $"xsd:element" [($"ref", $"occultation"); ($"maxOccurs", $"unbounded")] [] [];
    Elem $"xsd:element" [($"ref", $"radar"); ($"maxOccurs", $"unbounded")] [] []]];
  Elem $"xsd:complexType" [($"name", $"ObsBlockType")] [] [
   Elem $"xsd:sequence" [] [] [
    Elem $"xsd:element" [($"ref", $"obsContext")] [] [];
    Elem $"xsd:element" [($"ref", $"obsData")] [] []]];
  Elem $"xsd:complexType" [($"name", $"OpticalResType")] [] [
   Elem $"xsd:sequence" [] [] [
    Elem $"xsd:group" [($"ref", $"OpticalID")] [] [];
    Elem $"xsd:element" [($"ref", $"obsTime")] [] [];
    Elem $"xsd:group" [($"ref", $"OpticalResiduals")] [] []]];
  Elem $"xsd:complexType" [($"name", $"RadarResType")] [] [
   Elem $"xsd:sequence" [] [] [
    Elem $"xsd:group" [($"ref", $"RadarID")] [] [];
    Elem $"xsd:element" [($"ref", $"obsTime")] [] [];
    Elem $"xsd:group" [($"ref", $"RadarResiduals")] [] []]];
  Elem $"xsd:complexType" [($"name", $"ADESType")] [] [
   Elem $"xsd:choice" [($"maxOccurs", $"unbounded")] [] [
    Elem $"xsd:element" [($"ref", $"obsBlock")] [] []];
   Elem $"xsd:attribute" [($"name", $"version"); ($"type", $"VersionType"); ($"use", $"required")] [] []];
  Elem $"xsd:element" [($"name", $"permID"); ($"type", $"PermIDType")] [] [];
  Elem $"xsd:element" [($"name", $"provID"); ($"type", $"ProvIDType")] [] [];
  Elem $"xsd:element" [($"name", $"artSat"); ($"type", $"StringTypeW25")] [] [];
  Elem $"xsd:element" [($"name", $"trkSub"); ($"type", $"TrkSubType")] [] [];
  Elem $"xsd:element" [($"name", $"obsID"); ($"type", $"ObsIDType")] [] [];
  Elem $"xsd:element" [($"name", $"obsSubID"); ($"type", $"StringTypeW25")] [] [];
  Elem $"xsd:element" [($"name", $"trkID"); ($"type", $"TrkIDType")] [] [];
  Elem $"xsd:element" [($"name", $"trkMPC"); ($"type", $"TrkIDType")] [] [];
  Elem $"xsd:element" [($"name", $"mode"); ($"type", $"ModeType")] [] [];
  Elem $"xsd:element" [($"name", $"stn"); ($"type", $"StationType")] [] [];
  Elem $"xsd:element" [($"name", $"trx"); ($"type", $"StationType")] [] [];
  Elem $"xsd:element" [($"name", $"rcv"); ($"type", $"StationType")] [] [];
  Elem $"xsd:element" [($"name", $"sys"); ($"type", $"SysType")] [] [];
  Elem $"xsd:element" [($"name", $"ctr"); ($"type", $"CtrType")] [] [];
  Elem $"xsd:element" [($"name", $"pos1"); ($"type", $"DecimalTypeW14")] [] [];
  Elem $"xsd:element" [($"name", $"pos2"); ($"type", $"DecimalTypeW14")] [] [];
  Elem $"xsd:element" [($"name", $"pos3"); ($"type", $"DecimalTypeW14")] [] [];
  Elem $"xsd:element" [($"name", $"vel1"); ($"type", $"DecimalTypeW14")] [] [];
  Elem $"xsd:element" [($"name", $"vel2"); ($"type", $"DecimalTypeW14")] [] [];
  Elem $"xsd:element" [($"name", $"vel3"); ($"type", $"DecimalTypeW14")] [] [];
  Elem $"xsd:element" [($"name", $"posCov11"); ($"type", $"DoubleTypeW21")] [] [];
  Elem $"xsd:element" [($"name", $"posCov12"); ($"type", $"DoubleTypeW21")] [] [];
  Elem $"xsd:element" [($"name", $"posCov13"); ($"type", $"DoubleTypeW21")] [] [];
  Elem $"xsd:element" [($"name", $"posCov22"); ($"type", $"DoubleTypeW21")] [] [];
  Elem $"xsd:element" [($"name", $"posCov23"); ($"type", $"DoubleTypeW21")] [] [];
  Elem $"xsd:element" [($"name", $"posCov33"); ($"type", $"DoubleTypeW21")] [] [];
  Elem $"xsd:element" [($"name", $"prog"); ($"type", $"ProgType")] [] [];
  Elem $"xsd:element" [($"name", $"obsTime"); ($"type", $"TimeType")] [] [];
  Elem $"xsd:element" [($"name", $"rmsTime"); ($"type", $"PosDecimalTypeW8")] [] [];
  Elem $"xsd:element" [($"name", $"ra"); ($"type", $"RAType")] [] [];
  Elem $"xsd:element" [($"name", $"dec"); ($"type", $"DeclinationType")] [] [];
  Elem $"xsd:element" [($"name", $"raStar"); ($"type", $"RAType")] [] [];
  Elem $"xsd:element" [($"name", $"decStar"); ($"type", $"DeclinationType")] [] [];
  Elem $"xsd:element" [($"name", $"obsCenter"); ($"type", $"ObsCenterType")] [] [];
  Elem $"xsd:element" [($"name", $"deltaRA"); ($"type", $"DecimalTypeW10")] [] [];
  Elem $"xsd:element" [($"name", $"deltaDec"); ($"type", $"DecimalTypeW10")] [] [];
  Elem $"xsd:element" [($"name", $"dist"); ($"type", $"PosDecimalTypeW10")] [] [];
  Elem $"xsd:element" [($"name", $"pa"); ($"type", $"RAType")] [] [];
  Elem $"xsd:element" [($"name", $"rmsRA"); ($"type", $"PosDecimalTypeW7")] [] [];
  Elem $"xsd:element" [($"name", $"rmsDec"); ($"type", $"PosDecimalTypeW7")] [] [];
  Elem $"xsd:element" [($"name", $"rmsDist"); ($"type", $"PosDecimalTypeW6")] [] [];
  Elem $"xsd:element" [($"name", $"rmsPA"); ($"type", $"PosDecimalTypeW6")] [] [];
  Elem $"xsd:element" [($"name", $"rmsCorr"); ($"type", $"CorrDecimalType")] [] [];
  Elem $"xsd:element" [($"name", $"delay"); ($"type", $"PosDecimalTypeW14")] [] [];
  Elem $"xsd:element" [($"name", $"rmsDelay"); ($"type", $"PosDecimalTypeW6")] [] [];
  Elem $"xsd:element" [($"name", $"doppler"); ($"type", $"DecimalTypeW14")] [] [];
  Elem $"xsd:element" [($"name", $"rmsDoppler"); ($"type", $"PosDecimalTypeW6")] [] [];
  Elem $"xsd:element" [($"name", $"astCat"); ($"type", $"CatType")] [] [];
  Elem $"xsd:element" [($"name", $"mag"); ($"type", $"MagType")] [] [];
  Elem $"xsd:element" [($"name", $"rmsMag"); ($"type", $"PosDecimalTypeW6")] [] [];
  Elem $"xsd:element" [($"name", $"band"); ($"type", $"BandType")] [] [];
  Elem $"xsd:element" [($"name", $"fltr"); ($"type", $"BandType")] [] [];
  Elem $"xsd:element" [($"name", $"photCat"); ($"type", $"CatType")] [] [];
  Elem $"xsd:element" [($"name", $"photAp"); ($"type", $"PosDecimalTypeW6")] [] [];
  Elem $"xsd:element" [($"name", $"nucMag"); ($"type", $"LogicalType")] [] [];
  Elem $"xsd:element" [($"name", $"logSNR"); ($"type", $"DecimalTypeW6")] [] [];
  Elem $"xsd:element" [($"name", $"shapeOcc"); ($"type", $"LogicalType")] [] [];
  Elem $"xsd:element" [($"name", $"seeing"); ($"type", $"PosDecimalTypeW6")] [] [];
  Elem $"xsd:element" [($"name", $"exp"); ($"type", $"PosDecimalTypeW6")] [] [];
  Elem $"xsd:element" [($"name", $"rmsFit"); ($"type", $"PosDecimalTypeW6")] [] [];
  Elem $"xsd:element" [($"name", $"nStars"); ($"type", $"PosIntegerTypeW6")] [] [];
  Elem $"xsd:element" [($"name", $"com"); ($"type", $"LogicalType")] [] [];
  Elem $"xsd:element" [($"name", $"frq"); ($"type", $"FrequencyType")] [] [];
  Elem $"xsd:element" [($"name", $"ref"); ($"type", $"RefType")] [] [];
  Elem $"xsd:element" [($"name", $"disc"); ($"type", $"DiscType")] [] [];
  Elem $"xsd:element" [($"name", $"subFrm"); ($"type", $"SubFrmType")] [] [];
  Elem $"xsd:element" [($"name", $"subFmt"); ($"type", $"SubFmtType")] [] [];
  Elem $"xsd:element" [($"name", $"precTime"); ($"type", $"TimePrecType")] [] [];
  Elem $"xsd:element" [($"name", $"precRA"); ($"type", $"RaDecPrecType")] [] [];
  Elem $"xsd:element" [($"name", $"precDec"); ($"type", $"RaDecPrecType")] [] [];
  Elem $"xsd:element" [($"name", $"uncTime"); ($"type", $"PosDecimalTypeW8")] [] [];
  Elem $"xsd:element" [($"name", $"notes"); ($"type", $"NotesType")] [] [];
  Elem $"xsd:element" [($"name", $"remarks"); ($"type", $"RemarkType")] [] [];
  Elem $"xsd:element" [($"name", $"deprecated"); ($"type", $"DeprecatedType")] [] [];
  Elem $"xsd:element" [($"name", $"localUse"); ($"type", $"LocalUseType")] [] [];
  Elem $"xsd:element" [($"name", $"orbProd"); ($"type", $"StringTypeW100")] [] [];
  Elem $"xsd:element" [($"name", $"orbID"); ($"type", $"StringTypeW25")] [] [];
  Elem $"xsd:element" [($"name", $"resRA"); ($"type", $"DoubleTypeW7")] [] [];
  Elem $"xsd:element" [($"name", $"resDec"); ($"type", $"DoubleTypeW7")] [] [];
  Elem $"xsd:element" [($"name", $"selAst"); ($"type", $"SelResType")] [] [];
  Elem $"xsd:element" [($"name", $"sigRA"); ($"type", $"PosDecimalTypeW7")] [] [];
  Elem $"xsd:element" [($"name", $"sigDec"); ($"type", $"PosDecimalTypeW7")] [] [];
  Elem $"xsd:element" [($"name", $"sigCorr"); ($"type", $"CorrDecimalType")] [] [];
  Elem $"xsd:element" [($"name", $"sigTime"); ($"type", $"PosDecimalTypeW8")] [] [];
  Elem $"xsd:element" [($"name", $"biasRA"); ($"type", $"DecimalTypeW8")] [] [];
  Elem $"xsd:element" [($"name", $"biasDec"); ($"type", $"DecimalTypeW8")] [] [];
  Elem $"xsd:element" [($"name", $"biasTime"); ($"type", $"DecimalTypeW10")] [] [];
  Elem $"xsd:element" [($"name", $"photProd"); ($"type", $"StringTypeW100")] [] [];
  Elem $"xsd:element" [($"name", $"resMag"); ($"type", $"DoubleTypeW7")] [] [];
  Elem $"xsd:element" [($"name", $"selPhot"); ($"type", $"SelResType")] [] [];
  Elem $"xsd:element" [($"name", $"sigMag"); ($"type", $"PosDecimalTypeW6")] [] [];
  Elem $"xsd:element" [($"name", $"biasMag"); ($"type", $"DecimalTypeW6")] [] [];
  Elem $"xsd:element" [($"name", $"photMod"); ($"type", $"PhotModType")] [] [];
  Elem $"xsd:element" [($"name", $"resDelay"); ($"type", $"DoubleTypeW7")] [] [];
  Elem $"xsd:element" [($"name", $"selDelay"); ($"type", $"SelResType")] [] [];
  Elem $"xsd:element" [($"name", $"sigDelay"); ($"type", $"PosDecimalTypeW6")] [] [];
  Elem $"xsd:element" [($"name", $"resDoppler"); ($"type", $"DoubleTypeW7")] [] [];
  Elem $"xsd:element" [($"name", $"selDoppler"); ($"type", $"SelResType")] [] [];
  Elem $"xsd:element" [($"name", $"sigDoppler"); ($"type", $"PosDecimalTypeW6")] [] [];
  Elem $"xsd:element" [($"name", $"observatory"); ($"type", $"ObservatoryType")] [] [];
  Elem $"xsd:element" [($"name", $"submitter"); ($"type", $"SubmitterType")] [] [];
  Elem $"xsd:element" [($"name", $"observers"); ($"type", $"NamesType")] [] [];
  Elem $"xsd:element" [($"name", $"measurers"); ($"type", $"NamesType")] [] [];
  Elem $"xsd:element" [($"name", $"telescope"); ($"type", $"TelescopeType")] [] [];
  Elem $"xsd:element" [($"name", $"software"); ($"type", $"SoftwareType")] [] [];
  Elem $"xsd:element" [($"name", $"coinvestigators"); ($"type", $"NamesType")] [] [];
  Elem $"xsd:element" [($"name", $"collaborators"); ($"type", $"NamesType")] [] [];
  Elem $"xsd:element" [($"name", $"fundingSource"); ($"type", $"StringTypeW100")] [] [];
  Elem $"xsd:element" [($"name", $"comment"); ($"type", $"CommentType")] [] [];
  Elem $"xsd:element" [($"name", $"optical"); ($"type", $"OpticalType")] [] [];
  Elem $"xsd:element" [($"name", $"offset"); ($"type", $"OffsetType")] [] [];
  Elem $"xsd:element" [($"name", $"occultation"); ($"type", $"OccultationType")] [] [];
  Elem $"xsd:element" [($"name", $"radar"); ($"type", $"RadarType")] [] [];
  Elem $"xsd:element" [($"name", $"obsContext"); ($"type", $"ObsContextType")] [] [];
  Elem $"xsd:element" [($"name", $"obsData"); ($"type", $"ObsDataType")] [] [];
  Elem $"xsd:element" [($"name", $"obsBlock"); ($"type", $"ObsBlockType")] [] [];
  Elem $"xsd:element" [($"name", $"opticalResidual"); ($"type", $"OpticalResType")] [] [];
  Elem $"xsd:element" [($"name", $"radarResidual"); ($"type", $"RadarResType")] [] [];
  Elem $"xsd:element" [($"name", $"ades"); ($"type", $"ADESType")] [] []].

(** xsd/general.xsd *)
Definition general_xsd : xml :=
 Elem $"xsd:schema" [] [] [
  Elem $"xsd:simpleType" [($"name", $"AlphaNumericType")] [] [
   Elem $"xsd:restriction" [($"base", $"StringType")] [] [
    Elem $"xsd:pattern" [($"value", $"[A-Za-z0-9_]*")] [] []]];
  Elem $"xsd:simpleType" [($"name", $"MagType")] [] [
   Elem $"xsd:restriction" [($"base", $"DecimalTypeW8")] [] [
    Elem $"xsd:minInclusive" [($"value", $"-5.0")] [] [];
    Elem $"xsd:maxInclusive" [($"value", $"35.0")] [] []]];
  Elem $"xsd:simpleType" [($"name", $"BandType")] [] [
   Elem $"xsd:restriction" [($"base", $"AlphaNumericType")] [] [
    Elem $"xsd:maxLength" [($"value", $"3")] [] []]];
  Elem $"xsd:simpleType" [($"name", $"CatType")] [] [
   Elem $"xsd:restriction" [($"base", $"StringType")] [] [
    Elem $"xsd:pattern" [($"value", $"[.A-Za-z0-9_]*")] [] [];
    Elem $"xsd:maxLength" [($"value", $"8")] [] []]];
  Elem $"xsd:simpleType" [($"name", $"CorrDecimalType")] [] [
   Elem $"xsd:restriction" [($"base", $"xsd:decimal")] [] [
    Elem $"xsd:minExclusive" [($"value", $"-1.0")] [] [];
    Elem $"xsd:maxExclusive" [($"value", $"1.0")] [] [];
    Elem $"xsd:pattern" [($"value", $"[+\-]?(0|1)(\.[0123456789]{0,11})?")] [] []]];
  Elem $"xsd:simpleType" [($"name", $"DecimalType")] [] [
   Elem $"xsd:restriction" [($"base", $"xsd:decimal")] [] [
    Elem $"xsd:pattern" [($"value", $"[+\-]?(0|([1-9][0-9]*))(\.[0-9]*)?")] [] []]];
  Elem $"xsd:simpleType" [($"name", $"DecimalTypeW6")] [] [
   Elem $"xsd:restriction" [($"base", $"DecimalType")] [] [
    Elem $"xsd:pattern" [($"value", $"[+\-]?[0123456789\.]{1,5}")] [] []]];
  Elem $"xsd:simpleType" [($"name", $"DecimalTypeW8")] [] [
   Elem $"xsd:restriction" [($"base", $"DecimalType")] [] [
    Elem $"xsd:pattern" [($"value", $"[+\-]?[0123456789\.]{1,7}")] [] []]];
  Elem $"xsd:simpleType" [($"name", $"DecimalTypeW10")] [] [
   Elem $"xsd:restriction" [($"base", $"DecimalType")] [] [
    Elem $"xsd:pattern" [($"value", $"[+\-]?[0123456789\.]{1,9}")] [] []]];
  Elem $"xsd:simpleType" [($"name", $"DecimalTypeW14")] [] [
   Elem $"xsd:restriction" [($"base", $"DecimalType")] [] [
    Elem $"xsd:pattern" [($"value", $"[+\-]?[0123456789\.]{1,13}")] [] []]];
  Elem $"xsd:simpleType" [($"name", $"DeclinationType")] [] [
   Elem $"xsd:restriction" [($"base", $"xsd:decimal")] [] [
    Elem $"xsd:minInclusive" [($"value", $"-90.0")] [] [];
    Elem $"xsd:maxInclusive" [($"value", $"90.0")] [] [];
    Elem $"xsd:pattern" [($"value", $"[+\-]?([1-9]?[0-9])?(\.[0123456789]{0,9})?")] [] []]];
  Elem $"xsd:simpleType" [($"name", $"DeprecatedType")] [] [
   Elem $"xsd:restriction" [($"base", $"xsd:string")] [] [
    Elem $"xsd:enumeration" [($"value", $"X")] [] []]];
  Elem $"xsd:simpleType" [($"name", $"DiscType")] [] [
   Elem $"xsd:restriction" [($"base", $"xsd:string")] [] [
    Elem $"xsd:enumeration" [($"value", $"*")] [] [];
    Elem $"xsd:enumeration" [($"value", $"+")] [] []]];
  Elem $"xsd:simpleType" [($"name", $"DoubleTypeW7")] [] [
   Elem $"xsd:restriction" [($"base", $"xsd:double")] [] [
    Elem $"xsd:pattern" [($"value", $"[+\-]?[+\-Ee0123456789\.]{1,6}")] [] []]];
  Elem $"xsd:simpleType" [($"name", $"DoubleTypeW21")] [] [
   Elem $"xsd:restriction" [($"base", $"xsd:double")] [] [
    Elem $"xsd:pattern" [($"value", $"[+\-]?[+\-Ee0123456789\.]{1,20}")] [] []]];
  Elem $"xsd:simpleType" [($"name", $"SubFrmType")] [] [
   Elem $"xsd:restriction" [($"base", $"StringType")] [] [
    Elem $"xsd:pattern" [($"value", $"([BJ]\d{4}.0)|APP\.")] [] []]];
  Elem $"xsd:simpleType" [($"name", $"LeapSecondsHelp")] [] [
   Elem $"xsd:restriction" [($"base", $"xsd:string")] [] [
    Elem $"xsd:pattern" [($"value", $"19(72|81|82|83|85|92|93|94|97)-06-30T23:59:60(\.\d+)?Z")] [] [];
    Elem $"xsd:pattern" [($"value", $"19(72|73|74|75|76|77|78|79|87|89|90|95|98)-12-31T23:59:60(\.\d+)?Z")] [] [];
    Elem $"xsd:pattern" [($"value", $"20(12|15)-06-30T23:59:60(\.\d+)?Z")] [] [];
    Elem $"xsd:pattern" [($"value", $"20(05|08|16)-12-31T23:59:60(.\d+)?Z")] [] [];
    Elem $"xsd:pattern" [($"value", $"(2[1-9]\d{2}|20[2-9]\d|201[7-9])-12-31T23:59:60(\.\d+)?Z")] [] [];
    Elem $"xsd:pattern" [($"value", $"(2[1-9]\d{2}|20[2-9]\d|201[7-9])-06-30T23:59:60(\.\d+)?Z")] [] [];
    Elem $"xsd:pattern" [($"value", $"[3-9]\d{3}-06-30T23:59:60(\.\d+)?Z")] [] [];
    Elem $"xsd:pattern" [($"value", $"[3-9]\d{3}-12-31T23:59:60(\.\d+)?Z")] [] []]];
  Elem $"xsd:simpleType" [($"name", $"LogicalType")] [] [
   Elem $"xsd:restriction" [($"base", $"xsd:integer")] [] [
    Elem $"xsd:enumeration" [($"value", $"0")] [] [];
    Elem $"xsd:enumeration" [($"value", $"1")] [] []]];
  Elem $"xsd:simpleType" [($"name", $"ModeType")] [] [
   Elem $"xsd:restriction" [($"base", $"AlphaNumericType")] [] [
    Elem $"xsd:maxLength" [($"value", $"3")] [] []]];
  Elem $"xsd:simpleType" [($"name", $"ObsCenterType")] [] [
   Elem $"xsd:union" [($"memberTypes", $"PermIDType ProvIDType PlanetNameType")] [] []];
  Elem $"xsd:simpleType" [($"name", $"NotesType")] [] [
   Elem $"xsd:restriction" [($"base", $"AlphaNumericType")] [] [
    Elem $"xsd:maxLength" [($"value", $"6")] [] []]];
  Elem $"xsd:simpleType" [($"name", $"ObsIDType")] [] [
   Elem $"xsd:restriction" [($"base", $"AlphaNumericType")] [] [
    Elem $"xsd:maxLength" [($"value", $"25")] [] []]];
  Elem $"xsd:simpleType" [($"name", $"PermIDType")] [] [
   Elem $"xsd:restriction" [($"base", $"StringTypeW25")] [] [
    Elem $"xsd:pattern" [($"value", $"\d+([IPD](-[A-Z]{1,2})?)?|((Mars|Jupiter|Saturn|Uranus|Neptune) \d{1,3}|\(\d+\) \d{1,3})")] [] []]];
  Elem $"xsd:simpleType" [($"name", $"PhotModType")] [] [
   Elem $"xsd:restriction" [($"base", $"AlphaNumericType")] [] [
    Elem $"xsd:maxLength" [($"value", $"8")] [] []]];
  Elem $"xsd:simpleType" [($"name", $"PlanetNameType")] [] [
   Elem $"xsd:restriction" [($"base", $"StringTypeW25")] [] [
    Elem $"xsd:enumeration" [($"value", $"Mercury")] [] [];
    Elem $"xsd:enumeration" [($"value", $"Venus")] [] [];
    Elem $"xsd:enumeration" [($"value", $"Earth")] [] [];
    Elem $"xsd:enumeration" [($"value", $"Moon")] [] [];
    Elem $"xsd:enumeration" [($"value", $"Mars")] [] [];
    Elem $"xsd:enumeration" [($"value", $"Jupiter")] [] [];
    Elem $"xsd:enumeration" [($"value", $"Saturn")] [] [];
    Elem $"xsd:enumeration" [($"value", $"Uranus")] [] [];
    Elem $"xsd:enumeration" [($"value", $"Neptune")] [] []]];
  Elem $"xsd:simpleType" [($"name", $"PosDecimalType")] [] [
   Elem $"xsd:restriction" [($"base", $"xsd:decimal")] [] [
    Elem $"xsd:minExclusive" [($"value", $"0.0")] [] [];
    Elem $"xsd:maxExclusive" [($"value", $"100000.0")] [] [];
    Elem $"xsd:pattern" [($"value", $"(0|([1-9][0-9]*))(\.[0-9]*)?")] [] []]];
  Elem $"xsd:simpleType" [($"name", $"PosIntegerTypeW6")] [] [
   Elem $"xsd:restriction" [($"base", $"xsd:positiveInteger")] [] [
    Elem $"xsd:maxExclusive" [($"value", $"1000000")] [] []]];
  Elem $"xsd:simpleType" [($"name", $"CtrType")] [] [
   Elem $"xsd:restriction" [($"base", $"SPICEIDType")] [] [
    Elem $"xsd:enumeration" [($"value", $"399")] [] []]];
  Elem $"xsd:simpleType" [($"name", $"SPICEIDType")] [] [
   Elem $"xsd:restriction" [($"base", $"xsd:integer")] [] [
    Elem $"xsd:maxExclusive" [($"value", $"+1000000000")] [] [];
    Elem $"xsd:minExclusive" [($"value", $"-1000000000")] [] []]];
  Elem $"xsd:simpleType" [($"name", $"PosDecimalTypeW6")] [] [
   Elem $"xsd:restriction" [($"base", $"PosDecimalType")] [] [
    Elem $"xsd:pattern" [($"value", $"[0123456789\.]{1,6}")] [] []]];
  Elem $"xsd:simpleType" [($"name", $"PosDecimalTypeW7")] [] [
   Elem $"xsd:restriction" [($"base", $"PosDecimalType")] [] [
    Elem $"xsd:pattern" [($"value", $"[0123456789\.]{1,7}")] [] []]];
  Elem $"xsd:simpleType" [($"name", $"PosDecimalTypeW8")] [] [
   Elem $"xsd:restriction" [($"base", $"PosDecimalType")] [] [
    Elem $"xsd:pattern" [($"value", $"[0123456789\.]{1,8}")] [] []]];
  Elem $"xsd:simpleType" [($"name", $"PosDecimalTypeW10")] [] [
   Elem $"xsd:restriction" [($"base", $"PosDecimalType")] [] [
    Elem $"xsd:pattern" [($"value", $"[0123456789\.]{1,10}")] [] []]];
  Elem $"xsd:simpleType" [($"name", $"PosDecimalTypeW14")] [] [
   Elem $"xsd:restriction" [($"base", $"PosDecimalType")] [] [
    Elem $"xsd:pattern" [($"value", $"[0123456789\.]{1,14}")] [] []]];
  Elem $"xsd:simpleType" [($"name", $"FrequencyType")] [] [
   Elem $"xsd:restriction" [($"base", $"xsd:decimal")] [] [
    Elem $"xsd:minExclusive" [($"value", $"0.0")] [] [];
    Elem $"xsd:pattern" [($"value", $"[0123456789\.]{1,16}")] [] []]];
  Elem $"xsd:simpleType" [($"name", $"ProgType")] [] [
   Elem $"xsd:restriction" [($"base", $"AlphaNumericType")] [] [
    Elem $"xsd:maxLength" [($"value", $"2")] [] []]];
  Elem $"xsd:simpleType" [($"name", $"BaseProvIDType")] [] [
   Elem $"xsd:restriction" [($"base", $"StringTypeW25")] [] [
    Elem $"xsd:pattern" [($"value", $"\d{4} [A-HJ-Y][A-HJ-Z]\d*|\d{4} (P-L|T-[123])|[ADCPX]/\d{4} [A-Z]{1,2}\d*(-[A-Z])?|S/\d{4} ((M|J|S|U|N)|\((\d+|\d{4} [A-HJ-Y][A-HJ-Z]?\d+)\)) \d+")] [] []]];
  Elem $"xsd:simpleType" [($"name", $"OldProvIDType")] [] [
   Elem $"xsd:restriction" [($"base", $"StringTypeW25")] [] [
    Elem $"xsd:pattern" [($"value", $"A[89]\d{2} [A-HJ-Y][A-HJ-Z]")] [] []]];
  Elem $"xsd:simpleType" [($"name", $"ProvIDType")] [] [
   Elem $"xsd:union" [($"memberTypes", $"BaseProvIDType OldProvIDType")] [] []];
  Elem $"xsd:simpleType" [($"name", $"RaDecPrecType")] [] [
   Elem $"xsd:restriction" [($"base", $"xsd:decimal")] [] [
    Elem $"xsd:enumeration" [($"value", $"0.1")] [] [];
    Elem $"xsd:enumeration" [($"value", $"0.6")] [] [];
    Elem $"xsd:enumeration" [($"value", $"0.01")] [] [];
    Elem $"xsd:enumeration" [($"value", $"0.001")] [] [];
    Elem $"xsd:enumeration" [($"value", $"60")] [] [];
    Elem $"xsd:enumeration" [($"value", $"6")] [] [];
    Elem $"xsd:enumeration" [($"value", $"1")] [] []]];
  Elem $"xsd:simpleType" [($"name", $"RAType")] [] [
   Elem $"xsd:restriction" [($"base", $"xsd:decimal")] [] [
    Elem $"xsd:minInclusive" [($"value", $"0.0")] [] [];
    Elem $"xsd:maxExclusive" [($"value", $"360.0")] [] [];
    Elem $"xsd:pattern" [($"value", $"([1-3][0-9]{2}|[1-9]?[0-9])?(\.[0-9]{0,9})?")] [] []]];
  Elem $"xsd:simpleType" [($"name", $"RefType")] [] [
   Elem $"xsd:restriction" [($"base", $"StringType")] [] [
    Elem $"xsd:maxLength" [($"value", $"16")] [] []]];
  Elem $"xsd:simpleType" [($"name", $"RemarkType")] [] [
   Elem $"xsd:restriction" [($"base", $"StringType")] [] [
    Elem $"xsd:maxLength" [($"value", $"300")] [] []]];
  Elem $"xsd:simpleType" [($"name", $"SelResType")] [] [
   Elem $"xsd:restriction" [($"base", $"xsd:string")] [] [
    Elem $"xsd:enumeration" [($"value", $"A")] [] [];
    Elem $"xsd:enumeration" [($"value", $"a")] [] [];
    Elem $"xsd:enumeration" [($"value", $"D")] [] [];
    Elem $"xsd:enumeration" [($"value", $"d")] [] []]];
  Elem $"xsd:simpleType" [($"name", $"StationType")] [] [
   Elem $"xsd:restriction" [($"base", $"AlphaNumericType")] [] [
    Elem $"xsd:minLength" [($"value", $"3")] [] [];
    Elem $"xsd:maxLength" [($"value", $"4")] [] []]];
  Elem $"xsd:simpleType" [($"name", $"StringType")] [] [
   Elem $"xsd:restriction" [($"base", $"xsd:string")] [] [
    Elem $"xsd:pattern" [($"value", $"[^|]*[^|\s][^|]*")] [] []]];
  Elem $"xsd:simpleType" [($"name", $"StringTypeW25")] [] [
   Elem $"xsd:restriction" [($"base", $"StringType")] [] [
    Elem $"xsd:maxLength" [($"value", $"25")] [] []]];
  Elem $"xsd:simpleType" [($"name", $"StringTypeW100")] [] [
   Elem $"xsd:restriction" [($"base", $"StringType")] [] [
    Elem $"xsd:maxLength" [($"value", $"100")] [] []]];
  Elem $"xsd:simpleType" [($"name", $"SubFmtType")] [] [
   Elem $"xsd:restriction" [($"base", $"AlphaNumericType")] [] [
    Elem $"xsd:maxLength" [($"value", $"4")] [] []]];
  Elem $"xsd:simpleType" [($"name", $"SysType")] [] [
   Elem $"xsd:restriction" [($"base", $"xsd:string")] [] [
    Elem $"xsd:enumeration" [($"value", $"WGS84")] [] [];
    Elem $"xsd:enumeration" [($"value", $"ITRF")] [] [];
    Elem $"xsd:enumeration" [($"value", $"IAU")] [] [];
    Elem $"xsd:enumeration" [($"value", $"ICRF_AU")] [] [];
    Elem $"xsd:enumeration" [($"value", $"ICRF_KM")] [] []]];
  Elem $"xsd:simpleType" [($"name", $"TimeHelp")] [] [
   Elem $"xsd:restriction" [($"base", $"xsd:dateTime")] [] [
    Elem $"xsd:pattern" [($"value", $"\d{4}-\d{2}-\d{2}T\d{2}:\d{2}:\d{2}(\.\d{1,6})?Z")] [] []]];
  Elem $"xsd:simpleType" [($"name", $"TimePrecType")] [] [
   Elem $"xsd:restriction" [($"base", $"xsd:decimal")] [] [
    Elem $"xsd:enumeration" [($"value", $"100000")] [] [];
    Elem $"xsd:enumeration" [($"value", $"10000")] [] [];
    Elem $"xsd:enumeration" [($"value", $"1000")] [] [];
    Elem $"xsd:enumeration" [($"value", $"100")] [] [];
    Elem $"xsd:enumeration" [($"value", $"10")] [] [];
    Elem $"xsd:enumeration" [($"value", $"1")] [] [];
    Elem $"xsd:enumeration" [($"value", $"41667")] [] [];
    Elem $"xsd:enumeration" [($"value", $"4167")] [] [];
    Elem $"xsd:enumeration" [($"value", $"694")] [] [];
    Elem $"xsd:enumeration" [($"value", $"69")] [] []]];
  Elem $"xsd:simpleType" [($"name", $"TimeType")] [] [
   Elem $"xsd:union" [($"memberTypes", $"TimeHelp LeapSecondsHelp")] [] []];
  Elem $"xsd:simpleType" [($"name", $"TrkIDType")] [] [
   Elem $"xsd:restriction" [($"base", $"StringType")] [] [
    Elem $"xsd:pattern" [($"value", $"[-A-Za-z0-9_]*")] [] [];
    Elem $"xsd:maxLength" [($"value", $"12")] [] []]];
  Elem $"xsd:simpleType" [($"name", $"BaseTrkSubType")] [] [
   Elem $"xsd:restriction" [($"base", $"StringType")] [] [
    Elem $"xsd:pattern" [($"value", $"[-A-Za-z0-9_]*")] [] [];
    Elem $"xsd:maxLength" [($"value", $"8")] [] []]];
  Elem $"xsd:simpleType" [($"name", $"OldTrkSubType")] [] [
   Elem $"xsd:restriction" [($"base", $"StringType")] [] [
    Elem $"xsd:pattern" [($"value", $"[- ?+@.()/\\A-Za-z0-9_]*")] [] [];
    Elem $"xsd:maxLength" [($"value", $"8")] [] []]];
  Elem $"xsd:simpleType" [($"name", $"TrkSubType")] [] [
   Elem $"xsd:union" [($"memberTypes", $"BaseTrkSubType OldTrkSubType")] [] []];
  Elem $"xsd:simpleType" [($"name", $"VersionType")] [] [
   Elem $"xsd:restriction" [($"base", $"xsd:string")] [] [
    Elem $"xsd:enumeration" [($"value", $"2022")] [] []]];
  Elem $"xsd:complexType" [($"name", $"NamesType")] [] [
   Elem $"xsd:sequence" [] [] [
    Elem $"xsd:element" [($"name", $"name"); ($"type", $"StringTypeW100"); ($"maxOccurs", $"unbounded")] [] []]];
  Elem $"xsd:complexType" [($"name", $"ObservatoryType")] [] [
   Elem $"xsd:all" [] [] [
    Elem $"xsd:element" [($"name", $"mpcCode"); ($"type", $"StationType")] [] [];
    Elem $"xsd:element" [($"name", $"name"); ($"type", $"StringTypeW100"); ($"minOccurs", $"0")] [] []]];
  Elem $"xsd:complexType" [($"name", $"SubmitterType")] [] [
   Elem $"xsd:all" [] [] [
    Elem $"xsd:element" [($"name", $"name"); ($"type", $"StringTypeW100")] [] [];
    Elem $"xsd:element" [($"name", $"institution"); ($"type", $"StringTypeW100"); ($"minOccurs", $"0")] [] []]];
  Elem $"xsd:complexType" [($"name", $"TelescopeType")] [] [
   Elem $"xsd:all" [] [] [
    Elem $"xsd:element" [($"name", $"name"); ($"type", $"StringTypeW100"); ($"minOccurs", $"0")] [] [];
    Elem $"xsd:element" [($"name", $"design"); ($"type", $"StringTypeW25")] [] [];
    Elem $"xsd:element" [($"name", $"aperture"); ($"type", $"PosDecimalTypeW6")] [] [];
    Elem $"xsd:element" [($"name", $"detector"); ($"type", $"StringTypeW25")] [] [];
    Elem $"xsd:element" [($"name", $"fRatio"); ($"type", $"PosDecimalTypeW6"); ($"minOccurs", $"0")] [] [];
    Elem $"xsd:element" [($"name", $"filter"); ($"type", $"StringTypeW25"); ($"minOccurs", $"0")] [] [];
    Elem $"xsd:element" [($"name", $"arraySize"); ($"type", $"StringTypeW25"); ($"minOccurs", $"0")] [] [];
    Elem $"xsd:element" [($"name", $"pixelScale"); ($"type", $"PosDecimalTypeW6"); ($"minOccurs", $"0")] [] []]];
  Elem $"xsd:complexType" [($"name", $"SoftwareType")] [] [
   Elem $"xsd:all" [] [] [
    Elem $"xsd:element" [($"name", $"astrometry"); ($"type", $"StringTypeW100"); ($"minOccurs", $"0")] [] [];
    Elem $"xsd:element" [($"name", $"fitOrder"); ($"type", $"StringTypeW25"); ($"minOccurs", $"0")] [] [];
    Elem $"xsd:element" [($"name", $"photometry"); ($"type", $"StringTypeW100"); ($"minOccurs", $"0")] [] [];
    Elem $"xsd:element" [($"name", $"objectDetection"); ($"type", $"StringTypeW100"); ($"minOccurs", $"0")] [] []]];
  Elem $"xsd:complexType" [($"name", $"CommentType")] [] [
   Elem $"xsd:sequence" [] [] [
    Elem $"xsd:element" [($"name", $"line"); ($"type", $"StringTypeW100"); ($"maxOccurs", $"unbounded")] [] []]];
  Elem $"xsd:group" [($"name", $"MPCID")] [] [
   Elem $"xsd:choice" [] [] [
    Elem $"xsd:sequence" [] [] [
     Elem $"xsd:element" [($"ref", $"permID")] [] [];
     Elem $"xsd:element" [($"ref", $"provID"); ($"minOccurs", $"0")] [] []];
    Elem $"xsd:sequence" [] [] [
     Elem $"xsd:element" [($"ref", $"provID")] [] []];
    Elem $"xsd:sequence" [] [] [
     Elem $"xsd:element" [($"ref", $"artSat")] [] []]]];
  Elem $"xsd:group" [($"name", $"OpticalID")] [] [
   Elem $"xsd:sequence" [] [] [
    Elem $"xsd:choice" [] [] [
     Elem $"xsd:sequence" [] [] [
      Elem $"xsd:group" [($"ref", $"MPCID")] [] [];
      Elem $"xsd:element" [($"ref", $"trkSub"); ($"minOccurs", $"0")] [] []];
     Elem $"xsd:sequence" [] [] [
      Elem $"xsd:element" [($"ref", $"trkSub")] [] []]];
    Elem $"xsd:element" [($"ref", $"obsID"); ($"minOccurs", $"0")] [] [];
    Elem $"xsd:element" [($"ref", $"obsSubID"); ($"minOccurs", $"0")] [] [];
    Elem $"xsd:element" [($"ref", $"trkID"); ($"minOccurs", $"0")] [] [];
    Elem $"xsd:element" [($"ref", $"trkMPC"); ($"minOccurs", $"0")] [] []]];
  Elem $"xsd:group" [($"name", $"RadarID")] [] [
   Elem $"xsd:sequence" [] [] [
    Elem $"xsd:group" [($"ref", $"MPCID")] [] [];
    Elem $"xsd:element" [($"ref", $"trkSub"); ($"minOccurs", $"0")] [] [];
    Elem $"xsd:element" [($"ref", $"obsID"); ($"minOccurs", $"0")] [] []]];
  Elem $"xsd:group" [($"name", $"RadarValue")] [] [
   Elem $"xsd:choice" [] [] [
    Elem $"xsd:sequence" [] [] [
     Elem $"xsd:element" [($"ref", $"doppler")] [] [];
     Elem $"xsd:element" [($"ref", $"rmsDoppler")] [] []];
    Elem $"xsd:sequence" [] [] [
     Elem $"xsd:element" [($"ref", $"delay")] [] [];
     Elem $"xsd:element" [($"ref", $"rmsDelay")] [] []]]];
  Elem $"xsd:group" [($"name", $"Precision")] [] [
   Elem $"xsd:sequence" [] [] [
    Elem $"xsd:element" [($"ref", $"precTime")] [] [];
    Elem $"xsd:element" [($"ref", $"precRA")] [] [];
    Elem $"xsd:element" [($"ref", $"precDec")] [] []]];
  Elem $"xsd:group" [($"name", $"Location")] [] [
   Elem $"xsd:sequence" [] [] [
    Elem $"xsd:element" [($"ref", $"sys")] [] [];
    Elem $"xsd:element" [($"ref", $"ctr")] [] [];
    Elem $"xsd:element" [($"ref", $"pos1")] [] [];
    Elem $"xsd:element" [($"ref", $"pos2")] [] [];
    Elem $"xsd:element" [($"ref", $"pos3")] [] [];
    Elem $"xsd:element" [($"ref", $"vel1"); ($"minOccurs", $"0")] [] [];
    Elem $"xsd:element" [($"ref", $"vel2"); ($"minOccurs", $"0")] [] [];
    Elem $"xsd:element" [($"ref", $"vel3"); ($"minOccurs", $"0")] [] [];
    Elem $"xsd:element" [($"ref", $"posCov11"); ($"minOccurs", $"0")] [] [];
    Elem $"xsd:element" [($"ref", $"posCov12"); ($"minOccurs", $"0")] [] [];
    Elem $"xsd:element" [($"ref", $"posCov13"); ($"minOccurs", $"0")] [] [];
    Elem $"xsd:element" [($"ref", $"posCov22"); ($"minOccurs", $"0")] [] [];
    Elem $"xsd:element" [($"ref", $"posCov23"); ($"minOccurs", $"0")] [] [];
    Elem $"xsd:element" [($"ref", $"posCov33"); ($"minOccurs", $"0")] [] []]];
  Elem $"xsd:group" [($"name", $"Photometry")] [] [
   Elem $"xsd:sequence" [] [] [
    Elem $"xsd:element" [($"ref", $"mag")] [] [];
    Elem $"xsd:element" [($"ref", $"rmsMag"); ($"minOccurs", $"0")] [] [];
    Elem $"xsd:element" [($"ref", $"band")] [] [];
    Elem $"xsd:element" [($"ref", $"fltr"); ($"minOccurs", $"0")] [] [];
    Elem $"xsd:element" [($"ref", $"photCat"); ($"minOccurs", $"0")] [] [];
    Elem $"xsd:element" [($"ref", $"photAp"); ($"minOccurs", $"0")] [] [];
    Elem $"xsd:element" [($"ref", $"nucMag"); ($"minOccurs", $"0")] [] []]];
  Elem $"xsd:group" [($"name", $"OffsetVal")] [] [
   Elem $"xsd:choice" [] [] [
    Elem $"xsd:sequence" [] [] [
     Elem $"xsd:element" [($"ref", $"deltaRA")] [] [];
     Elem $"xsd:element" [($"ref", $"deltaDec")] [] [];
     Elem $"xsd:element" [($"ref", $"rmsRA"); ($"minOccurs", $"0")] [] [];
     Elem $"xsd:element" [($"ref", $"rmsDec"); ($"minOccurs", $"0")] [] [];
     Elem $"xsd:element" [($"ref", $"rmsCorr"); ($"minOccurs", $"0")] [] []];
    Elem $"xsd:sequence" [] [] [
     Elem $"xsd:element" [($"ref", $"dist")] [] [];
     Elem $"xsd:element" [($"ref", $"pa")] [] [];
     Elem $"xsd:element" [($"ref", $"rmsDist"); ($"minOccurs", $"0")] [] [];
     Elem $"xsd:element" [($"ref", $"rmsPA"); ($"minOccurs", $"0")] [] [];
     Elem $"xsd:element" [($"ref", $"rmsCorr"); ($"minOccurs", $"0")] [] []]]];
  Elem $"xsd:group" [($"name", $"OpticalRes")] [] [
   Elem $"xsd:sequence" [] [] [
    Elem $"xsd:element" [($"ref", $"resRA")] [] [];
    Elem $"xsd:element" [($"ref", $"resDec")] [] [];
    Elem $"xsd:element" [($"ref", $"selAst")] [] [];
    Elem $"xsd:element" [($"ref", $"sigRA")] [] [];
    Elem $"xsd:element" [($"ref", $"sigDec")] [] [];
    Elem $"xsd:element" [($"ref", $"sigCorr"); ($"minOccurs", $"0")] [] [];
    Elem $"xsd:element" [($"ref", $"sigTime"); ($"minOccurs", $"0")] [] [];
    Elem $"xsd:element" [($"ref", $"biasRA"); ($"minOccurs", $"0")] [] [];
    Elem $"xsd:element" [($"ref", $"biasDec"); ($"minOccurs", $"0")] [] [];
    Elem $"xsd:element" [($"ref", $"biasTime"); ($"minOccurs", $"0")] [] []]];
  Elem $"xsd:group" [($"name", $"OpticalResMag")] [] [
   Elem $"xsd:sequence" [] [] [
    Elem $"xsd:element" [($"ref", $"photProd"); ($"minOccurs", $"0")] [] [];
    Elem $"xsd:element" [($"ref", $"resMag")] [] [];
    Elem $"xsd:element" [($"ref", $"selPhot")] [] [];
    Elem $"xsd:element" [($"ref", $"sigMag")] [] [];
    Elem $"xsd:element" [($"ref", $"biasMag"); ($"minOccurs", $"0")] [] [];
    Elem $"xsd:element" [($"ref", $"photMod"); ($"minOccurs", $"0")] [] []]];
  Elem $"xsd:group" [($"name", $"OpticalResiduals")] [] [
   Elem $"xsd:sequence" [] [] [
    Elem $"xsd:element" [($"ref", $"orbProd")] [] [];
    Elem $"xsd:element" [($"ref", $"orbID")] [] [];
    Elem $"xsd:choice" [] [] [
     Elem $"xsd:sequence" [] [] [
      Elem $"xsd:group" [($"ref", $"OpticalRes")] [] [];
      Elem $"xsd:group" [($"ref", $"OpticalResMag"); ($"minOccurs", $"0")] [] []];
     Elem $"xsd:sequence" [] [] [
      Elem $"xsd:group" [($"ref", $"OpticalResMag")] [] []]]]];
  Elem $"xsd:group" [($"name", $"RadarResiduals")] [] [
   Elem $"xsd:sequence" [] [] [
    Elem $"xsd:element" [($"ref", $"orbProd")] [] [];
    Elem $"xsd:element" [($"ref", $"orbID")] [] [];
    Elem $"xsd:choice" [] [] [
     Elem $"xsd:sequence" [] [] [
      Elem $"xsd:element" [($"ref", $"resDelay")] [] [];
      Elem $"xsd:element" [($"ref", $"selDelay")] [] [];
      Elem $"xsd:element" [($"ref", $"sigDelay")] [] []];
     Elem $"xsd:sequence" [] [] [
      Elem $"xsd:element" [($"ref", $"resDoppler")] [] [];
      Elem $"xsd:element" [($"ref", $"selDoppler")] [] [];
      Elem $"xsd:element" [($"ref", $"sigDoppler")] [] []]]]];
  Elem $"xsd:complexType" [($"name", $"LocalUseType")] [] [
   Elem $"xsd:sequence" [] [] [
    Elem $"xsd:any" [($"minOccurs", $"0"); ($"maxOccurs", $"unbounded"); ($"processContents", $"lax")] [] []]];
  Elem $"xsd:complexType" [($"name", $"OpticalType")] [] [
   Elem $"xsd:sequence" [] [] [
    Elem $"xsd:group" [($"ref", $"OpticalID")] [] [];
    Elem $"xsd:element" [($"ref", $"mode")] [] [];
    Elem $"xsd:element" [($"ref", $"stn")] [] [];
    Elem $"xsd:group" [($"ref", $"Location"); ($"minOccurs", $"0")] [] [];
    Elem $"xsd:element" [($"ref", $"prog"); ($"minOccurs", $"0")] [] [];
    Elem $"xsd:element" [($"ref", $"obsTime")] [] [];
    Elem $"xsd:element" [($"ref", $"rmsTime"); ($"minOccurs", $"0")] [] [];
    Elem $"xsd:element" [($"ref", $"ra")] [] [];
    Elem $"xsd:element" [($"ref", $"dec")] [] [];
    Elem $"xsd:element" [($"ref", $"rmsRA"); ($"minOccurs", $"0")] [] [];
    Elem $"xsd:element" [($"ref", $"rmsDec"); ($"minOccurs", $"0")] [] [];
    Elem $"xsd:element" [($"ref", $"rmsCorr"); ($"minOccurs", $"0")] [] [];
    Elem $"xsd:element" [($"ref", $"astCat")] [] [];
    Elem $"xsd:group" [($"ref", $"Photometry"); ($"minOccurs", $"0")] [] [];
    Elem $"xsd:element" [($"ref", $"logSNR"); ($"minOccurs", $"0")] [] [];
    Elem $"xsd:element" [($"ref", $"seeing"); ($"minOccurs", $"0")] [] [];
    Elem $"xsd:element" [($"ref", $"exp"); ($"minOccurs", $"0")] [] [];
    Elem $"xsd:element" [($"ref", $"rmsFit"); ($"minOccurs", $"0")] [] [];
    Elem $"xsd:element" [($"ref", $"nStars"); ($"minOccurs", $"0")] [] [];
    Elem $"xsd:element" [($"ref", $"ref"); ($"minOccurs", $"0")] [] [];
    Elem $"xsd:element" [($"ref", $"disc"); ($"minOccurs", $"0")] [] [];
    Elem $"xsd:element" [($"ref", $"subFrm"); ($"minOccurs", $"0")] [] [];
    Elem $"xsd:element" [($"ref", $"subFmt"); ($"minOccurs", $"0")] [] [];
    Elem $"xsd:group" [($"ref", $"Precision"); ($"minOccurs", $"0")] [] [];
    Elem $"xsd:element" [($"ref", $"uncTime"); ($"minOccurs", $"0")] [] [];
    Elem $"xsd:element" [($"ref", $"notes"); ($"minOccurs", $"0")] [] [];
    Elem $"xsd:element" [($"ref", $"remarks"); ($"minOccurs", $"0")] [] [];
    Elem $"xsd:group" [($"ref", $"OpticalResiduals"); ($"minOccurs", $"0")] [] [];
    Elem $"xsd:element" [($"ref", $"deprecated"); ($"minOccurs", $"0")] [] [];
    Elem $"xsd:element" [($"ref", $"localUse"); ($"minOccurs", $"0")] [] []]];
  Elem $"xsd:complexType" [($"name", $"OffsetType")] [] [
   Elem $"xsd:sequence" [] [] [
    Elem $"xsd:group" [($"ref", $"OpticalID")] [] [];
    Elem $"xsd:element" [($"ref", $"mode")] [] [];
    Elem $"xsd:element" [($"ref", $"stn")] [] [];
    Elem $"xsd:group" [($"ref", $"Location"); ($"minOccurs", $"0")] [] [];
    Elem $"xsd:element" [($"ref", $"prog"); ($"minOccurs", $"0")] [] [];
    Elem $"xsd:element" [($"ref", $"obsTime")] [] [];
    Elem $"xsd:element" [($"ref", $"rmsTime"); ($"minOccurs", $"0")] [] [];
    Elem $"xsd:element" [($"ref", $"obsCenter")] [] [];
    Elem $"xsd:group" [($"ref", $"OffsetVal")] [] [];
    Elem $"xsd:group" [($"ref", $"Photometry"); ($"minOccurs", $"0")] [] [];
    Elem $"xsd:element" [($"ref", $"logSNR"); ($"minOccurs", $"0")] [] [];
    Elem $"xsd:element" [($"ref", $"seeing"); ($"minOccurs", $"0")] [] [];
    Elem $"xsd:element" [($"ref", $"exp"); ($"minOccurs", $"0")] [] [];
    Elem $"xsd:element" [($"ref", $"rmsFit"); ($"minOccurs", $"0")] [] [];
    Elem $"xsd:element" [($"ref", $"nStars"); ($"minOccurs", $"0")] [] [];
    Elem $"xsd:element" [($"ref", $"ref"); ($"minOccurs", $"0")] [] [];
    Elem $"xsd:element" [($"ref", $"disc"); ($"minOccurs", $"0")] [] [];
    Elem $"xsd:element" [($"ref", $"subFrm"); ($"minOccurs", $"0")] [] [];
    Elem $"xsd:element" [($"ref", $"subFmt"); ($"minOccurs", $"0")] [] [];
    Elem $"xsd:group" [($"ref", $"Precision"); ($"minOccurs", $"0")] [] [];
    Elem $"xsd:element" [($"ref", $"uncTime"); ($"minOccurs", $"0")] [] [];
    Elem $"xsd:element" [($"ref", $"notes"); ($"minOccurs", $"0")] [] [];
    Elem $"xsd:element" [($"ref", $"remarks"); ($"minOccurs", $"0")] [] [];
    Elem $"xsd:group" [($"ref", $"OpticalResiduals"); ($"minOccurs", $"0")] [] [];
    Elem $"xsd:element" [($"ref", $"deprecated"); ($"minOccurs", $"0")] [] [];
    Elem $"xsd:element" [($"ref", $"localUse"); ($"minOccurs", $"0")] [] []]];
  Elem $"xsd:complexType" [($"name", $"OccultationType")] [] [
   Elem $"xsd:sequence" [] [] [
    Elem $"xsd:group" [($"ref", $"OpticalID")] [] [];
    Elem $"xsd:element" [($"ref", $"mode")] [] [];
    Elem $"xsd:element" [($"ref", $"stn")] [] [];
    Elem $"xsd:group" [($"ref", $"Location"); ($"minOccurs", $"0")] [] [];
    Elem $"xsd:element" [($"ref", $"prog"); ($"minOccurs", $"0")] [] [];
    Elem $"xsd:element" [($"ref", $"obsTime")] [] [];
    Elem $"xsd:element" [($"ref", $"rmsTime"); ($"minOccurs", $"0")] [] [];
    Elem $"xsd:element" [($"ref", $"raStar")] [] [];
    Elem $"xsd:element" [($"ref", $"decStar")] [] [];
    Elem $"xsd:group" [($"ref", $"OffsetVal")] [] [];
    Elem $"xsd:element" [($"ref", $"astCat")] [] [];
    Elem $"xsd:group" [($"ref", $"Photometry"); ($"minOccurs", $"0")] [] [];
    Elem $"xsd:element" [($"ref", $"logSNR"); ($"minOccurs", $"0")] [] [];
    Elem $"xsd:element" [($"ref", $"shapeOcc"); ($"minOccurs", $"0")] [] [];
    Elem $"xsd:element" [($"ref", $"seeing"); ($"minOccurs", $"0")] [] [];
    Elem $"xsd:element" [($"ref", $"ref"); ($"minOccurs", $"0")] [] [];
    Elem $"xsd:element" [($"ref", $"disc"); ($"minOccurs", $"0")] [] [];
    Elem $"xsd:element" [($"ref", $"subFrm"); ($"minOccurs", $"0")] [] [];
    Elem $"xsd:element" [($"ref", $"subFmt"); ($"minOccurs", $"0")] [] [];
    Elem $"xsd:group" [($"ref", $"Precision"); ($"minOccurs", $"0")] [] [];
    Elem $"xsd:element" [($"ref", $"uncTime"); ($"minOccurs", $"0")] [] [];
    Elem $"xsd:element" [($"ref", $"notes"); ($"minOccurs", $"0")] [] [];
    Elem $"xsd:element" [($"ref", $"remarks"); ($"minOccurs", $"0")] [] [];
    Elem $"xsd:group" [($"ref", $"OpticalResiduals"); ($"minOccurs", $"0")] [] [];
    Elem $"xsd:element" [($"ref", $"deprecated"); ($"minOccurs", $"0")] [] [];
    Elem $"xsd:element" [($"ref", $"localUse"); ($"minOccurs", $"0")] [] []]];
  Elem $"xsd:complexType" [($"name", $"RadarType")] [] [
   Elem $"xsd:sequence" [] [] [
    Elem $"xsd:group" [($"ref", $"RadarID")] [] [];
    Elem $"xsd:element" [($"ref", $"trx")] [] [];
    Elem $"xsd:element" [($"ref", $"rcv")] [] [];
    Elem $"xsd:element" [($"ref", $"prog"); ($"minOccurs", $"0")] [] [];
    Elem $"xsd:element" [($"ref", $"obsTime")] [] [];
    Elem $"xsd:group" [($"ref", $"RadarValue")] [] [];
    Elem $"xsd:element" [($"ref", $"logSNR"); ($"minOccurs", $"0")] [] [];
    Elem $"xsd:element" [($"ref", $"com"); ($"minOccurs", $"0")] [] [];
    Elem $"xsd:element" [($"ref", $"frq")] [] [];
    Elem $"xsd:element" [($"ref", $"ref"); ($"minOccurs", $"0")] [] [];
    Elem $"xsd:element" [($"ref", $"remarks"); ($"minOccurs", $"0")] [] [];
    Elem $"xsd:group" [($"ref", $"RadarResiduals"); ($"minOccurs", $"0")] [] [];
    Elem $"xsd:element" [($"ref", $"localUse"); ($"minOccurs", $"0")] [] []]];
  Elem $"xsd:complexType" [($"name", $"ObsContextType")] [] [
   Elem $"xsd:all" [] [] [
    Elem $"xsd:element" [($"ref", $"observatory")] [] [];
    Elem $"xsd:element" [($"ref", $"submitter")] [] [];
    Elem $"xsd:element" [($"ref", $"observers"); ($"minOccurs", $"0")] [] [];
    Elem $"xsd:element" [($"ref", $"measurers")] [] [];
    Elem $"xsd:element" [($"ref", $"telescope")] [] [];
    Elem $"xsd:element" [($"ref", $"software"); ($"minOccurs", $"0")] [] [];
    Elem $"xsd:element" [($"ref", $"coinvestigators"); ($"minOccurs", $"0")] [] [];
    Elem $"xsd:element" [($"ref", $"collaborators"); ($"minOccurs", $"0")] [] [];
    Elem $"xsd:element" [($"ref", $"fundingSource"); ($"minOccurs", $"0")] [] [];
    Elem $"xsd:element" [($"ref", $"comment"); ($"minOccurs", $"0")] [] []]];
  Elem $"xsd:complexType" [($"name", $"ObsDataType")] [] [
   Elem $"xsd:choice" [] [] [
    Elem $"xsd:element" [($"ref", $"optical"); ($"maxOccurs", $"unbounded")] [] [];
    Elem $"xsd:element" [($"ref", $"offset"); ($"maxOccurs", $"unbounded")] [] [];
    Elem $"xsd:element" [($"ref", $"occultation"); ($"maxOccurs", $"unbounded")] [] [];
    Elem $"xsd:element" [($"ref", $"radar"); ($"maxOccurs", $"unbounded")] [] []]];
  Elem $"xsd:complexType" [($"name", $"ObsBlockType")] [] [
   Elem $"xsd:sequence" [] [] [
    Elem $"xsd:element" [($"ref", $"obsContext")] [] [];
    Elem $"xsd:element" [($"ref", $"obsData")] [] []]];
  Elem $"xsd:complexType" [($"name", $"OpticalResType")] [] [
   Elem $"xsd:sequence" [] [] [
    Elem $"xsd:group" [($"ref", $"OpticalID")] [] [];
    Elem $"xsd:element" [($"ref", $"obsTime")] [] [];
    Elem $"xsd:group" [($"ref", $"OpticalResiduals")] [] []]];
  Elem $"xsd:complexType" [($"name", $"RadarResType")] [] [
   Elem $"xsd:sequence" [] [] [
    Elem $"xsd:group" [($"ref", $"RadarID")] [] [];
    Elem $"xsd:element" [($"ref", $"obsTime")] [] [];
    Elem $"xsd:group" [($"ref", $"RadarResiduals")] [] []]];
  Elem $"xsd:complexType" [($"name", $"ADESType")] [] [
   Elem $"xsd:choice" [($"maxOccurs", $"unbounded")] [] [
    Elem $"xsd:element" [($"ref", $"optical"); ($"minOccurs", $"0")] [] [];
    Elem $"xsd:element" [($"ref", $"offset"); ($"minOccurs", $"0")] [] [];
    Elem $"xsd:element" [($"ref", $"occultation"); ($"minOccurs", $"0")] [] [];
    Elem $"xsd:element" [($"ref", $"radar"); ($"minOccurs", $"0")] [] [];
    Elem $"xsd:element" [($"ref", $"opticalResidual"); ($"minOccurs", $"0")] [] [];
    Elem $"xsd:element" [($"ref", $"radarResidual"); ($"minOccurs", $"0")] [] [];
    Elem $"xsd:element" [($"ref", $"obsBlock")] [] []];
   Elem $"xsd:attribute" [($"name", $"version"); ($"type", $"VersionType"); ($"use", $"required")] [] []];
  Elem $"xsd:element" [($"name", $"permID"); ($"type", $"PermIDType")] [] [];
  Elem $"xsd:element" [($"name", $"provID"); ($"type", $"ProvIDType")] [] [];
  Elem $"xsd:element" [($"name", $"artSat"); ($"type", $"StringTypeW25")] [] [];
  Elem $"xsd:element" [($"name", $"trkSub"); ($"type", $"TrkSubType")] [] [];
  Elem $"xsd:element" [($"name", $"obsID"); ($"type", $"ObsIDType")] [] [];
  Elem $"xsd:element" [($"name", $"obsSubID"); ($"type", $"StringTypeW25")] [] [];
  Elem $"xsd:element" [($"name", $"trkID"); ($"type", $"TrkIDType")] [] [];
  Elem $"xsd:element" [($"name", $"trkMPC"); ($"type", $"TrkIDType")] [] [];
  Elem $"xsd:element" [($"name", $"mode"); ($"type", $"ModeType")] [] [];
  Elem $"xsd:element" [($"name", $"stn"); ($"type", $"StationType")] [] [];
  Elem $"xsd:element" [($"name", $"trx"); ($"type", $"StationType")] [] [];
  Elem $"xsd:element" [($"name", $"rcv"); ($"type", $"StationType")] [] [];
  Elem $"xsd:element" [($"name", $"sys"); ($"type", $"SysType")] [] [];
  Elem $"xsd:element" [($"name", $"ctr"); ($"type", $"CtrType")] [] [];
  Elem $"xsd:element" [($"name", $"pos1"); ($"type", $"DecimalTypeW14")] [] [];
  Elem $"xsd:element" [($"name", $"pos2"); ($"type", $"DecimalTypeW14")] [] [];
  Elem $"xsd:element" [($"name", $"pos3"); ($"type", $"DecimalTypeW14")] [] [];
  Elem $"xsd:element" [($"name", $"vel1"); ($"type", $"DecimalTypeW14")] [] [];
  Elem $"xsd:element" [($"name", $"vel2"); ($"type", $"DecimalTypeW14")] [] [];
  Elem $"xsd:element" [($"name", $"vel3"); ($"type", $"DecimalTypeW14")] [] [];
  Elem $"xsd:element" [($"name", $"posCov11"); ($"type", $"DoubleTypeW21")] [] [];
  Elem $"xsd:element" [($"name", $"posCov12"); ($"type", $"DoubleTypeW21")] [] [];
  Elem $"xsd:element" [($"name", $"posCov13"); ($"type", $"DoubleTypeW21")] [] [];
  Elem $"xsd:element" [($"name", $"posCov22"); ($"type", $"DoubleTypeW21")] [] [];
  Elem $"xsd:element" [($"name", $"posCov23"); ($"type", $"DoubleTypeW21")] [] [];
  Elem $"xsd:element" [($"name", $"posCov33"); ($"type", $"DoubleTypeW21")] [] [];
  Elem $"xsd:element" [($"name", $"prog"); ($"type", $"ProgType")] [] [];
  Elem $"xsd:element" [($"name", $"obsTime"); ($"type", $"TimeType")] [] [];
  Elem $"xsd:element" [($"name", $"rmsTime"); ($"type", $"PosDecimalTypeW8")] [] [];
  Elem $"xsd:element" [($"name", $"ra"); ($"type", $"RAType")] [] [];
  Elem $"xsd:element" [($"name", $"dec"); ($"type", $"DeclinationType")] [] [];
  Elem $"xsd:element" [($"name", $"raStar"); ($"type", $"RAType")] [] [];
  Elem $"xsd:element" [($"name", $"decStar"); ($"type", $"DeclinationType")] [] [];
  Elem $"xsd:element" [($"name", $"obsCenter"); ($"type", $"ObsCenterType")] [] [];
  Elem $"xsd:element" [($"name", $"deltaRA"); ($"type", $"DecimalTypeW10")] [] [];
  Elem $"xsd:element" [($"name", $"deltaDec"); ($"type", $"DecimalTypeW10")] [] [];
  Elem $"xsd:element" [($"name", $"dist"); ($"type", $"PosDecimalTypeW10")] [] [];
  Elem $"xsd:element" [($"name", $"pa"); ($"type", $"RAType")] [] [];
  Elem $"xsd:element" [($"name", $"rmsRA"); ($"type", $"PosDecimalTypeW7")] [] [];
  Elem $"xsd:element" [($"name", $"rmsDec"); ($"type", $"PosDecimalTypeW7")] [] [];
  Elem $"xsd:element" [($"name", $"rmsDist"); ($"type", $"PosDecimalTypeW6")] [] [];
  Elem $"xsd:element" [($"name", $"rmsPA"); ($"type", $"PosDecimalTypeW6")] [] [];
  Elem $"xsd:element" [($"name", $"rmsCorr"); ($"type", $"CorrDecimalType")] [] [];
  Elem $"xsd:element" [($"name", $"delay"); ($"type", $"PosDecimalTypeW14")] [] [];
  Elem $"xsd:element" [($"name", $"rmsDelay"); ($"type", $"PosDecimalTypeW6")] [] [];
  Elem $"xsd:element" [($"name", $"doppler"); ($"type", $"DecimalTypeW14")] [] [];
  Elem $"xsd:element" [($"name", $"rmsDoppler"); ($"type", $"PosDecimalTypeW6")] [] [];
  Elem $"xsd:element" [($"name", $"astCat"); ($"type", $"CatType")] [] [];
  Elem $"xsd:element" [($"name", $"mag"); ($"type", $"MagType")] [] [];
  Elem $"xsd:element" [($"name", $"rmsMag"); ($"type", $"PosDecimalTypeW6")] [] [];
  Elem $"xsd:element" [($"name", $"band"); ($"type", $"BandType")] [] [];
  Elem $"xsd:element" [($"name", $"fltr"); ($"type", $"BandType")] [] [];
  Elem $"xsd:element" [($"name", $"photCat"); ($"type", $"CatType")] [] [];
  Elem $"xsd:element" [($"name", $"photAp"); ($"type", $"PosDecimalTypeW6")] [] [];
  Elem $"xsd:element" [($"name", $"nucMag"); ($"type", $"LogicalType")] [] [];
  Elem $"xsd:element" [($"name", $"logSNR"); ($"type", $"DecimalTypeW6")] [] [];
  Elem $"xsd:element" [($"name", $"shapeOcc"); ($"type", $"LogicalType")] [] [];
  Elem $"xsd:element" [($"name", $"seeing"); ($"type", $"PosDecimalTypeW6")] [] [];
  Elem $"xsd:element" [($"name", $"exp"); ($"type", $"PosDecimalTypeW6")] [] [];
  Elem $"xsd:element" [($"name", $"rmsFit"); ($"type", $"PosDecimalTypeW6")] [] [];
  Elem $"xsd:element" [($"name", $"nStars"); ($"type", $"PosIntegerTypeW6")] [] [];
  Elem $"xsd:element" [($"name", $"com"); ($"type", $"LogicalType")] [] [];
  Elem $"xsd:element" [($"name", $"frq"); ($"type", $"FrequencyType")] [] [];
  Elem $"xsd:element" [($"name", $"ref"); ($"type", $"RefType")] [] [];
  Elem $"xsd:element" [($"name", $"disc"); ($"type", $"DiscType")] [] [];
  Elem $"xsd:element" [($"name", $"subFrm"); ($"type", $"SubFrmType")] [] [];
  Elem $"xsd:element" [($"name", $"subFmt"); ($"type", $"SubFmtType")] [] [];
  Elem $"xsd:element" [($"name", $"precTime"); ($"type", $"TimePrecType")] [] [];
  Elem $"xsd:element" [($"name", $"precRA"); ($"type", $"RaDecPrecType")] [] [];
  Elem $"xsd:element" [($"name", $"precDec"); ($"type", $"RaDecPrecType")] [] [];
  Elem $"xsd:element" [($"name", $"uncTime"); ($"type", $"PosDecimalTypeW8")] [] [];
  Elem $"xsd:element" [($"name", $"notes"); ($"type", $"NotesType")] [] [];
  Elem $"xsd:element" [($"name", $"remarks"); ($"type", $"RemarkType")] [] [];
  Elem $"xsd:element" [($"name", $"deprecated"); ($"type", $"DeprecatedType")] [] [];
  Elem $"xsd:element" [($"name", $"localUse"); ($"type", $"LocalUseType")] [] [];
  Elem $"xsd:element" [($"name", $"orbProd"); ($"type", $"StringTypeW100")] [] [];
  Elem $"xsd:element" [($"name", $"orbID"); ($"type", $"StringTypeW25")] [] [];
  Elem $"xsd:element" [($"name", $"resRA"); ($"type", $"DoubleTypeW7")] [] [];
  Elem $"xsd:element" [($"name", $"resDec"); ($"type", $"DoubleTypeW7")] [] [];
  Elem $"xsd:element" [($"name", $"selAst"); ($"type", $"SelResType")] [] [];
  Elem $"xsd:element" [($"name", $"sigRA"); ($"type", $"PosDecimalTypeW7")] [] [];
  Elem $"xsd:element" [($"name", $"sigDec"); ($"type", $"PosDecimalTypeW7")] [] [];
  Elem $"xsd:element" [($"name", $"sigCorr"); ($"type", $"CorrDecimalType")] [] [];
  Elem $"xsd:element" [($"name", $"sigTime"); ($"type", $"PosDecimalTypeW8")] [] [];
  Elem $"xsd:element" [($"name", $"biasRA"); ($"type", $"DecimalTypeW8")] [] [];
  Elem $"xsd:element" [($"name", $"biasDec"); ($"type", $"DecimalTypeW8")] [] [];
  Elem $"xsd:element" [($"name", $"biasTime"); ($"type", $"DecimalTypeW10")] [] [];
  Elem $"xsd:element" [($"name", $"photProd"); ($"type", $"StringTypeW100")] [] [];
  Elem $"xsd:element" [($"name", $"resMag"); ($"type", $"DoubleTypeW7")] [] [];
  Elem $"xsd:element" [($"name", $"selPhot"); ($"type", $"SelResType")] [] [];
  Elem $"xsd:element" [($"name", $"sigMag"); ($"type", $"PosDecimalTypeW6")] [] [];
  Elem $"xsd:element" [($"name", $"biasMag"); ($"type", $"DecimalTypeW6")] [] [];
  Elem $"xsd:element" [($"name", $"photMod"); ($"type", $"PhotModType")] [] [];
  Elem $"xsd:element" [($"name", $"resDelay"); ($"type", $"DoubleTypeW7")] [] [];
  Elem $"xsd:element" [($"name", $"selDelay"); ($"type", $"SelResType")] [] [];
  Elem $"xsd:element" [($"name", $"sigDelay"); ($"type", $"PosDecimalTypeW6")] [] [];
  Elem $"xsd:element" [($"name", $"resDoppler"); ($"type", $"DoubleTypeW7")] [] [];
  Elem $"xsd:element" [($"name", $"selDoppler"); ($"type", $"SelResType")] [] [];
  Elem $"xsd:element" [($"name", $"sigDoppler"); ($"type", $"PosDecimalTypeW6")] [] [];
  Elem $"xsd:element" [($"name", $"observatory"); ($"type", $"ObservatoryType")] [] [];
  Elem $"xsd:element" [($"name", $"submitter"); ($"type", $"SubmitterType")] [] [];
  Elem $"xsd:element" [($"name", $"observers"); ($"type", $"NamesType")] [] [];
  Elem $"xsd:element" [($"name", $"measurers"); ($"type", $"NamesType")] [] [];
  Elem $"xsd:element" [($"name", $"telescope"); ($"type", $"TelescopeType")] [] [];
  Elem $"xsd:element" [($"name", $"software"); ($"type", $"SoftwareType")] [] [];
  Elem $"xsd:element" [($"name", $"coinvestigators"); ($"type", $"NamesType")] [] [];
  Elem $"xsd:element" [($"name", $"collaborators"); ($"type", $"NamesType")] [] [];
  Elem $"xsd:element" [($"name", $"fundingSource"); ($"type", $"StringTypeW100")] [] [];
  Elem $"xsd:element" [($"name", $"comment"); ($"type", $"CommentType")] [] [];
  Elem $"xsd:element" [($"name", $"optical"); ($"type", $"OpticalType")] [] [];
  Elem $"xsd:element" [($"name", $"offset"); ($"type", $"OffsetType")] [] [];
  Elem $"xsd:element" [($"name", $"occultation"); ($"type", $"OccultationType")] [] [];
  Elem $"xsd:element" [($"name", $"radar"); ($"type", $"RadarType")] [] [];
  Elem $"xsd:element" [($"name", $"obsContext"); ($"type", $"ObsContextType")] [] [];
  Elem $"xsd:element" [($"name", $"obsData"); ($"type", $"ObsDataType")] [] [];
  Elem $"xsd:element" [($"name", $"obsBlock"); ($"type", $"ObsBlockType")] [] [];
  Elem $"xsd:element" [($"name", $"opticalResidual"); ($"type", $"OpticalResType")] [] [];
  Elem $"xsd:element" [($"name", $"radarResidual"); ($"type", $"RadarResType")] [] [];
  Elem $"xsd:element" [($"name", $"ades"); ($"type", $"ADESType")] [] []].
