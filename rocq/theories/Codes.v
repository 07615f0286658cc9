(** Model of the code tables of Python/ades/packUtil.py (lines 24-246), used by the
    80-column converters. *)
From Verif Require Export PackUtil AdesTables.

(** packUtil.py:24-46 codeDict: column 15 to the ADES mode *)
Definition codeDict : list (str * str) := Eval vm_compute in [
  ($"P", $"PHo");
  ($" ", $"PHO");
  ($"e", $"ENC");
  ($"C", $"CCD");
  ($"B", $"CMO");
  ($"T", $"MER");
  ($"M", $"MIC");
  ($"c", $"ccd");
  ($"E", $"OCC");
  ($"O", $"OFF");
  ($"H", $"PMT");
  ($"N", $"NOR");
  ($"n", $"VID")].
(** { d[i] : i for i in d }: the last of several entries with the same value wins *)
Fixpoint reverse_dict (d : list (str * str)) (acc : list (str * str)) : list (str * str) :=
  match d with
  | [] => acc
  | (k, v) :: d' => reverse_dict d' (dset v k acc)
  end.
(** packUtil.py:47 *)
Definition reverseCodeDict : list (str * str) := Eval vm_compute in reverse_dict codeDict [].

(** packUtil.py:64-182 programCodeSites, with progSOHOSTEREO *)
Definition programCodeSites : list str := Eval vm_compute in [
  $"010"; $"012"; $"033"; $"071"; $"084"; $"089"; $"094"; $"095"; $"119"; $"121"; $"181"; $"186";
  $"246"; $"260"; $"261"; $"262"; $"266"; $"267"; $"268"; $"269"; $"274"; $"290"; $"309"; $"413";
  $"561"; $"568"; $"658"; $"673"; $"675"; $"688"; $"689"; $"695"; $"696"; $"703"; $"705"; $"807";
  $"809"; $"851"; $"950"; $"A84"; $"B35"; $"C40"; $"C65"; $"D20"; $"D90"; $"E03"; $"E10"; $"E26";
  $"F65"; $"G37"; $"G40"; $"G73"; $"G83"; $"G96"; $"H06"; $"I03"; $"I05"; $"I11"; $"I18"; $"I22";
  $"I89"; $"J04"; $"J13"; $"J75"; $"K91"; $"K92"; $"K93"; $"K99"; $"L28"; $"L80"; $"L81"; $"M49";
  $"N50"; $"Q54"; $"Q62"; $"Q63"; $"Q64"; $"T09"; $"T11"; $"T12"; $"T14"; $"T15"; $"U65"; $"U69";
  $"U94"; $"V07"; $"V26"; $"V37"; $"V39"; $"W11"; $"W38"; $"W57"; $"W76"; $"W84"; $"W85"; $"W86";
  $"W87"; $"W88"; $"W98"; $"X06"; $"X07"; $"Z18"; $"Z19"; $"Z20"; $"Z23"; $"Z24"; $"Z28"; $"Z31";
  $"Z58"; $"Z84"; $"249"; $"C49"; $"C50"].
(** packUtil.py:184-244 catCodes *)
Definition catCodes : list (str * str) := Eval vm_compute in [
  ($" ", $"UNK"); ($"a", $"USNOA1"); ($"b", $"USNOSA1"); ($"c", $"USNOA2"); ($"d", $"USNOSA2");
  ($"e", $"UCAC1"); ($"f", $"Tyc1"); ($"g", $"Tyc2"); ($"h", $"GSC1.0"); ($"i", $"GSC1.1");
  ($"j", $"GSC1.2"); ($"k", $"GSC2.2"); ($"l", $"ACT"); ($"m", $"GSCACT"); ($"n", $"SDSS8");
  ($"o", $"USNOB1"); ($"p", $"PPM"); ($"q", $"UCAC4"); ($"r", $"UCAC2"); ($"s", $"USNOB2");
  ($"t", $"PPMXL"); ($"u", $"UCAC3"); ($"v", $"NOMAD"); ($"w", $"CMC14"); ($"x", $"Hip2");
  ($"y", $"Hip1"); ($"z", $"GSC"); ($"A", $"AC"); ($"B", $"SAO1984"); ($"C", $"SAO");
  ($"D", $"AGK3"); ($"E", $"FK4"); ($"F", $"ACRS"); ($"G", $"LickGas"); ($"H", $"Ida93");
  ($"I", $"Perth70"); ($"J", $"COSMOS"); ($"K", $"Yale"); ($"L", $"2MASS"); ($"M", $"GSC2.3");
  ($"N", $"SDSS7"); ($"O", $"SSTRC1"); ($"P", $"MPOSC3"); ($"Q", $"CMC15"); ($"R", $"SSTRC4");
  ($"S", $"URAT1"); ($"T", $"URAT2"); ($"U", $"Gaia1"); ($"V", $"Gaia2"); ($"W", $"Gaia3");
  ($"X", $"Gaia3E"); ($"Y", $"UCAC5"); ($"Z", $"ATLAS2"); ($"0", $"IHW"); ($"1", $"PS1_DR1");
  ($"2", $"PS1_DR2"); ($"3", $"Gaia_Int"); ($"4", $"GZ"); ($"5", $"UBSC"); ($"6", $"Gaia_2016")].
(** packUtil.py:246 rCatCodes *)
Definition rCatCodes : list (str * str) := Eval vm_compute in reverse_dict catCodes [].
