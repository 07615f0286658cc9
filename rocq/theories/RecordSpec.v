(** When a record is complete: which fields a record must have, and which only
    together with others.  [given x] says that the field x has a value. *)
From Verif Require Export PyStr.

Local Open Scope string_scope.
Local Open Scope list_scope.
Section Complete.
Variable given : str -> bool.
Definition g (x : string) : bool := given $x.
Definition every (l : list string) : bool := forallb g l.
Definition none (l : list string) : bool := forallb (fun x => negb (g x)) l.
Definition some (l : list string) : bool := existsb g l.
(** the fields of a group come together: either none of them, or at least the first ones *)
Definition group (must may : list string) : bool := none (must ++ may) || every must.

(** an object: its permanent or provisional designation, or an artificial satellite *)
Definition known_object : bool := some ["permID"; "provID"] && none ["artSat"] || g "artSat" && none ["permID"; "provID"].
(** a known object, or at least a tracklet *)
Definition object : bool := known_object || g "trkSub" && none ["permID"; "provID"; "artSat"].
Definition location : bool := group ["sys"; "ctr"; "pos1"; "pos2"; "pos3"]
  ["vel1"; "vel2"; "vel3"; "posCov11"; "posCov12"; "posCov13"; "posCov22"; "posCov23"; "posCov33"].
Definition photometry : bool := group ["mag"; "band"] ["rmsMag"; "fltr"; "photCat"; "photAp"; "nucMag"].
Definition precision : bool := group ["precTime"; "precRA"; "precDec"] [].
(** an offset is given in RA and Dec, or as distance and position angle *)
Definition offset_value : bool :=
  every ["deltaRA"; "deltaDec"] && none ["dist"; "pa"; "rmsDist"; "rmsPA"] ||
  every ["dist"; "pa"] && none ["deltaRA"; "deltaDec"; "rmsRA"; "rmsDec"].
(** a radar record has either a Doppler shift or a delay *)
Definition radar_value : bool :=
  every ["doppler"; "rmsDoppler"] && none ["delay"; "rmsDelay"] ||
  every ["delay"; "rmsDelay"] && none ["doppler"; "rmsDoppler"].
(** residuals of an orbit: of the position, of the magnitude, or both *)
Definition position_residual : list string := ["resRA"; "resDec"; "selAst"; "sigRA"; "sigDec"].
Definition position_extra : list string := ["sigCorr"; "sigTime"; "biasRA"; "biasDec"; "biasTime"].
Definition magnitude_residual : list string := ["resMag"; "selPhot"; "sigMag"].
Definition magnitude_extra : list string := ["photProd"; "biasMag"; "photMod"].
Definition residual : bool :=
  every ["orbProd"; "orbID"] &&
  (every position_residual && group magnitude_residual magnitude_extra ||
   every magnitude_residual && none (position_residual ++ position_extra)).
Definition residual_fields : list string :=
  ["orbProd"; "orbID"] ++ position_residual ++ position_extra ++ magnitude_residual ++ magnitude_extra.
Definition delay_residual : list string := ["resDelay"; "selDelay"; "sigDelay"].
Definition doppler_residual : list string := ["resDoppler"; "selDoppler"; "sigDoppler"].
Definition radar_residual : bool :=
  every ["orbProd"; "orbID"] &&
  (every delay_residual && none doppler_residual || every doppler_residual && none delay_residual).
Definition radar_residual_fields : list string := ["orbProd"; "orbID"] ++ delay_residual ++ doppler_residual.

Definition complete_optical : bool :=
  object && every ["mode"; "stn"; "obsTime"; "ra"; "dec"; "astCat"] && location && photometry && precision &&
  (none residual_fields || residual).
Definition complete_offset : bool :=
  object && every ["mode"; "stn"; "obsTime"; "obsCenter"] && location && offset_value && photometry && precision &&
  (none residual_fields || residual).
Definition complete_occultation : bool :=
  object && every ["mode"; "stn"; "obsTime"; "raStar"; "decStar"; "astCat"] && location && offset_value && photometry && precision &&
  (none residual_fields || residual).
Definition complete_radar : bool :=
  known_object && every ["trx"; "rcv"; "obsTime"; "frq"] && radar_value && (none radar_residual_fields || radar_residual).
Definition complete_opticalResidual : bool := object && every ["obsTime"] && residual.
Definition complete_radarResidual : bool := known_object && every ["obsTime"] && radar_residual.
(** fields only the Minor Planet Center may fill *)
Definition reserved : list string :=
  ["obsID"; "trkID"; "trkMPC"; "prog"; "nucMag"; "ref"; "subFrm"; "subFmt"; "precTime"; "precRA"; "precDec";
   "deprecated"; "localUse"] ++ residual_fields ++ radar_residual_fields.
End Complete.

Definition complete (kind : str) (given : str -> bool) : bool :=
  if streqb kind $"optical" then complete_optical given
  else if streqb kind $"offset" then complete_offset given
  else if streqb kind $"occultation" then complete_occultation given
  else if streqb kind $"radar" then complete_radar given
  else if streqb kind $"opticalResidual" then complete_opticalResidual given
  else if streqb kind $"radarResidual" then complete_radarResidual given
  else false.
