(** Theorems for C01..C16 (packUtil.py, applyPaddingAndJustification).
    Vocabulary: PyStr (Python strings, [dec], [decval]), PackSpec, JustSpec.
    Model: PackUtil, Just. *)
From Verif Require Import PyStr PyRe PackUtil Just PackSpec JustSpec.
From Verif Require Import PackProofs PackProofs4 PackProofs5 PackProofs6 PackProofs7 PackProofs8 PackProofs12 PackProofs13 PackProofs14 JustProofs.

(** * C01 *)
(** radix62_4(n) is '~' and the four base-62 digits of n mod 62^4, most significant first *)
Theorem C01_word : forall n, exists w x y z a b c d, radix62_4 n = ["~"%char; w; x; y; z] /\
  digit62 w = Some a /\ digit62 x = Some b /\ digit62 y = Some c /\ digit62 z = Some d /\
  ((a * 62 + b) * 62 + c) * 62 + d = n mod 62 ^ 4.
Proof. exact c01_word. Qed.
(** reading back, for every integer, also negative ones *)
Theorem C01_unradix_radix : forall n, unRadix62_4 (radix62_4 n) = Ok (n mod 62 ^ 4).
Proof. exact unRadix_radix. Qed.
Theorem C01_unradix_radix_small : forall n, 0 <= n < 62 ^ 4 -> unRadix62_4 (radix62_4 n) = Ok n.
Proof. exact c01_inv. Qed.
(** every well-formed word is read to its value and written back *)
Theorem C01_radix_unradix : forall w x y z a b c d,
  digit62 w = Some a -> digit62 x = Some b -> digit62 y = Some c -> digit62 z = Some d ->
  unRadix62_4 ["~"%char; w; x; y; z] = Ok (((a * 62 + b) * 62 + c) * 62 + d) /\
  radix62_4 (((a * 62 + b) * 62 + c) * 62 + d) = ["~"%char; w; x; y; z].
Proof. exact c01_read. Qed.
(** other words are refused *)
Theorem C01_malformed : forall s, unRadix62_4 s = Err KeyError \/ unRadix62_4 s = Err IndexError \/
  exists p w x y z t a b c d, s = p :: w :: x :: y :: z :: t /\ digit62 w = Some a /\ digit62 x = Some b /\ digit62 y = Some c /\ digit62 z = Some d.
Proof. exact unRadix_bad. Qed.
Example C01_ex : radix62_4 14776335 = $"~zzzz" /\ unRadix62_4 $"~zzzz" = Ok 14776335 /\ radix62_4 (-1) = $"~zzzz" /\
  digit62 "z" = Some 61 /\ 0 <= 14776335 < 62 ^ 4.
Proof. repeat split; vm_compute; congruence. Qed.

(** * C02 *)
Theorem C02_round_trip : forall n trk, 1 <= n <= 15396335 ->
  exists p, packTupleID (Some (dec n), None, trk) = Ok p /\ length p = 12%nat /\
            unpackPackedID p = Ok (Some (dec n), None, Some []).
Proof. exact c02_rt. Qed.
(** the columns: letter and four digits below 620000, '~' and base 62 of n - 620000 from there on *)
Theorem C02_columns : forall n trk, 1 <= n <= 15396335 ->
  exists five, packTupleID (Some (dec n), None, trk) = Ok (five ++ spaces 7) /\ Five five (Some n) /\
     unpackPackedID (five ++ spaces 7) = Ok (Some (dec n), None, Some []).
Proof. exact c02_layout. Qed.
(** leading zeros do not matter *)
Theorem C02_numeral : forall s trk, alldig s = true -> s <> [] -> 1 <= decval s <= 15396335 ->
  packTupleID (Some s, None, trk) = packTupleID (Some (dec (decval s)), None, trk).
Proof. exact c02_numeral. Qed.
Theorem C02_reject : forall s prov trk, alldig s = true -> s <> [] -> ~ (1 <= decval s <= 15396335) ->
  packTupleID (Some s, prov, trk) = Err RuntimeError.
Proof. exact c02_reject. Qed.
Theorem C02_injective : forall m n, 1 <= m <= 15396335 -> 1 <= n <= 15396335 ->
  packTupleID (Some (dec m), None, None) = packTupleID (Some (dec n), None, None) -> m = n.
Proof. exact c02_inj. Qed.
Example C02_ex : packTupleID (Some $"619999", None, None) = Ok $"z9999       " /\
  packTupleID (Some $"620000", None, None) = Ok $"~0000       " /\
  packTupleID (Some $"15396335", None, None) = Ok $"~zzzz       " /\
  packTupleID (Some $"0012", None, None) = Ok $"00012       " /\
  packTupleID (Some $"15396336", None, None) = Err RuntimeError /\
  packTupleID (Some $"000", None, None) = Err RuntimeError.
Proof. vm_compute. auto 10. Qed.

(** * C03 *)
(** with or without a minor-planet number in front *)
Theorem C03_round_trip : forall o y h l n trk, mpnum o -> 1800 <= y <= 2099 -> half_month h = true -> order_letter l = true -> 0 <= n <= 619 ->
  exists five a b c,
     packTupleID (ptext o, Some (prov_text y h l n), trk) = Ok (five ++ [letter (y / 100); a; b; h; letter (n / 10); c; l])
     /\ length five = 5%nat /\ isdig a = true /\ isdig b = true /\ isdig c = true
     /\ decval [a; b] = y mod 100 /\ decval [c] = n mod 10 /\ Five five o /\
     unpackPackedID (five ++ [letter (y / 100); a; b; h; letter (n / 10); c; l]) = Ok (ptext o, Some (prov_text y h l n), None).
Proof. exact c03_rt. Qed.
(** the columns, for all centuries 18..61 *)
Theorem C03_columns : forall u c y1 y2 h cl cn o v trk, digit62 c = Some u -> 18 <= u <= 61 -> isdig y1 = true -> isdig y2 = true ->
  half_month h = true -> order_letter o = true -> digit62 cl = Some v -> isdig cn = true ->
  packTupleID (None, Some (prov_text (u * 100 + decval [y1; y2]) h o (v * 10 + decval [cn])), trk) = Ok (spaces 5 ++ [c; y1; y2; h; cl; cn; o]).
Proof. exact c03_columns. Qed.
Theorem C03_reject : forall y h l n trk, 1000 <= y <= 9999 -> half_month h = true -> order_letter l = true -> 0 <= n ->
  (y < 1800 \/ 6200 <= y) -> packTupleID (None, Some (prov_text y h l n), trk) = Err RuntimeError.
Proof. exact c03_reject. Qed.
(** false claim: "what packs can be read back": every designation of the centuries 21..61
    packs (C03_columns) and is then read as a tracklet *)
Theorem C03_future_centuries_refuted : forall u c y1 y2 h cl cn o v, digit62 c = Some u -> 21 <= u <= 61 -> isdig y1 = true -> isdig y2 = true ->
  half_month h = true -> order_letter o = true -> digit62 cl = Some v -> isdig cn = true ->
  unpackPackedID (spaces 5 ++ [c; y1; y2; h; cl; cn; o]) = Ok (None, None, Some [c; y1; y2; h; cl; cn; o]).
Proof. exact c03_far. Qed.
Example C03_ex : packTupleID (Some $"123", Some (prov_text 2014 "A" "C" 360), None) = Ok $"00123K14Aa0C" /\
  prov_text 2014 "A" "C" 360 = $"2014 AC360" /\ prov_text 1999 "Y" "Z" 0 = $"1999 YZ" /\
  unpackPackedID $"00123K14Aa0C" = Ok (Some $"123", Some $"2014 AC360", None) /\
  half_month "A" = true /\ half_month "I" = false /\ order_letter "Z" = true /\
  packTupleID (None, Some $"2150 AA", None) = Ok $"     L50A00A" /\ unpackPackedID $"     L50A00A" = Ok (None, None, Some $"L50A00A") /\
  packTupleID (None, Some $"1799 AA", None) = Err RuntimeError.
Proof. vm_compute. auto 15. Qed.

(** * C04 *)
Theorem C04_round_trip : forall o y h l n trk, mpnum o -> 2025 <= y <= 2035 -> half_month h = true -> order_letter l = true ->
  620 <= n -> ext_limit l n ->
  exists five a b c d,
     packTupleID (ptext o, Some (prov_text y h l n), trk) =
        Ok (five ++ ["_"%char; letter (y mod 100); h; letter a; letter b; letter c; letter d])
     /\ length five = 5%nat /\ 0 <= a < 62 /\ 0 <= b < 62 /\ 0 <= c < 62 /\ 0 <= d < 62
     /\ val62 a b c d = 25 * (n - 620) + order_rank l /\
     unpackPackedID (five ++ ["_"%char; letter (y mod 100); h; letter a; letter b; letter c; letter d])
        = Ok (ptext o, Some (prov_text y h l n), None).
Proof. exact c04_rt. Qed.
Theorem C04_reject : forall y h l n trk, 1000 <= y <= 9999 -> half_month h = true -> order_letter l = true -> 620 <= n ->
  ~ ext_limit l n -> packTupleID (None, Some (prov_text y h l n), trk) = Err RuntimeError.
Proof. exact c04_reject. Qed.
(** false claim: extended designations of other years survive *)
Theorem C04_other_years_refuted :
  packTupleID (None, Some (prov_text 2014 "A" "A" 620), None) = Ok $"     _EA0000" /\ unpackPackedID $"     _EA0000" = Err RuntimeError /\
  packTupleID (None, Some (prov_text 1826 "A" "A" 620), None) = packTupleID (None, Some (prov_text 2026 "A" "A" 620), None) /\
  packTupleID (None, Some (prov_text 2062 "A" "A" 620), None) = Err IndexError.
Proof. vm_compute. auto. Qed.
(** [letter] is the inverse of [digit62] *)
Theorem C04_letter : forall d, 0 <= d < 62 -> digit62 (letter d) = Some d.
Proof. exact letter_digit62. Qed.
Example C04_ex : packTupleID (None, Some (prov_text 2029 "B" "K" 619), None) = Ok $"     K29Bz9K" /\
  packTupleID (None, Some (prov_text 2029 "B" "K" 620), None) = Ok $"     _TB0009" /\
  packTupleID (None, Some (prov_text 2035 "F" "L" 591673), None) = Ok $"     _ZFzzzz" /\
  unpackPackedID $"     _ZFzzzz" = Ok (None, Some $"2035 FL591673", None) /\ ext_limit "L" 591673 /\ ~ ext_limit "M" 591673.
Proof. vm_compute. repeat split; auto. - right. split; [reflexivity|discriminate]. - intros [H|[_ H]]; [discriminate H|apply H; reflexivity]. Qed.

(** * C05 *)
Theorem C05_round_trip : forall o d1 d2 d3 d4 s1 s2 trk, mpnum o -> isdig d1 = true -> isdig d2 = true -> isdig d3 = true -> isdig d4 = true ->
  is_survey s1 s2 = true ->
  exists five, packTupleID (ptext o, Some (survey_text d1 d2 d3 d4 s1 s2), trk) = Ok (five ++ [s1; s2; "S"%char; d1; d2; d3; d4])
    /\ length five = 5%nat
    /\ unpackPackedID (five ++ [s1; s2; "S"%char; d1; d2; d3; d4]) = Ok (ptext o, Some (survey_text d1 d2 d3 d4 s1 s2), None).
Proof. exact c05_rt. Qed.
Example C05_ex : survey_text "2" "0" "4" "0" "P" "L" = $"2040 P-L" /\ packTupleID (None, Some $"2040 P-L", None) = Ok $"     PLS2040" /\
  is_survey "T" "3" = true /\ unpackPackedID $"12345T3S0001" = Ok (Some $"12345", Some $"0001 T-3", None).
Proof. vm_compute. auto. Qed.

(** * C06 *)
Theorem C06_number : forall n t trk, 1 <= n <= 9999 -> (t = "P" \/ t = "D")%char ->
  exists p, packTupleID (Some (cometnum_text n t None), None, trk) = Ok p /\ length p = 12%nat /\
    unpackPackedID p = Ok (Some (cometnum_text n t None), None, None).
Proof. intros n t trk H [-> | ->]; [exact (c06_num n "P" trk H eq_refl)|exact (c06_num n "D" trk H eq_refl)]. Qed.
Theorem C06_number_fragment : forall n t f trk, 1 <= n <= 9999 -> (t = "P" \/ t = "D")%char ->
  forallb isupper f = true -> (length f = 1 \/ length f = 2)%nat ->
  exists p, packTupleID (Some (cometnum_text n t (Some f)), None, trk) = Ok p /\ length p = 12%nat /\
    unpackPackedID p = Ok (Some (cometnum_text n t (Some f)), None, None).
Proof. intros n t f trk H [-> | ->]; [exact (c06_numfrag n "P" f trk H eq_refl)|exact (c06_numfrag n "D" f trk H eq_refl)]. Qed.
Theorem C06_provisional : forall num t y h o n trk, cometnum num -> comet_type num t = true -> 1000 <= y <= 6199 ->
  half_month h = true -> match o with Some c => isupper c = true | None => True end -> 0 <= n <= 619 ->
  exists p, packTupleID (num_opt_text num t None, Some (comet_text t (dec y) h o n), trk) = Ok p /\ length p = 12%nat /\
    unpackPackedID p = Ok (num_opt_text num t None, Some (comet_text t (dec y) h o n), None).
Proof. exact c06_prov. Qed.
Theorem C06_A_with_number : forall m y h n trk, 1 <= m <= 15396335 -> 1800 <= y <= 2099 -> half_month h = true -> 0 <= n <= 619 ->
  exists p, packTupleID (Some (dec m), Some (comet_text "A" (dec y) h None n), trk) = Ok p /\ length p = 12%nat /\
    unpackPackedID p = Ok (Some (dec m), Some (comet_text "A" (dec y) h None n), None).
Proof. exact c06_A_num. Qed.
Theorem C06_provisional_fragment : forall num t y h n f trk, cometnum num -> frag_type num t = true -> 1000 <= y <= 6199 ->
  half_month h = true -> isupper f = true -> 1 <= n <= 619 ->
  exists p, packTupleID (num_opt_text num t (Some [f]), Some (cometfrag_text t (dec y) h n f), trk) = Ok p /\ length p = 12%nat /\
    unpackPackedID p = Ok (num_opt_text num t (Some [f]), Some (cometfrag_text t (dec y) h n f), None).
Proof. exact c06_fragprov. Qed.
(** the columns *)
Theorem C06_columns : forall t c y1 y2 h o cl cn u v trk, comet_type None t = true -> digit62 c = Some u -> 10 <= u -> isdig y1 = true -> isdig y2 = true ->
  half_month h = true -> match o with Some x => isupper x = true | None => True end -> digit62 cl = Some v -> isdig cn = true ->
  packTupleID (None, Some (comet_text t (dec (u * 100 + decval [y1; y2])) h o (v * 10 + decval [cn])), trk) =
    Ok (spaces 4 ++ [t; c; y1; y2; h; cl; cn; match o with Some x => x | None => "0"%char end]).
Proof. exact c06_columns. Qed.
Theorem C06_fragment_columns : forall t c y1 y2 h cl cn f u v trk, frag_type None t = true -> digit62 c = Some u -> 10 <= u -> isdig y1 = true -> isdig y2 = true ->
  half_month h = true -> islower f = true -> digit62 cl = Some v -> isdig cn = true -> v * 10 + decval [cn] <> 0 ->
  packTupleID (None, Some (cometfrag_text t (dec (u * 100 + decval [y1; y2])) h (v * 10 + decval [cn]) (upperc f)), trk) =
    Ok (spaces 4 ++ [t; c; y1; y2; h; cl; cn; f]).
Proof. exact c06_frag_columns. Qed.
Theorem C06_number_columns : forall n t trk, 1 <= n <= 9999 -> ceqb t "P" || ceqb t "D" || ceqb t "I" = true ->
  exists four, packTupleID (Some (cometnum_text n t None), None, trk) = Ok (four ++ [t] ++ spaces 7) /\ Four four (Some n).
Proof. exact c06_num_columns. Qed.
Theorem C06_reject_number : forall s t prov trk, alldig s = true -> s <> [] -> ceqb t "P" || ceqb t "D" || ceqb t "I" = true ->
  ~ (1 <= decval s <= 9999) -> packTupleID (Some (s ++ [t]), prov, trk) = Err RuntimeError.
Proof. exact c06_reject_num. Qed.
Theorem C06_reject_provisional : forall t y h o n trk, comet_type None t = true -> 1000 <= y <= 9999 ->
  half_month h = true -> match o with Some c => isupper c = true | None => True end -> 620 <= n ->
  packTupleID (None, Some (comet_text t (dec y) h o n), trk) = Err RuntimeError.
Proof. exact c06_reject_prov. Qed.
Theorem C06_reject_fragment : forall t y h n f trk, frag_type None t = true -> 1000 <= y <= 9999 ->
  half_month h = true -> isupper f = true -> 620 <= n ->
  packTupleID (None, Some (cometfrag_text t (dec y) h n f), trk) = Err RuntimeError.
Proof. exact c06_reject_frag. Qed.
(** false claim: interstellar numbers survive: they pack, and the result is never readable *)
Theorem C06_interstellar_refuted : forall n trk, 1 <= n <= 9999 ->
  exists p, packTupleID (Some (cometnum_text n "I" None), None, trk) = Ok p /\ length p = 12%nat /\
    unpackPackedID p = Err RuntimeError.
Proof. exact c06_inum. Qed.
(** false claim: an accepted number/designation pair survives: the type letter of the designation is lost,
    unused half-months I and Z are written but not read, and the A/ of a numbered object with a second letter is lost *)
Theorem C06_accepted_pairs_refuted :
  packTupleID (Some $"1P", Some $"C/1995 O1", None) = Ok $"0001PJ95O010" /\
  unpackPackedID $"0001PJ95O010" = Ok (Some $"1P", Some $"P/1995 O1", None) /\
  packTupleID (None, Some $"C/1995 Z1", None) = Ok $"    CJ95Z010" /\ unpackPackedID $"    CJ95Z010" = Err RuntimeError /\
  packTupleID (Some $"12", Some $"A/2014 AB1", None) = Ok $"00012K14A01B" /\
  unpackPackedID $"00012K14A01B" = Ok (Some $"12", Some $"2014 AB1", None).
Proof. vm_compute. auto 10. Qed.
Example C06_ex : cometnum_text 73 "P" (Some $"BA") = $"73P-BA" /\ packTupleID (Some $"73P-BA", None, None) = Ok $"0073P     ba" /\
  comet_text "C" $"1995" "O" None 1 = $"C/1995 O1" /\ cometfrag_text "D" $"1993" "F" 2 "B" = $"D/1993 F2-B" /\
  packTupleID (None, Some $"D/1993 F2-B", None) = Ok $"    DJ93F02b" /\
  packTupleID (Some $"73P-B", Some $"P/1930 J1-B", None) = Ok $"0073PJ30J01b" /\
  packTupleID (Some $"10000P", None, None) = Err RuntimeError /\ comet_type (Some 3) "D" = true /\ frag_type None "X" = true.
Proof. vm_compute. auto 15. Qed.

(** * C07 *)
Theorem C07_number : forall q name n trk, planet q = Some name -> 1 <= n <= 999 ->
  exists p, packTupleID (Some (name ++ $" " ++ dec n), None, trk) = Ok p /\ length p = 12%nat /\
    unpackPackedID p = Ok (Some (name ++ $" " ++ dec n), None, None).
Proof. exact c07_num. Qed.
Theorem C07_provisional : forall o y p n trk, satnum o -> planet p <> None -> 1000 <= y <= 6199 -> 1 <= n <= 619 ->
  exists r, packTupleID (satnum_text o, Some (sat_text (dec y) p n), trk) = Ok r /\ length r = 12%nat /\
    unpackPackedID r = Ok (satnum_text o, Some (sat_text (dec y) p n), None).
Proof. exact c07_prov. Qed.
Theorem C07_columns : forall p c y1 y2 cl cn u v trk, planet p <> None -> digit62 c = Some u -> 10 <= u -> isdig y1 = true -> isdig y2 = true ->
  digit62 cl = Some v -> isdig cn = true -> v * 10 + decval [cn] <> 0 ->
  packTupleID (None, Some (sat_text (dec (u * 100 + decval [y1; y2])) p (v * 10 + decval [cn])), trk) =
    Ok (spaces 4 ++ ["S"%char; c; y1; y2; p; cl; cn; "0"%char]).
Proof. exact c07_columns. Qed.
Theorem C07_number_columns : forall q name n trk, planet q = Some name -> 1 <= n <= 999 ->
  exists a b c, packTupleID (Some (name ++ $" " ++ dec n), None, trk) = Ok ([q; a; b; c] ++ $"S" ++ spaces 7) /\
    isdig a = true /\ isdig b = true /\ isdig c = true /\ decval [a; b; c] = n.
Proof. exact c07_num_columns. Qed.
Theorem C07_reject_number : forall s q name prov trk, alldig s = true -> s <> [] -> planet q = Some name -> ~ (1 <= decval s <= 999) ->
  packTupleID (Some (name ++ $" " ++ s), prov, trk) = Err RuntimeError.
Proof. exact c07_reject_num. Qed.
Theorem C07_reject_provisional : forall y p n trk, planet p <> None -> 1000 <= y <= 9999 -> 0 <= n -> ~ (1 <= n <= 619) ->
  packTupleID (None, Some (sat_text (dec y) p n), trk) = Err RuntimeError.
Proof. exact c07_reject_prov. Qed.
(** satellites of minor planets, "(243) 1" and everything else starting with "(" *)
Theorem C07_asteroid_satellites : forall s prov trk, packTupleID (Some ("("%char :: s), prov, trk) = Err RuntimeError.
Proof. exact c07_astsat. Qed.
Example C07_ex : sat_text $"2003" "J" 12 = $"S/2003 J 12" /\ packTupleID (Some $"Jupiter 13", Some $"S/2003 J 12", None) = Ok $"J013SK03J120" /\
  satnum_text (Some ("J"%char, 13)) = Some $"Jupiter 13" /\ packTupleID (Some $"Saturn 1000", None, None) = Err RuntimeError /\
  packTupleID (Some $"(243) 1", None, None) = Err RuntimeError.
Proof. vm_compute. auto. Qed.

(** * C08 *)
Theorem C08_pack : forall t, forallb trk_char t = true -> (1 <= length t <= 7)%nat ->
  packTupleID (None, None, Some t) = Ok (spaces 5 ++ t ++ spaces (7 - length t)).
Proof. exact c08_pack. Qed.
Theorem C08_unpack : forall t, forallb trk_char t = true -> (1 <= length t <= 7)%nat -> looks_packed t = false ->
  unpackPackedID (spaces 5 ++ t ++ spaces (7 - length t)) = Ok (None, None, Some t).
Proof. exact c08_unpack. Qed.
(** the only tracklets lost are those that look like packed designations *)
Theorem C08_ambiguous : forall t, looks_packed t = true -> exists prov, unpackPackedID (spaces 5 ++ t) = Ok (None, Some prov, None).
Proof. exact c08_ambiguous. Qed.
(** eight characters: the first one is dropped *)
Theorem C08_eight_refuted : forall c t, forallb trk_char (c :: t) = true -> length t = 7%nat ->
  packTupleID (None, None, Some (c :: t)) = Ok (spaces 5 ++ t).
Proof. exact c08_pack8. Qed.
(** everything else is refused (a single final newline is ignored by the code) *)
Theorem C08_reject : forall t, (t = [] \/ t = [nl] \/ ~ (exists w, (t = w \/ t = w ++ [nl]) /\ (length w <= 8)%nat /\ forallb trk_char w = true)) ->
  packTupleID (None, None, Some t) = Err RuntimeError.
Proof. exact c08_reject. Qed.
Example C08_ex : packTupleID (None, None, Some $"P10-abc") = Ok $"     P10-abc" /\ looks_packed $"P10-abc" = false /\
  unpackPackedID $"     ab     " = Ok (None, None, Some $"ab") /\ looks_packed $"K14A00A" = true /\
  packTupleID (None, None, Some $"K14A00A") = Ok $"     K14A00A" /\ unpackPackedID $"     K14A00A" = Ok (None, Some $"2014 AA", None) /\
  packTupleID (None, None, Some $"12345678") = Ok $"     2345678" /\ packTupleID (None, None, Some $"a b") = Err RuntimeError /\
  packTupleID (None, None, Some $"123456789") = Err RuntimeError.
Proof. vm_compute. auto 15. Qed.

(** * C09 *)
Theorem C09_twelve_columns : forall t r, packTupleID t = Ok r -> length r = 12%nat.
Proof. exact c09. Qed.
Example C09_ex : exists r, packTupleID (Some $"73P-B", Some $"P/1930 J1-B", Some $"x") = Ok r.
Proof. vm_compute. eauto. Qed.

(** * C10 *)
Theorem C10_accept : forall p q k r, packTupleID (Some p, Some q, k) = Ok r ->
  perm_kind p = prov_kind q /\ (perm_kind p = CometFragment -> after_dash p = after_dash q) /\
  exists r1 r2, packTupleID (Some p, None, None) = Ok r1 /\ packTupleID (None, Some q, None) = Ok r2 /\
    r = firstn 5 r1 ++ skipn 5 r2.
Proof. exact c10_accept. Qed.
Theorem C10_reject : forall p q k r1 r2, packTupleID (Some p, None, None) = Ok r1 -> packTupleID (None, Some q, None) = Ok r2 ->
  (perm_kind p <> prov_kind q \/ (perm_kind p = CometFragment /\ after_dash p <> after_dash q)) ->
  packTupleID (Some p, Some q, k) = Err RuntimeError.
Proof. exact c10_reject. Qed.
Theorem C10_join : forall p q k r1 r2, packTupleID (Some p, None, None) = Ok r1 -> packTupleID (None, Some q, None) = Ok r2 ->
  perm_kind p = prov_kind q -> (perm_kind p = CometFragment -> after_dash p = after_dash q) ->
  packTupleID (Some p, Some q, k) = Ok (firstn 5 r1 ++ skipn 5 r2).
Proof. exact c10_join. Qed.
Example C10_ex : packTupleID (Some $"12", Some $"2014 AA", None) = Ok $"00012K14A00A" /\
  packTupleID (Some $"12", Some $"C/1995 O1", None) = Err RuntimeError /\
  packTupleID (Some $"73P-B", Some $"P/1930 J1-C", None) = Err RuntimeError /\
  perm_kind $"73P-B" = CometFragment /\ prov_kind $"C/1995 O1" = Comet /\ after_dash $"P/1930 J1-C" = $"C".
Proof. vm_compute. auto 10. Qed.

(** * C11 *)
Theorem C11_only_runtime_error : forall s e, unpackPackedID s = Err e -> e = RuntimeError.
Proof. intros s e H. pose proof (unpack_safe s) as S. rewrite H in S. exact S. Qed.
Theorem C11_nonempty : forall s p q t, unpackPackedID s = Ok (p, q, t) ->
  exists x, x <> [] /\ (p = Some x \/ q = Some x \/ t = Some x).
Proof. exact unpack_nonempty. Qed.
Example C11_ex : unpackPackedID (spaces 12) = Err RuntimeError /\ unpackPackedID [] = Err RuntimeError /\
  unpackPackedID $"~00" = Err RuntimeError /\ unpackPackedID $"00001       " = Ok (Some $"1", None, Some []).
Proof. vm_compute. auto. Qed.

(** * C12 *)
Theorem C12_unpack_pack : forall p t, length p = 12%nat -> ~ In nl p -> unpackPackedID p = Ok t ->
  (packTupleID t = Ok p <-> lossy p = false).
Proof. exact c12. Qed.
Example C12_ex : unpackPackedID $"0073PJ30J01b" = Ok (Some $"73P-B", Some $"P/1930 J1-B", None) /\ lossy $"0073PJ30J01b" = false /\
  unpackPackedID $"    IK17U010" = Ok (None, Some $"I/2017 U1", None) /\ lossy $"    IK17U010" = true.
Proof. vm_compute. auto. Qed.

(** * C13 *)
Theorem C13_pack_unpack : forall c p, packProgID [c] = Ok p -> length p = 2%nat /\ unpackProgID p = Ok [c].
Proof. exact c13_pack_unpack. Qed.
Theorem C13_domain : forall c, (exists p, packProgID [c] = Ok p) <-> prog_ok c = true.
Proof. exact c13_domain. Qed.
Theorem C13_reject : forall c, prog_ok c = false -> packProgID [c] = Err RuntimeError.
Proof. exact c13_reject. Qed.
Theorem C13_injective : forall a b p, packProgID [a] = Ok p -> packProgID [b] = Ok p -> a = b.
Proof. exact c13_inj. Qed.
Theorem C13_unpack_pack : forall a b u v c, digit62 a = Some u -> digit62 b = Some v -> 62 * u + v <= 93 ->
  unpackProgID [a; b] = Ok [c] -> packProgID [c] = Ok [a; b].
Proof. exact c13_unpack_pack. Qed.
Theorem C13_above_93 : forall a b t u v, digit62 a = Some u -> digit62 b = Some v -> 93 < 62 * u + v -> unpackProgID (a :: b :: t) = Ok $" ".
Proof. exact c13_blank. Qed.
Theorem C13_malformed : forall s, match s with a :: b :: _ => digit62 a = None \/ digit62 b = None | _ => True end ->
  unpackProgID s = Err RuntimeError.
Proof. exact c13_bad. Qed.
Example C13_ex : packProgID $"0" = Ok $"00" /\ packProgID $"z" = Ok $"1V" /\ unpackProgID $"1V" = Ok $"z" /\ unpackProgID $"1W" = Ok $" " /\
  packProgID $" " = Err RuntimeError.
Proof. vm_compute. auto. Qed.

(** * C14 *)
(** every MPC reference gets five columns; [mpc_same] below says when the number survives *)
Theorem C14_mpc : forall n ref, 0 <= n -> names_ref $"MPC" n ref ->
  exists p m ref', packRef ref = Ok p /\ length p = 5%nat /\ unpackRef p = Ok ref' /\ names_ref $"MPC" m ref' /\
    (m = n <-> (n < 110000 \/ 200000 <= n < 110000 + 62 ^ 4)).
Proof.
  intros n ref N R. destruct (c14_mpc n ref N R) as (p & r & A & B & C & D).
  exists p, (mpc_back n), r. pose proof (mpc_back_id n N). tauto.
Qed.
Theorem C14_mps : forall n ref, 0 <= n -> names_ref $"MPS" n ref ->
  exists p m ref', packRef ref = Ok p /\ length p = 5%nat /\ unpackRef p = Ok ref' /\ names_ref $"MPS" m ref' /\
    (m = n <-> (n < 259999 \/ 260000 <= n < 260000 + 62 ^ 4)).
Proof.
  intros n ref N R. destruct (c14_mps n ref N R) as (p & r & A & B & C & D).
  exists p, (mps_back n), r. pose proof (mps_back_id n N). tauto.
Qed.
(** reading a packed reference and writing it again *)
Theorem C14_unpack_pack : forall p, packed_ref p = true ->
  exists ref, unpackRef p = Ok ref /\ (packRef ref = Ok p <-> ref_lossy p = false).
Proof. exact c14_back. Qed.
(** false claim: different references have different packed forms *)
Theorem C14_collision_refuted : packRef $"MPC 123456" = Ok $"@3456" /\ packRef $"MPC 103456" = Ok $"@3456" /\
  packRef $"MPS 259999" = Ok $"~zzzz" /\ unpackRef $"~zzzz" = Ok $"MPS  15036335".
Proof. vm_compute. auto. Qed.
Example C14_ex : names_ref $"MPC" 99999 $"MPC 99999" /\ packRef $"MPC 99999" = Ok $"99999" /\ packRef $"MPS  12345" = Ok $"b2345" /\
  unpackRef $"b2345" = Ok $"MPS  12345" /\ packed_ref $"#0NPa0" = false /\ packed_ref $"#zzzz" = true /\ ref_lossy $"#zzzz" = false /\ ref_lossy $"#0001" = true.
Proof. split. - exists $" ". repeat split. discriminate. - vm_compute. auto 10. Qed.

(** * C15 *)
Theorem C15_packSigned : forall sg a u b, is_sign sg = true -> number_text u -> packSigned (sg :: spaces a ++ u ++ spaces b) = Ok (sg :: u).
Proof. exact c15_pack. Qed.
Theorem C15_packSigned_blank : forall a u b, number_text u -> packSigned (" "%char :: spaces a ++ u ++ spaces b) = Ok u.
Proof. exact c15_pack_blank. Qed.
(** unPackSigned: sign, blanks, number, blanks; decimal point in column D; width L if the number fits; re-readable *)
Theorem C15_unPackSigned : forall sg u L D, is_sign sg = true -> number_text u -> 1 <= D ->
  exists a b, unPackSigned (sg :: u) L D = Ok (sg :: spaces a ++ u ++ spaces b) /\
    packSigned (sg :: spaces a ++ u ++ spaces b) = Ok (sg :: u) /\
    (wid (before_point u) + 2 <= D -> Z.of_nat a + wid (before_point u) + 2 = D) /\
    (wid (before_point u) + 2 <= D -> D - 1 + wid u - wid (before_point u) <= L -> wid (sg :: spaces a ++ u ++ spaces b) = L).
Proof. exact c15_unpack. Qed.
(** a missing sign is a plus *)
Theorem C15_unPackSigned_plus : forall c u L D, isdig c = true -> unPackSigned (c :: u) L D = unPackSigned ("+"%char :: c :: u) L D.
Proof. exact c15_unpack_nosign. Qed.
Example C15_ex : unPackSigned $"+32.3" 11 6 = Ok $"+  32.3    " /\ packSigned $"+  32.3    " = Ok $"+32.3" /\
  unPackSigned $"1.5" 8 3 = Ok $"+1.5    " /\ number_text $"32.3".
Proof. split; [|split; [|split]]; try (vm_compute; reflexivity). repeat split; vm_compute; auto. discriminate. Qed.

(** * C16 *)
Theorem C16_left_right_centre : forall s l j dpos, j = $"L" \/ j = $"R" \/ j = $"C" ->
  exists a b, applyPaddingAndJustification s l j dpos = Ok (spaces a ++ s ++ spaces b, Z.max l (wid s), dpos) /\
    (j = $"L" -> a = 0%nat) /\ (j = $"R" -> b = 0%nat) /\
    (j = $"C" -> Z.of_nat a <= Z.of_nat b <= Z.of_nat a + 1) /\ wid (spaces a ++ s ++ spaces b) = Z.max l (wid s).
Proof. exact c16_LRC. Qed.
(** decimal alignment: the point (or the column after an integer) is column d, which only grows; the width only grows *)
Theorem C16_decimal : forall s l dpos r w d, applyPaddingAndJustification s l $"D" dpos = Ok (r, w, d) ->
  0 <= dpos /\ (points s <= 1)%nat /\
  exists a b, r = spaces a ++ s ++ spaces b /\ w = wid r /\
    d = Z.max dpos (wid (before_point s) + 1) /\
    Z.of_nat a + wid (before_point s) + 1 = d /\
    w = Z.max l (d - 1 + wid s - wid (before_point s)).
Proof. exact just_D. Qed.
Theorem C16_decimal_accepts : forall s l dpos, 0 <= dpos -> (points s <= 1)%nat ->
  exists r w d, applyPaddingAndJustification s l $"D" dpos = Ok (r, w, d).
Proof. exact just_D_ok. Qed.
Theorem C16_decimal_rejects : forall s l dpos, dpos < 0 \/ (2 <= points s)%nat -> applyPaddingAndJustification s l $"D" dpos = Err RuntimeError.
Proof. exact just_D_err. Qed.
Theorem C16_bad_code : forall s l j dpos, j <> $"L" -> j <> $"R" -> j <> $"C" -> j <> $"D" ->
  applyPaddingAndJustification s l j dpos = Err RuntimeError.
Proof. exact c16_bad. Qed.
(** false claim (comment in the code): the second pass, with the width and position reached by the first, never widens *)
Theorem C16_second_pass_widens_refuted :
  let d := $"D" in
  applyPaddingAndJustification $"1.23456789" 5 d 3 = Ok ($" 1.23456789", 11, 3) /\
  applyPaddingAndJustification $"123.4" 11 d 3 = Ok ($"123.4      ", 11, 4) /\
  applyPaddingAndJustification $"1.23456789" 11 d 4 = Ok ($"  1.23456789", 12, 4).
Proof. vm_compute. auto. Qed.
Example C16_ex : applyPaddingAndJustification $"ab" 5 $"C" 0 = Ok ($" ab  ", 5, 0) /\
  applyPaddingAndJustification $"12." 8 $"D" 4 = Ok ($" 12.    ", 8, 4) /\
  applyPaddingAndJustification $"1.2.3" 8 $"D" 4 = Err RuntimeError.
Proof. vm_compute. auto. Qed.
Print Assumptions C01_word.
Print Assumptions C01_unradix_radix.
Print Assumptions C01_unradix_radix_small.
Print Assumptions C01_radix_unradix.
Print Assumptions C01_malformed.
Print Assumptions C02_round_trip.
Print Assumptions C02_columns.
Print Assumptions C02_numeral.
Print Assumptions C02_reject.
Print Assumptions C02_injective.
Print Assumptions C03_round_trip.
Print Assumptions C03_columns.
Print Assumptions C03_reject.
Print Assumptions C03_future_centuries_refuted.
Print Assumptions C04_round_trip.
Print Assumptions C04_reject.
Print Assumptions C04_other_years_refuted.
Print Assumptions C04_letter.
Print Assumptions C05_round_trip.
Print Assumptions C06_number.
Print Assumptions C06_number_fragment.
Print Assumptions C06_provisional.
Print Assumptions C06_A_with_number.
Print Assumptions C06_provisional_fragment.
Print Assumptions C06_columns.
Print Assumptions C06_fragment_columns.
Print Assumptions C06_number_columns.
Print Assumptions C06_reject_number.
Print Assumptions C06_reject_provisional.
Print Assumptions C06_reject_fragment.
Print Assumptions C06_interstellar_refuted.
Print Assumptions C06_accepted_pairs_refuted.
Print Assumptions C07_number.
Print Assumptions C07_provisional.
Print Assumptions C07_columns.
Print Assumptions C07_number_columns.
Print Assumptions C07_reject_number.
Print Assumptions C07_reject_provisional.
Print Assumptions C07_asteroid_satellites.
Print Assumptions C08_pack.
Print Assumptions C08_unpack.
Print Assumptions C08_ambiguous.
Print Assumptions C08_eight_refuted.
Print Assumptions C08_reject.
Print Assumptions C09_twelve_columns.
Print Assumptions C10_accept.
Print Assumptions C10_reject.
Print Assumptions C10_join.
Print Assumptions C11_only_runtime_error.
Print Assumptions C11_nonempty.
Print Assumptions C12_unpack_pack.
Print Assumptions C13_pack_unpack.
Print Assumptions C13_domain.
Print Assumptions C13_reject.
Print Assumptions C13_injective.
Print Assumptions C13_unpack_pack.
Print Assumptions C13_above_93.
Print Assumptions C13_malformed.
Print Assumptions C14_mpc.
Print Assumptions C14_mps.
Print Assumptions C14_unpack_pack.
Print Assumptions C14_collision_refuted.
Print Assumptions C15_packSigned.
Print Assumptions C15_packSigned_blank.
Print Assumptions C15_unPackSigned.
Print Assumptions C15_unPackSigned_plus.
Print Assumptions C16_left_right_centre.
Print Assumptions C16_decimal.
Print Assumptions C16_decimal_accepts.
Print Assumptions C16_decimal_rejects.
Print Assumptions C16_bad_code.
Print Assumptions C16_second_pass_widens_refuted.
