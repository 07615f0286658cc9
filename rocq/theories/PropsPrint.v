(** C44: what an ADES document is written as by xmltompc80col. *)
From Verif Require Import PyStrProofs XmlToMpc80 AdesMasterTables PsvSpec2 LayoutSpec Print80Spec Print80Proofs1.
From Verif Require PropsMpc80 PropsDoc.
Local Open Scope nat_scope.

(** The lines written are, part by part, those of the records, of the headers of the
    blocks and of their records, and nothing else is written successfully. *)
Theorem C44_document o t ls :
  xmltompc80col_lines ades_tables o t = Ok ls <-> xtag t = $"ades" /\ parts80 o [] (xkids t) ls.
Proof. exact (document_iff o t ls). Qed.
(** When each block has data, the lines of a part do not depend on the others. *)
Theorem C44_parts o t ls : xtag t = $"ades" -> (forall b, In b (xkids t) -> is_tag $"obsBlock" b = true -> block_data_of b <> []) ->
  (xmltompc80col_lines ades_tables o t = Ok ls <-> exists parts, Forall2 (part80 o []) (xkids t) parts /\ ls = concat parts).
Proof.
  intros A N. rewrite C44_document. revert N.
  assert (forall before es ls, (forall b, In b es -> is_tag $"obsBlock" b = true -> block_data_of b <> []) ->
    (parts80 o before es ls <-> exists parts, Forall2 (part80 o []) es parts /\ ls = concat parts)) as K.
  { clear. intros before es. revert before. induction es as [|e es IH]; intros before ls N; cbn [parts80].
    - split; [intros ->; exists []; auto|]. intros (p & F & ->). inversion F. reflexivity.
    - assert (forall l, part80 o before e l <-> part80 o [] e l) as P.
      { intro l. unfold part80. destruct (is_tag $"obsBlock" e) eqn:Q; [|reflexivity]. specialize (N e (or_introl eq_refl) Q). destruct (block_data_of e); [congruence|reflexivity]. }
      split.
      + intros (l & ls' & L & H & ->). apply IH in H as (p & F & ->); [|intros b I; apply N; now right]. exists (l :: p). split; [constructor; [now apply P|exact F]|reflexivity].
      + intros (p & F & ->). inversion F as [|e' l es' p' L F']. subst. exists l, (concat p'). split; [now apply P|]. split; [|reflexivity]. apply IH; [intros b I; apply N; now right|]. eauto. }
  intro N. rewrite (K [] _ ls N). tauto.
Qed.
(** Precisions that are not given count as 1 millionth of a day, 0.001 s and 0.01
    arc seconds, with --lowPrec as 10, 0.01 and 0.1. *)
Theorem C44_precisions o o' d :
  printOpticalLine o d =
  printOpticalLine o' (or_else $"precTime" (o_precTime o) (or_else $"precRA" (o_precRA o) (or_else $"precDec" (o_precDec o) d))).
Proof. exact (precisions o o' d). Qed.
Theorem C44_default_precisions o d :
  printOpticalLine opts_default d = printOpticalLine o (or_else $"precTime" $"1" (or_else $"precRA" $"0.001" (or_else $"precDec" $"0.01" d))) /\
  printOpticalLine opts_lowPrec d = printOpticalLine o (or_else $"precTime" $"10" (or_else $"precRA" $"0.01" (or_else $"precDec" $"0.1" d))).
Proof. split; exact (precisions _ o d). Qed.

(** * What one might expect, but is not so *)
Definition lf (k v : string) : xml := Elem $k [] $v [].
Definition el (k : string) (l : list xml) : xml := Elem $k [] [] l.
Definition ex_optical : xml := el "optical" [lf "permID" "433"; lf "mode" "CCD"; lf "stn" "I41"; lf "obsTime" "2017-01-01T12:00:00Z"; lf "ra" "15.5"; lf "dec" "-1.25"; lf "mag" "18.5"; lf "band" "Vj"; lf "astCat" "Gaia2"].
Definition ex_occultation : xml := el "occultation" [lf "permID" "433"; lf "mode" "OCC"; lf "stn" "275"; lf "obsTime" "2017-01-01T12:00:00Z"; lf "raStar" "15.5"; lf "decStar" "-1.25"; lf "astCat" "Gaia2"].
Definition ex_offset : xml := el "offset" [lf "permID" "433"; lf "mode" "CCD"; lf "stn" "I41"; lf "obsTime" "2017-01-01T12:00:00Z"; lf "obsCenter" "Jupiter"].
Definition ex_radar : xml := el "radar" [lf "permID" "433"; lf "trx" "251"; lf "rcv" "251"; lf "obsTime" "2017-01-01T12:00:00Z"; lf "delay" "12.3456"; lf "rmsDelay" "1.2"; lf "frq" "8560"; lf "ref" "JPLRS"].
Definition ex_context : xml := el "obsContext" [el "observatory" [lf "mpcCode" "I41"]; el "submitter" [lf "name" "A. Bee"; lf "institution" "There"]; el "observers" [lf "name" "A. Bee"; lf "name" "C. Dee"]; el "telescope" [lf "name" "1.0-m"]; el "comment" [lf "line" "one"; lf "line" "two"]].
Definition ex_block (rs : list xml) : xml := el "obsBlock" [ex_context; el "obsData" rs].
Definition ex_lines : list str := [$"00433         C2017 01 01.50000001 02 00.000-01 15 00.00         18.5 VV     I41"].
Definition ex_heading : list str := [$"COD I41"; $"CON A. Bee, There"; $"OBS A. Bee, C. Dee"; $"TEL 1.0-m"; $"COM one"; $"COM two"].
(** An offset record is accepted, but nothing is written for it. *)
Theorem C44_every_record_refuted : exists t, xmltompc80col_lines ades_tables opts_default t = Ok [] /\ xtag t = $"ades" /\ xkids t <> [].
Proof. exists (el "ades" [ex_offset]). split; [vm_compute; reflexivity|]. split; [reflexivity|discriminate]. Qed.
(** The records before a block without records are written again behind its header. *)
Theorem C44_empty_block_refuted : exists t ls hs, xmltompc80col_lines ades_tables opts_default t = Ok (ls ++ hs ++ ls) /\ ls <> [] /\
  exists e b, xkids t = [e; b] /\ xmltompc80col_lines ades_tables opts_default (el "ades" [e]) = Ok ls /\ block_data_of b = [] /\ block_header80 b = hs.
Proof.
  exists (el "ades" [ex_optical; ex_block []]), ex_lines, ex_heading. split; [vm_compute; reflexivity|]. split; [discriminate|].
  exists ex_optical, (ex_block []). split; [reflexivity|]. split; [vm_compute; reflexivity|]. split; [reflexivity|vm_compute; reflexivity].
Qed.
(** At station 244 the offset in right ascension is put behind the digits of the star's
    right ascension: with an offset of 12 the position is 15.512 degrees. *)
Definition ex_244 (delta : string) : xml := el "occultation" [lf "permID" "433"; lf "mode" "OCC"; lf "stn" "244"; lf "obsTime" "2017-01-01T12:00:00Z"; lf "raStar" "15.5"; lf "decStar" "-1.25"; lf "deltaRA" delta; lf "deltaDec" "1"; lf "astCat" "Gaia2"].
Theorem C44_offset_added_refuted :
  xmltompc80col_lines ades_tables opts_default (el "ades" [ex_244 "12"]) =
    Ok [$"00433         E2017 01 01.50000001 02 02.880-01 15 03.60               V     244"] /\
  xmltompc80col_lines ades_tables opts_default (el "ades" [ex_244 "1.2"]) = Err ValueError.
Proof. split; vm_compute; reflexivity. Qed.

(** * Examples *)
Example C44_example :
  xmltompc80col_lines ades_tables opts_default (el "ades" [ex_block [ex_optical]; ex_occultation; ex_offset; ex_radar]) =
  Ok (ex_heading ++ ex_lines ++
      [$"00433         E2017 01 01.50000001 02 00.000-01 15 00.00               V     275";
       $"00433         R2017 01 01.500000   123456                      8560 251 JPLRS251";
       $"00433         r2017 01 01.500000S         12                        251 JPLRS251"]) /\
  xmltompc80col_lines ades_tables {| o_noHeader := true; o_precTime := $"10"; o_precRA := $"0.01"; o_precDec := $"0.1" |} (el "ades" [ex_block [ex_optical]]) =
  Ok [$"00433         C2017 01 01.50000 01 02 00.00 -01 15 00.0          18.5 VV     I41"] /\
  xmltompc80col_lines ades_tables opts_default (el "ades" [ex_block [ex_optical; ex_radar]]) = Err RuntimeError /\
  xmltompc80col_lines ades_tables opts_default (el "ades" [ex_optical; ex_radar; ex_optical]) <> Err RuntimeError /\
  block_data_of (ex_block [ex_optical]) <> [].
Proof.
  split; [vm_compute; reflexivity|]. split; [vm_compute; reflexivity|]. split; [vm_compute; reflexivity|]. split; [vm_compute; discriminate|discriminate].
Qed.

Print Assumptions C44_document.
Print Assumptions C44_parts.
Print Assumptions C44_precisions.
Print Assumptions C44_default_precisions.
Print Assumptions C44_every_record_refuted.
Print Assumptions C44_empty_block_refuted.
Print Assumptions C44_offset_added_refuted.
