(** C39: the document made from an 80-column file. *)
From Verif Require Import PyStrProofs AdesMasterTables FileLines.
From Verif Require Import Mpc80 Mpc80Spec DocSpec DocProofs6 PropsMpc80.
Local Open Scope nat_scope.

(** Without header lines the records become the children of the root, in order,
    each with its fields in the order of the table ([row], DocSpec). *)
Theorem C39_headerless T opt rad nosplit ls rs :
  dget $"optical" (allowed T) = Some opt -> dget $"radar" (allowed T) = Some rad ->
  readable ls -> records_of nosplit ls = (rs, None) -> Forall (fun d => header d = false) rs ->
  mpc80coltoxml T nosplit (file ls) = written (rows opt rad rs).
Proof.
  intros HO HR P E F. rewrite file_document, E by auto. exact (plain_document T opt rad HO HR rs (all_records _ _ _ P E) F).
Qed.
(** If the records come in groups, each with headers and then data, and each but the
    last with an element, every group becomes one obsBlock: its headers the
    obsContext ([context]), its data the obsData. *)
Theorem C39_blocks T opt rad nosplit ls gs :
  dget $"optical" (allowed T) = Some opt -> dget $"radar" (allowed T) = Some rad ->
  readable ls -> records_of nosplit ls = (ungroup gs, None) ->
  gs <> [] -> Forall regular gs -> Forall (fun g => rows opt rad (snd g) <> Some []) (removelast gs) ->
  mpc80coltoxml T nosplit (file ls) = written (blocks opt rad gs).
Proof.
  intros HO HR P E N F1 F2. rewrite file_document, E by auto. exact (block_document T opt rad HO HR gs N F1 (all_records _ _ _ P E) F2).
Qed.
(** Every sequence of records that ends with data consists of data and then such groups. *)
Lemma groups_ex rs : rs <> [] -> header (last rs []) = false ->
  exists ds gs, Forall (fun d => header d = false) ds /\ Forall regular gs /\ rs = ds ++ ungroup gs.
Proof.
  induction rs as [|x rs IH]; intros N L; [congruence|].
  destruct (header x) eqn:X.
  - destruct rs as [|y rs]; [cbn [last] in L; congruence|].
    destruct (IH ltac:(discriminate) L) as (ds & gs & F & R & E). destruct ds as [|d ds].
    + destruct gs as [|[hs d0] gs]; [discriminate E|]. exists [], ((x :: hs, d0) :: gs). split; [constructor|]. split.
      * constructor; [|exact (Forall_inv_tail R)]. destruct (Forall_inv R) as (A & B & C & D). split; [discriminate|]. split; [constructor; auto|]. auto.
      * unfold ungroup in *. cbn [flat_map fst snd app] in *. now rewrite E.
    + exists [], (([x], d :: ds) :: gs). split; [constructor|]. split.
      * constructor; auto. split; [discriminate|]. split; [now constructor|]. split; [discriminate|exact F].
      * unfold ungroup in *. cbn [flat_map fst snd app] in *. now rewrite E.
  - destruct rs as [|y rs].
    + exists [x], []. split; [now constructor|]. split; [constructor|reflexivity].
    + destruct (IH ltac:(discriminate) L) as (ds & gs & F & R & E). exists (x :: ds), gs. split; [now constructor|]. split; auto. cbn [app]. now rewrite E.
Qed.
Theorem C39_groups_exist rs : rs <> [] -> header (last rs []) = false ->
  exists ds gs, Forall (fun d => header d = false) ds /\ Forall regular gs /\ rs = ds ++ ungroup gs.
Proof. exact (groups_ex rs). Qed.
(** Some record that lxml or unpackRef refuses: nothing is written at all. *)
Theorem C39_one_bad_record_refuted T opt rad nosplit ls rs d :
  dget $"optical" (allowed T) = Some opt -> dget $"radar" (allowed T) = Some rad ->
  readable ls -> records_of nosplit ls = (rs, None) -> Forall (fun d => header d = false) rs ->
  In d rs -> row opt rad d = None -> mpc80coltoxml T nosplit (file ls) = NotWritten.
Proof.
  intros HO HR P E F I N. rewrite (C39_headerless T opt rad nosplit ls rs HO HR P E F).
  assert (rows opt rad rs = None) as ->; [|reflexivity]. clear - I N. unfold rows.
  induction rs as [|x rs IH]; [destruct I|]. cbn [together]. destruct I as [->|I]; [now rewrite N|]. destruct (row opt rad x); [|reflexivity]. now rewrite (IH I).
Qed.
(** Headers at the end of the file are lost. *)
Theorem C39_trailing_headers_refuted T opt rad nosplit ls gs hs :
  dget $"optical" (allowed T) = Some opt -> dget $"radar" (allowed T) = Some rad ->
  readable ls -> records_of nosplit ls = (ungroup gs ++ hs, None) ->
  gs <> [] -> Forall regular gs -> Forall (fun g => rows opt rad (snd g) <> Some []) gs ->
  hs <> [] -> Forall (fun h => header h = true) hs ->
  mpc80coltoxml T nosplit (file ls) =
  written (match blocks opt rad gs with
           | Some bs => Some (bs ++ [Elem $"obsBlock" [] [] [Elem $"obsContext" [] [] []]])
           | None => None end).
Proof.
  intros HO HR P E N F1 F2 N2 H. rewrite file_document, E by auto. pose proof (all_records _ _ _ P E) as F. apply Forall_app in F as [F3 F4].
  exact (trailing_headers T opt rad HO HR gs hs N F1 F3 F2 N2 F4 H).
Qed.
(** Headers after records without headers: the blocks end up inside the last record. *)
Theorem C39_nested_blocks_refuted T opt rad nosplit ls ds gs xs x :
  dget $"optical" (allowed T) = Some opt -> dget $"radar" (allowed T) = Some rad ->
  readable ls -> records_of nosplit ls = (ds ++ ungroup gs, None) ->
  Forall (fun d => header d = false) ds -> rows opt rad ds = Some (xs ++ [x]) ->
  gs <> [] -> Forall regular gs -> Forall (fun g => rows opt rad (snd g) <> Some []) (removelast gs) ->
  mpc80coltoxml T nosplit (file ls) =
  written (match blocks opt rad gs with
           | Some bs => Some (xs ++ [Elem (xtag x) (xattrs x) (xtext x) (xkids x ++ bs)])
           | None => None end).
Proof.
  intros HO HR P E HD RD N F1 F2. rewrite file_document, E by auto. pose proof (all_records _ _ _ P E) as F. apply Forall_app in F as [F3 F4].
  exact (nested_blocks T opt rad HO HR ds gs xs x F3 HD RD N F1 F4 F2).
Qed.
(** After a group whose records give no element (gs ends with it) the next headers
    hs1 are lost, their records are put directly under the root, and with the
    header h2 that follows everything is lost. *)
Theorem C39_lost_after_empty_block_refuted T opt rad nosplit ls gs hs1 ds1 h2 more :
  dget $"optical" (allowed T) = Some opt -> dget $"radar" (allowed T) = Some rad ->
  readable ls -> records_of nosplit ls = (ungroup gs ++ hs1 ++ ds1 ++ h2 :: more, None) ->
  gs <> [] -> Forall regular gs -> Forall (fun g => rows opt rad (snd g) <> Some []) (removelast gs) ->
  rows opt rad (snd (last gs ([], []))) = Some [] ->
  hs1 <> [] -> Forall (fun h => header h = true) hs1 -> Forall (fun h => header h = false) ds1 -> rows opt rad ds1 <> Some [] ->
  header h2 = true ->
  mpc80coltoxml T nosplit (file ls) =
  written (match blocks opt rad gs, rows opt rad ds1 with Some bs, Some xs => Some (bs ++ xs) | _, _ => None end).
Proof.
  intros HO HR P E N F1 F2 L N1 H1 H2 NE HH. rewrite file_document, E by auto. pose proof (all_records _ _ _ P E) as F.
  apply Forall_app in F as [F3 F]. apply Forall_app in F as [F4 F]. apply Forall_app in F as [F5 F6].
  exact (lost_after_empty_block T opt rad HO HR gs hs1 ds1 h2 more N F1 F3 F2 L N1 F4 H1 F5 H2 NE HH F6).
Qed.

(** * Examples *)
Definition optical_fields : list str := match dget $"optical" (allowed ades_tables) with Some l => l | None => [] end.
Definition radar_fields : list str := match dget $"radar" (allowed ades_tables) with Some l => l | None => [] end.
Fixpoint shape (x : xml) : str :=
  match x with Elem t _ v ks => t ++ (match v with [] => [] | _ => $"=" ++ v end) ++ (match ks with [] => [] | _ => $"(" ++ concat (map (fun k => shape k ++ $" ") ks) ++ $")" end) end.
Definition file_shape (ls : list str) : str := match mpc80coltoxml ades_tables false (file ls) with Written x => shape x | NotWritten => $"NotWritten" | Raised _ => $"Raised" end.
Definition ex_x : str := $"     K17A00A  x2017 01 01.12345 01 02 03.45 +01 02 03.4          18.5 V      I41".
Definition ex_ref : str := $"     K17A00A  C2017 01 01.12345 01 02 03.45 +01 02 03.4          18.5 V 1abcdI41".
Definition ex_tilde : str := $"     K17A00A  C2017 01 01.12345 01 02 03.45 +01 02 03.4          18.5 V ~ab-dI41".
Definition ex_cod : str := $"COD I41".
Definition ex_headers : list str := [ex_cod; $"OBS A. Bee,C. Dee"; $"COD 703"; $"COM one"; $"CON Bee, Here, There"; $"COM two"; $"NET Gaia"].
Definition recs (ls : list str) : list item := fst (records_of false ls).
Example C39_example_headerless :
  dget $"optical" (allowed ades_tables) = Some optical_fields /\ dget $"radar" (allowed ades_tables) = Some radar_fields /\
  records_of false [ex_opt; ex_R; ex_r] = (recs [ex_opt; ex_R; ex_r], None) /\
  forallb (fun d => negb (header d)) (recs [ex_opt; ex_R; ex_r]) = true /\
  file_shape [ex_opt; ex_x; ex_R; ex_r] =
  $"ades(optical(provID=2017 AA mode=CCD stn=I41 obsTime=2017-01-01T02:57:46.080Z ra=15.51437 dec=1.03428 astCat=UNK mag=18.5 band=V subFmt=M92 precTime=10 precRA=0.01 precDec=0.1 ) radar(permID=433 trx=251 rcv=251 obsTime=2017-01-01T12:00:00Z delay=001.2345600000 rmsDelay=000000001.2000 com=0 frq=02380.0 ) radar(permID=433 trx=251 rcv=251 obsTime=2017-01-01T12:00:00Z doppler=+0000012345.600 rmsDoppler=00000000012.34 com=0 frq=02380.0 ) )".
Proof. do 4 (split; [vm_compute; reflexivity|]). vm_compute. reflexivity. Qed.
Definition ex_groups : list group :=
  [(recs ex_headers, recs [ex_opt]); (recs [ex_cod; $"COM x"], recs [ex_S; ex_s])].
Example C39_example_blocks :
  let ls := ex_headers ++ [ex_opt; ex_cod; $"COM x"; ex_S; ex_s] in
  records_of false ls = (ungroup ex_groups, None) /\ Forall regular ex_groups /\
  file_shape ls =
  $"ades(obsBlock(obsContext(observatory(mpcCode=I41 ) observers(name=A. Bee name=C. Dee ) submitter(name=Bee institution= Here, There ) comment(line=one line=two ) ) obsData(optical(provID=2017 AA mode=CCD stn=I41 obsTime=2017-01-01T02:57:46.080Z ra=15.51437 dec=1.03428 astCat=UNK mag=18.5 band=V subFmt=M92 precTime=10 precRA=0.01 precDec=0.1 ) ) ) obsBlock(obsContext(observatory(mpcCode=I41 ) comment(line=x ) ) obsData(optical(provID=2017 AA mode=CCD stn=250 sys=ICRF_KM ctr=399 pos1=+1234.5678 pos2=-2345.6789 pos3=+3456.7890 obsTime=2017-01-01T02:57:46.080Z ra=15.51437 dec=1.03428 astCat=UNK mag=18.5 band=V subFmt=M92 precTime=10 precRA=0.01 precDec=0.1 ) ) ) )".
Proof.
  split; [vm_compute; reflexivity|]. split; [|vm_compute; reflexivity].
  assert (forall g : group, (match fst g with [] => false | _ => forallb header (fst g) end &&
            match snd g with [] => false | _ => forallb (fun d => negb (header d)) (snd g) end)%bool = true -> regular g) as K.
  { intros [hs ds] H. apply andb_prop in H as [H1 H2]. unfold regular. cbn [fst snd] in *.
    destruct hs as [|h hs]; [discriminate|]. destruct ds as [|d ds]; [discriminate|]. rewrite forallb_forall in H1, H2.
    repeat split; try discriminate; apply Forall_forall; auto. intros x I. specialize (H2 x I). now apply negb_true_iff in H2. }
  constructor; [apply K; vm_compute; reflexivity|]. constructor; [apply K; vm_compute; reflexivity|constructor].
Qed.
Example C39_example_failures :
  row optical_fields radar_fields (hd [] (recs [ex_ref])) = None /\
  mpc80coltoxml ades_tables false (file [ex_opt; ex_ref; ex_opt]) = NotWritten /\
  mpc80coltoxml ades_tables false (file [ex_opt; ex_tilde; ex_opt]) = NotWritten /\
  (* trailing headers *)
  records_of false [ex_cod; ex_opt; $"COD 703"] = (ungroup [(recs [ex_cod], recs [ex_opt])] ++ recs [$"COD 703"], None) /\
  (* headers after data *)
  option_map (@length xml) (rows optical_fields radar_fields (recs [ex_opt; ex_opt])) = Some 2 /\
  records_of false [ex_opt; ex_opt; ex_cod; ex_opt] = (recs [ex_opt; ex_opt] ++ ungroup [(recs [ex_cod], recs [ex_opt])], None) /\
  (* a block with nothing but an x line *)
  rows optical_fields radar_fields (recs [ex_x]) = Some [] /\
  records_of false [ex_cod; ex_x; $"COD 703"; ex_opt; ex_cod; ex_opt; ex_opt] =
    (ungroup [(recs [ex_cod], recs [ex_x])] ++ recs [$"COD 703"] ++ recs [ex_opt] ++ recs [ex_cod; ex_opt; ex_opt], None) /\
  match mpc80coltoxml ades_tables false (file [ex_cod; ex_x; $"COD 703"; ex_opt; ex_cod; ex_opt; ex_opt]) with
  | Written x => map xtag (xkids x) = [$"obsBlock"; $"optical"]
  | _ => False
  end.
Proof. do 8 (split; [vm_compute; reflexivity|]). vm_compute. reflexivity. Qed.

Print Assumptions C39_headerless.
Print Assumptions C39_blocks.
Print Assumptions C39_groups_exist.
Print Assumptions C39_one_bad_record_refuted.
Print Assumptions C39_trailing_headers_refuted.
Print Assumptions C39_nested_blocks_refuted.
Print Assumptions C39_lost_after_empty_block_refuted.
