(** Lemmas about ValueSpec, part 10: where the observer is. *)
From Verif Require Import PyStrProofs PackUtil Codes JsonProofs2 Back80Proofs2 Back80Proofs6.
From Verif Require Import Mpc80 Mpc80Spec Mpc80Proofs1 Mpc80Proofs4 DocSpec ValidSpec RecordSpec.
From Verif Require Import IdSpec IdProofs3 IdProofs4 IdProofs5 ValueSpec XsdFiles ValueProofs1 ValueProofs2 ValueProofs3 ValueProofs8 ValueProofs9.
From Verif Require RecordProofs1.
From Verif Require Import PropsDoc.
Local Open Scope nat_scope.

Definition w14_pattern : str := $"[+\-]?[0123456789\.]{1,13}".
Lemma w14_read : pattern w14_pattern = Some (PSeq sign_pat (PSeq (PRep (PSet false (map (fun x => (x, x)) ["0"; "1"; "2"; "3"; "4"; "5"; "6"; "7"; "8"; "9"; "."]%char)) 1 (Some 13)) PEps)).
Proof. vm_compute. reflexivity. Qed.
Lemma w14_shape s q : decimal_value s q -> length s <= 13 -> matches w14_pattern s.
Proof.
  intros D L. rewrite (matches_lang _ _ s w14_read). apply decimal_numeral in D as (sg & w & a & b & -> & I & M & _).
  destruct (numeral_chars _ _ _ M) as [C N]. exists sg, w. split; [reflexivity|]. split; [now apply sign_lang|].
  apply (proj2 (lang_end _ _)), lang_rep_set. rewrite (forallb_eq _ _ w r_body). split; [exact C|]. rewrite app_length in L. split; [|lia].
  destruct w; [now elim N|cbn; lia].
Qed.
Lemma pos_type F s : reads_decimals F -> strip s = s -> length s <= 13 -> (simple F G $"DecimalTypeW14" s <-> exists q, plain_number s q).
Proof.
  intros R E L. rewrite (number_type F R "DecimalTypeW14" [[($"xsd:pattern", w14_pattern)]; [($"xsd:pattern", dec_pattern)]] s ltac:(vm_compute; reflexivity) E). split.
  - intros (q & D & H). apply forall_2 in H as (_ & H). apply (proj1 (num_pattern _ _ _)), (proj1 (dec_shape s q D)) in H. exists q. split; [exact D|exact H].
  - intros (q & D & P). exists q. split; [exact D|]. apply forall_2. split; apply num_pattern; [now apply (w14_shape s q)|now apply (dec_shape s q)].
Qed.
Lemma sys_type F s : reads_texts F -> In s [$"WGS84"; $"ICRF_AU"; $"ICRF_KM"] -> simple F G $"SysType" s.
Proof.
  intros R I. apply (enum_type F R "SysType" [$"WGS84"; $"ITRF"; $"IAU"; $"ICRF_AU"; $"ICRF_KM"]); [vm_compute; reflexivity|discriminate|].
  destruct I as [<-|[<-|[<-|[]]]]; [now left|do 3 right; now left|do 4 right; now left].
Qed.
Lemma lit_399 : decimal_value $"399" 399. 
Proof. exists [], $"399", []. split; [left; split; reflexivity|]. split; [now left|]. split; [reflexivity|]. split; [discriminate|]. vm_compute. reflexivity. Qed.
Lemma lit_p9 : decimal_value $"+1000000000" 1000000000.
Proof. exists $"+", $"1000000000", []. split; [left; split; reflexivity|]. split; [right; now left|]. split; [reflexivity|]. split; [discriminate|]. vm_compute. reflexivity. Qed.
Lemma lit_m9 : decimal_value $"-1000000000" (-1000000000).
Proof. exists $"-", $"1000000000", []. split; [left; split; reflexivity|]. split; [right; right; now left|]. split; [reflexivity|]. split; [discriminate|]. vm_compute. reflexivity. Qed.

Lemma ctr_type F : reads_integers F -> simple F G $"CtrType" $"399".
Proof.
  intro R. apply (chain_of_simple F G $"xsd:integer" 6 $"CtrType" [[($"xsd:enumeration", $"399")]; [($"xsd:maxExclusive", $"+1000000000"); ($"xsd:minExclusive", $"-1000000000")]] _ eq_refl ltac:(vm_compute; reflexivity)).
  apply R. assert (trim $"399" = $"399") as -> by (vm_compute; reflexivity). split; [intros [E|[E|[E|[]]]]; discriminate E|].
  exists 399%Q. split; [exact lit_399|]. apply forall_2. split; [apply (num_enum [$"399"]); exists $"399"; split; [now left|exact lit_399]|].
  split; [intros (p & [E|[E|[]]]); discriminate (f_equal fst E)|]. split; [intros (p & [E|[E|[]]]); discriminate (f_equal fst E)|].
  split; [intros x r [E|[E|[]]]; discriminate (f_equal fst E)|]. split; [intros x r [E|[E|[]]]; discriminate (f_equal fst E)|].
  split; intros x r [E|[E|[]]] D; try discriminate (f_equal fst E); apply (f_equal snd) in E; cbn [snd] in E; subst x.
  - rewrite (decimal_fun _ _ _ D lit_m9). reflexivity.
  - rewrite (decimal_fun _ _ _ D lit_p9). reflexivity.
Qed.

Section Place.
  Variable F : derivation -> str -> Prop.
  Hypothesis RT : reads_texts F.
  Hypothesis RD : reads_decimals F.
  Hypothesis RI : reads_integers F.
  Variable d : item.
  Hypothesis OT : forall x, In x other_fields -> text_of d x = [].
  Let T := text_of d.
  Lemma lit_other (x : string) : smem $x other_fields = true -> given T $x = false.
  Proof. intro H. apply given_none, OT. now apply RecordProofs1.smem_iff. Qed.
  Lemma location_is : location (given T) = (negb (given T $"sys") && negb (given T $"ctr") && negb (given T $"pos1") && negb (given T $"pos2") && negb (given T $"pos3")) ||
    given T $"sys" && given T $"ctr" && given T $"pos1" && given T $"pos2" && given T $"pos3".
  Proof.
    unfold location, group, none, every, g. cbn [app forallb]. unfold g.
    rewrite (lit_other "vel1"), (lit_other "vel2"), (lit_other "vel3"), (lit_other "posCov11"), (lit_other "posCov12"), (lit_other "posCov13"), (lit_other "posCov22"), (lit_other "posCov23"), (lit_other "posCov33") by (vm_compute; reflexivity). cbn [negb andb]. rewrite !andb_true_r, !andb_assoc. reflexivity.
  Qed.
  Lemma no_place : (forall x, In x place_fields -> T x = []) -> place_fine F d.
  Proof.
    intro H. assert (forall x, In x place_fields -> given T x = false) as N by (intros x I; now apply given_none, H).
    assert (forall x, smem $x place_fields = true -> given T $x = false) as Nl by (intros x I; apply N; now apply RecordProofs1.smem_iff).
    split; [fold T; rewrite location_is, !Nl by (vm_compute; reflexivity); reflexivity|].
    intros x I Gx. fold T in Gx. rewrite (N x I) in Gx. discriminate Gx.
  Qed.
  Lemma a_place sy x y z : T $"sys" = sy -> In sy [$"WGS84"; $"ICRF_AU"; $"ICRF_KM"] -> T $"ctr" = $"399" ->
    T $"pos1" = x -> T $"pos2" = y -> T $"pos3" = z -> length x <= 13 -> length y <= 13 -> length z <= 13 ->
    (place_fine F d <-> forall w, In w [x; y; z] -> exists q, plain_number (strip w) q).
  Proof.
    intros E1 I1 E2 X Y Z LX LY LZ.
    assert (given T $"sys" = true) as G1 by (unfold given; rewrite E1; destruct I1 as [<-|[<-|[<-|[]]]]; reflexivity).
    assert (given T $"ctr" = true) as G2 by (unfold given; rewrite E2; reflexivity).
    assert (type_name G $"sys" = $"SysType" /\ type_name G $"ctr" = $"CtrType" /\ type_name G $"pos1" = $"DecimalTypeW14" /\ type_name G $"pos2" = $"DecimalTypeW14" /\ type_name G $"pos3" = $"DecimalTypeW14") as (Y1 & Y2 & Y3 & Y4 & Y5) by (vm_compute; repeat split).
    assert (forall w, length w <= 13 -> (simple F G $"DecimalTypeW14" (strip w) <-> exists q, plain_number (strip w) q)) as PT.
    { intros w L. apply (pos_type F (strip w) RD (strip_idem _)). pose proof (strip_len w). lia. }
    unfold place_fine. fold T. rewrite location_is, G1, G2. cbn [negb andb orb]. split.
    - intros [LC A]. apply andb_prop in LC as [LC L3]. apply andb_prop in LC as [L1 L2].
      assert (forall k : string, smem $k place_fields = true -> given T $k = true -> simple F G (type_name G $k) (strip (T $k))) as A' by (intros k I; apply A; now apply RecordProofs1.smem_iff).
      intros w [<-|[<-|[<-|[]]]]; apply PT; try assumption; [rewrite <- X, <- Y3|rewrite <- Y, <- Y4|rewrite <- Z, <- Y5]; apply A'; try assumption; vm_compute; reflexivity.
    - intro A. assert (forall k w, T k = w -> In w [x; y; z] -> given T k = true) as GV.
      { intros k w E I. destruct (A w I) as (q & D & _). unfold given. rewrite E. destruct (strip w); [|reflexivity]. exfalso.
        destruct D as (sg & a & b & [[E0 ->]|E0] & _ & _ & N & _).
        - apply N. symmetry in E0. apply app_eq_nil in E0 as [_ ->]. reflexivity.
        - destruct sg; [|discriminate E0]. destruct a; discriminate E0. }
      rewrite (GV _ _ X), (GV _ _ Y), (GV _ _ Z) by (cbn [In]; auto). split; [reflexivity|].
      intros k I Gk. destruct I as [<-|[<-|[<-|[<-|[<-|[]]]]]].
      + rewrite Y1, E1. assert (strip sy = sy) as -> by (destruct I1 as [<-|[<-|[<-|[]]]]; vm_compute; reflexivity). now apply sys_type.
      + rewrite Y2, E2. assert (strip $"399" = $"399") as -> by (vm_compute; reflexivity). now apply ctr_type.
      + rewrite Y3, X. apply PT; [exact LX|]. apply A. now left.
      + rewrite Y4, Y. apply PT; [exact LY|]. apply A. right; now left.
      + rewrite Y5, Z. apply PT; [exact LZ|]. apply A. right; right; now left.
  Qed.
End Place.
