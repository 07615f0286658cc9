(** Dates: ISO texts are read. *)
From Verif Require Import PyStrProofs PyReInv PackProofs2 PsvLines RoundProofs1 PyFloat PyFloatProofs SexVals SexSpec SexProofs1 SexProofs2 SexProofs3 SexProofs4 SexProofs5 SexProofs6 SexProofs7 SexProofs12 SexProofs13.
From Coq Require Import Lqa.
Open Scope Z_scope.

Definition k02 : cls := Cl false [("0", "2")]%char.
Definition iso_fields (y m d h mi s : Z) (tl : str) : str :=
  dec y ++ $"-" ++ num 2 m ++ $"-" ++ num 2 d ++ $"T" ++ num 2 h ++ $":" ++ num 2 mi ++ $":" ++ num 2 s ++ tl.
Definition fields_of (g : caps) (whole : str) (y m d h mi s : Z) (f : str) : Prop :=
  gs g 1 = whole /\ gs g 2 = dec y /\ gs g 3 = num 2 m /\ gs g 4 = num 2 d /\ gs g 5 = num 2 h /\ gs g 6 = num 2 mi /\ gs g 7 = num 2 s /\ gs g 8 = f.
Ltac goI R Y M D H A B t :=
  let ps := eval cbn [app] in (Y ++ ch "-"%char :: M ++ ch "-"%char :: D ++ ch "T"%char :: H ++ ch ":"%char :: A ++ ch ":"%char :: B ++ t ++ [ch "Z"%char]) in
  let E := fresh in sym_yes E R ps; eexists; split; [exact E|unfold fields_of; repeat split; reflexivity].
Ltac noI R Y M D H A B t :=
  let ps := eval cbn [app] in (Y ++ ch "-"%char :: M ++ ch "-"%char :: D ++ ch "T"%char :: H ++ ch ":"%char :: A ++ ch ":"%char :: B ++ t ++ [ch "Z"%char]) in
  let E := fresh in sym_none E R ps; exact E.
Ltac allI tac t :=
  intros Hy Hm Hd Hh Hmi Hs; unfold fields_of, iso_fields;
  let a := fresh "a" in let b := fresh "b" in let c := fresh "c" in let e := fresh "e" in
  destruct (year_shape _ Hy) as (a & b & c & e & -> & ? & ? & ? & HY);
  let m1 := fresh "m" in let m2 := fresh "m" in let HM := fresh in
  destruct (month_shape _ Hm) as (m1 & m2 & -> & HM);
  let d1 := fresh "d" in let d2 := fresh "d" in let HD := fresh in
  destruct (day_shape _ Hd) as (d1 & d2 & -> & HD);
  let h1 := fresh "h" in let h2 := fresh "h" in let HH := fresh in
  destruct (hour_shape _ Hh) as (h1 & h2 & -> & HH);
  let i1 := fresh "i" in let i2 := fresh "i" in
  destruct (min_shape _ Hmi) as (i1 & i2 & -> & ? & ?);
  let s1 := fresh "s" in let s2 := fresh "s" in
  destruct (min_shape _ Hs) as (s1 & s2 & -> & ? & ?);
  let Ha := fresh in
  assert (Ha : isdig a = true) by (destruct HY as [HY|[-> _]]; [revert a HY; apply impl_ascii; vm_compute; reflexivity|reflexivity]);
  clear HY;
  assert (HM' : m1 = "0"%char /\ incls k19 m2 = true \/ m1 = "1"%char /\ incls k02 m2 = true)
    by (destruct HM as [HM|[-> [->|[->| ->]]]]; [now left|right; split; reflexivity..]);
  clear HM;
  let go := fun M D H => tac [dg a; dg b; dg c; dg e] M D H [pc k05 i1; dg i2] [pc k05 s1; dg s2] t in
  let goD := fun M H => (destruct HD as [[-> ?]|[[? ?]|[[-> ->]|[-> ->]]]];
     [go M [ch "0"%char; pc k19 d2] H|go M [pc k12 d1; dg d2] H|go M [ch "3"%char; ch "0"%char] H|go M [ch "3"%char; ch "1"%char] H]) in
  let goM := fun H => (destruct HM' as [[-> ?]|[-> ?]]; [goD [ch "0"%char; pc k19 m2] H|goD [ch "1"%char; pc k02 m2] H]) in
  destruct HH as [[? ?]|[-> ?]]; [goM [pc k01 h1; dg h2]|goM [ch "2"%char; pc k03 h2]].

Lemma isof_match3 y m d h mi s u v w : isdig u = true -> isdig v = true -> isdig w = true ->
  1600 <= y <= 9999 -> 1 <= m <= 12 -> 1 <= d <= 31 -> 0 <= h < 24 -> 0 <= mi < 60 -> 0 <= s < 60 ->
  exists g, re_match re_isof (iso_fields y m d h mi s ($"." ++ [u; v; w] ++ $"Z")) = Some g /\
    fields_of g (iso_fields y m d h mi s ($"." ++ [u; v; w] ++ $"Z")) y m d h mi s [u; v; w].
Proof. intros Hu Hv Hw. allI ltac:(goI re_isof) [ch "."%char; dg u; dg v; dg w]. Qed.
Lemma isof_match4 y m d h mi s u v w z : isdig u = true -> isdig v = true -> isdig w = true -> isdig z = true ->
  1600 <= y <= 9999 -> 1 <= m <= 12 -> 1 <= d <= 31 -> 0 <= h < 24 -> 0 <= mi < 60 -> 0 <= s < 60 ->
  exists g, re_match re_isof (iso_fields y m d h mi s ($"." ++ [u; v; w; z] ++ $"Z")) = Some g /\
    fields_of g (iso_fields y m d h mi s ($"." ++ [u; v; w; z] ++ $"Z")) y m d h mi s [u; v; w; z].
Proof. intros Hu Hv Hw Hz. allI ltac:(goI re_isof) [ch "."%char; dg u; dg v; dg w; dg z]. Qed.
Lemma iso_match0 y m d h mi s :
  1600 <= y <= 9999 -> 1 <= m <= 12 -> 1 <= d <= 31 -> 0 <= h < 24 -> 0 <= mi < 60 -> 0 <= s < 60 ->
  exists g, re_match re_iso (iso_fields y m d h mi s $"Z") = Some g /\ fields_of g (iso_fields y m d h mi s $"Z") y m d h mi s [].
Proof. allI ltac:(goI re_iso) (@nil piece). Qed.
Lemma isof_none y m d h mi s :
  1600 <= y <= 9999 -> 1 <= m <= 12 -> 1 <= d <= 31 -> 0 <= h < 24 -> 0 <= mi < 60 -> 0 <= s < 60 ->
  re_match re_isof (iso_fields y m d h mi s $"Z") = None.
Proof. allI ltac:(noI re_isof) (@nil piece). Qed.
