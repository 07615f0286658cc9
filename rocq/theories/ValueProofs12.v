(** Lemmas about ValueSpec, part 12: radar times. *)
From Verif Require Import PyStrProofs PyFloat PyFloatProofs SexVals SexSpec SexProofs1 SexProofs4 SexProofs13 SexProofs14 SexProofs15 SexProofs16 SexProofs18.
From Verif Require Import XsdPattern XsdFiles IdSpec ValueSpec ValueProofs5.
Local Open Scope Z_scope.

Lemma radar_time y m d k N t p : calendar y m d -> (1 <= k <= 6)%nat -> 0 <= N < 10 ^ Z.of_nat k -> checkDate (date_text y m d k N) true = Ok (t, p) ->
  exists sec, t = iso_time y m d sec [] /\ 0 <= sec < 86400.
Proof.
  intros C K H E. destruct (radar_only y m d k N _ C K H E) as (s & S1 & S2).
  set (n := N * 10 ^ (6 - Z.of_nat k)). set (R := (864 * n + 5000) / 10000).
  assert (0 <= R < 86400) as HR.
  { unfold R, n. clear - K H S1 S2. nat_upto k; try lia;
    match type of H with context [10 ^ Z.of_nat ?a] =>
     let v := eval vm_compute in (10 ^ Z.of_nat a) in change (10 ^ Z.of_nat a) with v in *;
     let v := eval vm_compute in (10 ^ (6 - Z.of_nat a)) in change (10 ^ (6 - Z.of_nat a)) with v in * end; lia. }
  unfold checkDate in E. rewrite (sexdate_fwd y m d k N C K H true) in E. fold n in E. cbv iota in E. fold R in E.
  rewrite add_us_same in E by lia. cbn [rbind app] in E. rewrite iso_text_day, Z.div_mul in E by lia.
  destruct (fltb _ _); [discriminate E|]. destruct (isoToSexDate _ _) as [x|]; [|discriminate E]. cbn [rbind] in E. destruct (streqb _ _); [|discriminate E].
  exists R. split; [|exact HR]. injection E as E _. symmetry. exact E.
Qed.
Lemma radar_time_fine F w t p : reads_times F -> length w = 17%nat -> checkDate w true = Ok (t, p) -> simple F general_xsd $"TimeType" t.
Proof.
  intros R L H. destruct (date_only w true _ L H) as (y & m & d & k & N & C & K & HN & ->).
  destruct (radar_time y m d k N t p C K HN H) as (sec & -> & S). apply time_type; auto. cbn. lia.
Qed.
