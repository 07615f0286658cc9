(** Lemmas about PackUtil.v, part 6: unpackPackedID on arbitrary strings. *)
From Verif Require Export PyReInv PackProofs5.

(** Ok, or the error the callers expect *)
Definition safe {A} (r : res A) : Prop := match r with Ok _ => True | Err e => e = RuntimeError end.
Lemma safe_bind {A B} (x : res A) (f : A -> res B) : safe x -> (forall a, safe (f a)) -> safe (rbind x f).
Proof. destruct x; cbn; auto. Qed.

Lemma k_digit_dig c : incls (Cl false [("0", "9")]%char) c = true -> isdig c = true.
Proof. revert c. apply impl_ascii. vm_compute. reflexivity. Qed.
Lemma k_an_dig62 c : incls (Cl false [("0", "9"); ("A", "Z"); ("a", "z")]%char) c = true -> exists d, digit62 c = Some d.
Proof. apply an_digit62. Qed.
Lemma k_an2_dig62 c : incls (Cl false [("a", "z"); ("A", "Z"); ("0", "9")]%char) c = true -> exists d, digit62 c = Some d.
Proof.
  intro H. apply an_digit62. revert c H. apply impl_ascii. vm_compute. reflexivity.
Qed.
Lemma k_ik_dig62 c : incls (Cl false [("I", "K")]%char) c = true -> exists d, digit62 c = Some d.
Proof. intro H. apply ik_digit62 in H as (u & H & _). eauto. Qed.
Lemma k_pz_dig62 c : incls (Cl false [("P", "Z")]%char) c = true -> exists d, digit62 c = Some d.
Proof.
  intro H. apply an_digit62. revert c H. apply impl_ascii. vm_compute. reflexivity.
Qed.
Lemma k_pl_planet c : incls (Cl false [("J", "J"); ("S", "S"); ("U", "U"); ("N", "N")]%char) c = true ->
  exists n, planetName c = Ok n.
Proof.
  intro H. assert (forall q, implb (incls k_pl q) (match planetName q with Ok _ => true | Err _ => false end) = true) as S
      by (apply forall_ascii; vm_compute; reflexivity). specialize (S c). change (Cl _ _) with k_pl in H. rewrite H in S.
  destruct (planetName c); [eauto|discriminate].
Qed.
Ltac classify :=
  repeat match goal with
  | H : incls (Cl false [("0", "9")]%char) ?c = true |- _ => apply k_digit_dig in H
  | H : incls (Cl false [("0", "9"); ("A", "Z"); ("a", "z")]%char) ?c = true |- _ => apply k_an_dig62 in H as [? H]
  | H : incls (Cl false [("a", "z"); ("A", "Z"); ("0", "9")]%char) ?c = true |- _ => apply k_an2_dig62 in H as [? H]
  | H : incls (Cl false [("I", "K")]%char) ?c = true |- _ => apply k_ik_dig62 in H as [? H]
  | H : incls (Cl false [("P", "Z")]%char) ?c = true |- _ => apply k_pz_dig62 in H as [? H]
  end.

Lemma order_index_ok n : exists ol, pyindex order_letters (n mod 25) = Ok ol.
Proof.
  pose proof (Z.mod_pos_bound n 25 ltac:(lia)) as B. set (k := n mod 25) in *.
  unfold pyindex. destruct (Z.ltb_spec k 0); [lia|]. destruct (Z.ltb_spec k 0); [lia|].
  destruct (nth_error order_letters (Z.to_nat k)) eqn:E; [eauto|].
  apply nth_error_None in E. change (length order_letters) with 25%nat in E. lia.
Qed.
Ltac safe_tac :=
  repeat (eval_grp;
    match goal with
    | |- safe (Ok _) => exact I
    | |- safe (Err RuntimeError) => reflexivity
    | |- context [?n =? 0] => destruct (n =? 0)
    | |- context [pyindex order_letters (?n mod 25)] =>
        let ol := fresh "ol" in destruct (order_index_ok n) as [ol ->]
    | |- safe (rbind (if ?b then _ else _) _) => destruct b
    | |- safe (if ?b then _ else _) => destruct b
    end).

Lemma unpack_minor_safe s : safe (unpack_minor s).
Proof.
  unfold unpack_minor. destruct (re_match minorplanetPackedIDRegex s) as [g|] eqn:H; [|exact I].
  unfold minorplanetPackedIDRegex in H. invert_match H; classify; safe_tac.
Qed.
Lemma unpack_comet_safe s st : safe (unpack_comet s st).
Proof.
  unfold unpack_comet. destruct (re_match cometPackedIDRegex s) as [g|] eqn:H; [|exact I].
  destruct st as [[p q] t].
  unfold cometPackedIDRegex in H. invert_match H; classify; safe_tac.
Qed.
Lemma unpack_sat_safe s st : safe (unpack_sat s st).
Proof.
  unfold unpack_sat. destruct (re_match satellitePackedIDRegex s) as [g|] eqn:H; [|exact I].
  destruct st as [[p q] t].
  unfold satellitePackedIDRegex in H. invert_match H; classify;
   repeat match goal with
  | H : incls (Cl false [("J", "J"); ("S", "S"); ("U", "U"); ("N", "N")]%char) ?c = true |- _ => apply k_pl_planet in H as [? H]
  end; safe_tac; repeat match goal with H : planetName ?c = Ok _ |- context [planetName ?c] => rewrite H end; safe_tac.
Qed.
Lemma unpack_safe s : safe (unpackPackedID s).
Proof.
  unfold unpackPackedID. apply safe_bind; [apply unpack_minor_safe|]. intro a.
  apply safe_bind; [apply unpack_comet_safe|]. intro b.
  apply safe_bind; [apply unpack_sat_safe|]. intros [[p q] t].
  destruct (negb (otrue p) && negb (otrue q) && negb (otrue t)); cbn; auto.
Qed.
Lemma unpack_nonempty s p q t : unpackPackedID s = Ok (p, q, t) ->
  exists x, x <> [] /\ (p = Some x \/ q = Some x \/ t = Some x).
Proof.
  unfold unpackPackedID.
  destruct (unpack_minor s) as [a|]; [|discriminate]; cbn [rbind].
  destruct (unpack_comet s a) as [b|]; [|discriminate]; cbn [rbind].
  destruct (unpack_sat s b) as [[[p' q'] t']|]; [|discriminate]; cbn [rbind].
  destruct (negb (otrue p') && negb (otrue q') && negb (otrue t')) eqn:E; [discriminate|].
  intros [= -> -> ->].
  assert (forall o, otrue o = true -> exists x, x <> [] /\ o = Some x) as K.
  { intros [[|c w]|] Ho; try discriminate. eexists; split; [|reflexivity]. discriminate. }
  destruct (otrue p) eqn:Ep; [apply K in Ep as (x & Hx & ->); eauto|].
  destruct (otrue q) eqn:Eq; [apply K in Eq as (x & Hx & ->); eauto|].
  destruct (otrue t) eqn:Et; [apply K in Et as (x & Hx & ->); eauto|]. discriminate.
Qed.
