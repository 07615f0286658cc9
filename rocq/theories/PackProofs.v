(** Lemmas about PackUtil.v, part 1: alphabet, radix 62, symbolic evaluation tools. *)
From Verif Require Export PackUtil PackSpec PyReProofs.

(** * the alphabet *)
Definition letter (d : Z) : ascii := nth (Z.to_nat d) packLetters "?"%char.
#[global] Arguments letter : simpl never.
Definition k_an : cls := Cl false [("0", "9"); ("A", "Z"); ("a", "z")]%char.

Lemma letter_sweep (P : Z -> ascii -> bool) :
  forallb (fun k => P (Z.of_nat k) (nth k packLetters "?"%char)) (seq 0 62) = true ->
  forall d, 0 <= d < 62 -> P d (letter d) = true.
Proof.
  intros H d Hd. rewrite forallb_forall in H. specialize (H (Z.to_nat d)).
  rewrite Z2Nat.id in H by lia. apply H. apply in_seq. lia.
Qed.
Lemma unpack_letter d : 0 <= d < 62 -> unpackLetter (letter d) = Ok d.
Proof.
  intro H.
  pose proof (letter_sweep (fun d c => match unpackLetter c with Ok x => x =? d | Err _ => false end)) as S.
  specialize (S ltac:(vm_compute; reflexivity) d H). cbn in S.
  destruct (unpackLetter (letter d)); [|discriminate]. f_equal. lia.
Qed.
Lemma letter_digit62 d : 0 <= d < 62 -> digit62 (letter d) = Some d.
Proof.
  intro H.
  pose proof (letter_sweep (fun d c => match digit62 c with Some x => x =? d | None => false end)) as S.
  specialize (S ltac:(vm_compute; reflexivity) d H). cbn in S.
  destruct (digit62 (letter d)); [|discriminate]. f_equal. lia.
Qed.
Lemma letter_an d : 0 <= d < 62 -> incls k_an (letter d) = true.
Proof. apply (letter_sweep (fun _ c => incls k_an c)). vm_compute. reflexivity. Qed.
Lemma index_letter d : 0 <= d < 62 -> pyindex packLetters d = Ok (letter d).
Proof.
  intro H. unfold pyindex. destruct (Z.ltb_spec d 0); [lia|]. destruct (Z.ltb_spec d 0); [lia|].
  rewrite (nth_error_nth' packLetters "?"%char); [reflexivity|].
  change (length packLetters) with 62%nat. lia.
Qed.
Lemma digit62_range c d : digit62 c = Some d -> 0 <= d < 62.
Proof.
  intro H. assert (forall c, (match digit62 c with Some d => (0 <=? d) && (d <? 62) | None => true end) = true) as S
    by (apply forall_ascii; vm_compute; reflexivity).
  specialize (S c). rewrite H in S. lia.
Qed.
Lemma digit62_letter c d : digit62 c = Some d -> c = letter d.
Proof.
  intro H. assert (forall c, (match digit62 c with Some d => ceqb c (letter d) | None => true end) = true) as S
    by (apply forall_ascii; vm_compute; reflexivity).
  specialize (S c). rewrite H in S. now apply ceqb_eq in S.
Qed.
Lemma an_digit62 c : incls k_an c = true -> exists d, digit62 c = Some d.
Proof.
  intro H. assert (forall c, (implb (incls k_an c) match digit62 c with Some d => true | None => false end) = true) as S
    by (apply forall_ascii; vm_compute; reflexivity).
  specialize (S c). rewrite H in S. destruct (digit62 c); [eauto|discriminate].
Qed.
Lemma unpackLetter_digit62 c d : digit62 c = Some d -> unpackLetter c = Ok d.
Proof. intro H. rewrite (digit62_letter c d H). apply unpack_letter. eapply digit62_range; eauto. Qed.
Lemma unpackLetter_none c : digit62 c = None -> unpackLetter c = Err KeyError.
Proof.
  intro H.
  assert (forall c, (match digit62 c, unpackLetter c with None, Err KeyError => true | None, _ => false | _, _ => true end) = true) as S
    by (apply forall_ascii; vm_compute; reflexivity).
  specialize (S c). rewrite H in S. destruct (unpackLetter c) as [|[]]; try discriminate. reflexivity.
Qed.

(** * radix 62 *)
Lemma radix62_4_eq n :
  radix62_4 n = ["~"%char; letter (n / 62 / 62 / 62 mod 62); letter (n / 62 / 62 mod 62);
                 letter (n / 62 mod 62); letter (n mod 62)].
Proof. reflexivity. Qed.
Lemma mod62 n : 0 <= n mod 62 < 62.
Proof. apply Z.mod_pos_bound. lia. Qed.
Lemma val62_digits n :
  val62 (n / 62 / 62 / 62 mod 62) (n / 62 / 62 mod 62) (n / 62 mod 62) (n mod 62) = n mod 62 ^ 4.
Proof.
  unfold val62. change (62 ^ 4) with (62 * (62 * (62 * 62))).
  rewrite (Z.rem_mul_r n 62) by lia. rewrite (Z.rem_mul_r (n / 62) 62) by lia.
  rewrite (Z.rem_mul_r (n / 62 / 62) 62) by lia. lia.
Qed.
Lemma unRadix_digits p w x y z a b c d :
  digit62 w = Some a -> digit62 x = Some b -> digit62 y = Some c -> digit62 z = Some d ->
  unRadix62_4 [p; w; x; y; z] = Ok (val62 a b c d).
Proof.
  intros Ha Hb Hc Hd. unfold unRadix62_4. cbn [chat nth_error rbind].
  rewrite (unpackLetter_digit62 _ _ Ha), (unpackLetter_digit62 _ _ Hb),
    (unpackLetter_digit62 _ _ Hc), (unpackLetter_digit62 _ _ Hd). reflexivity.
Qed.
Lemma unRadix_radix n : unRadix62_4 (radix62_4 n) = Ok (n mod 62 ^ 4).
Proof.
  rewrite radix62_4_eq.
  rewrite (unRadix_digits _ _ _ _ _ _ _ _ _ (letter_digit62 _ (mod62 _)) (letter_digit62 _ (mod62 _))
            (letter_digit62 _ (mod62 _)) (letter_digit62 _ (mod62 _))).
  now rewrite val62_digits.
Qed.
Lemma radix_val62 a b c d : 0 <= a < 62 -> 0 <= b < 62 -> 0 <= c < 62 -> 0 <= d < 62 ->
  radix62_4 (val62 a b c d) = ["~"%char; letter a; letter b; letter c; letter d].
Proof.
  intros. rewrite radix62_4_eq. unfold val62.
  repeat (f_equal; []). 
  assert ((((a * 62 + b) * 62 + c) * 62 + d) / 62 = (a * 62 + b) * 62 + c) as E1 by lia.
  assert (((a * 62 + b) * 62 + c) / 62 = a * 62 + b) as E2 by lia.
  assert ((a * 62 + b) / 62 = a) as E3 by lia.
  rewrite E1, E2, E3. 
  rewrite (Z.mod_small a) by lia.
  replace ((a * 62 + b) mod 62) with b by lia.
  replace (((a * 62 + b) * 62 + c) mod 62) with c by lia.
  replace ((((a * 62 + b) * 62 + c) * 62 + d) mod 62) with d by lia.
  reflexivity.
Qed.
