(** Lemmas about ValueSpec, part 4: right ascensions and declinations. *)
From Verif Require Import PyStrProofs SchemaCheck SchemaProofs1 SchemaProofs2 SchemaProofs3.
From Verif Require Import PyFloat PyFloatProofs SexVals SexSpec SexProofs1 SexProofs3 SexProofs4 SexProofs7 SexProofs11 SexProofs13.
From Verif Require Import XsdPattern XsdFiles XsdMatch IdSpec IdProofs3 IdProofs4 IdProofs5 ValueSpec ValueProofs1 ValueProofs2 ValueProofs3.
From Coq Require Import Lqa.
Local Open Scope Z_scope.

(** * The value of a decimal text *)
Definition text_value (neg : bool) (d : nat) (V : Z) : Q := ((if neg then -1 else 1) * (inject_Z V / inject_Z (10 ^ Z.of_nat d)))%Q.
Lemma text_parts d V : (1 <= d)%nat -> 0 <= V ->
  let a := dec (V / 10 ^ Z.of_nat d) in let b := num d (V mod 10 ^ Z.of_nat d) in
  alldig a = true /\ alldig b = true /\ length b = d /\ decval (a ++ b) = V.
Proof.
  intros Hd HV a b. pose proof (p10_pos d) as P.
  assert (0 <= V / 10 ^ Z.of_nat d) as H1 by (apply Z.div_pos; lia).
  destruct (num_spec d (V mod 10 ^ Z.of_nat d) Hd ltac:(apply Z.mod_pos_bound; lia)) as (L & A & E). fold b in L, A, E.
  split; [now apply dec_alldig|]. split; [exact A|]. split; [exact L|]. rewrite decval_app, L, E. unfold a. rewrite dec_val by exact H1. symmetry. rewrite Z.mul_comm. apply Z.div_mod. lia.
Qed.
Lemma text_decimal neg d V : (1 <= d)%nat -> 0 <= V -> decimal_value (decimal_text neg d V) (text_value neg d V).
Proof.
  intros Hd HV. destruct (text_parts d V Hd HV) as (A & B & L & E). unfold decimal_text.
  set (a := dec (V / 10 ^ Z.of_nat d)) in *. set (b := num d (V mod 10 ^ Z.of_nat d)) in *. clearbody a b.
  exists (if neg then $"-" else []), a, b. split; [right; reflexivity|]. split; [destruct neg; [right; right; now left|now left]|].
  split; [rewrite forallb_app; apply andb_true_intro; split; [exact A|exact B]|].
  split; [destruct b; [cbn in L; lia|]; intro N; apply app_eq_nil in N as [_ N]; discriminate N|].
  rewrite E, L. unfold text_value. destruct neg; reflexivity.
Qed.
Lemma text_strip neg d V : (1 <= d)%nat -> 0 <= V -> strip (decimal_text neg d V) = decimal_text neg d V.
Proof.
  intros Hd HV. destruct (text_parts d V Hd HV) as (A & B & L & E). unfold decimal_text.
  set (a := dec (V / 10 ^ Z.of_nat d)) in *. set (b := num d (V mod 10 ^ Z.of_nat d)) in *. clearbody a b.
  assert (forall c, isdig c = true -> negb (pyspace c) = true) as K by (apply imp_ascii; vm_compute; reflexivity).
  apply strip_no_space.
  - intro N. apply app_eq_nil in N as [_ N]. apply app_eq_nil in N as [_ N]. discriminate N.
  - rewrite !forallb_app, (forallb_imp _ _ a K A), (forallb_imp _ _ b K B). destruct neg; reflexivity.
Qed.
Lemma text_digits neg d V neg' d' V' : (1 <= d)%nat -> 0 <= V -> (1 <= d')%nat -> 0 <= V' -> decimal_text neg d V = decimal_text neg' d' V' -> d = d'.
Proof.
  intros H1 H2 H3 H4 E. destruct (text_parts d V H1 H2) as (A & B & L & _). destruct (text_parts d' V' H3 H4) as (A' & B' & L' & _).
  unfold decimal_text in E.
  set (a := dec (V / 10 ^ Z.of_nat d)) in *. set (b := num d (V mod 10 ^ Z.of_nat d)) in *. clearbody a b.
  set (a' := dec (V' / 10 ^ Z.of_nat d')) in *. set (b' := num d' (V' mod 10 ^ Z.of_nat d')) in *. clearbody a' b'.
  assert (numeral (a ++ point :: b) a b) as M by (constructor; auto; destruct b; [cbn in L; lia|]; intro N; apply app_eq_nil in N as [_ N]; discriminate N).
  assert (numeral (a' ++ point :: b') a' b') as M' by (constructor; auto; destruct b'; [cbn in L'; lia|]; intro N; apply app_eq_nil in N as [_ N]; discriminate N).
  destruct (numeral_chars _ _ _ M) as [C1 N1]. destruct (numeral_chars _ _ _ M') as [C2 N2].
  assert (forall n : bool, In (if n then $"-" else []) [[]; $"+"; $"-"]) as I by (intros []; [right; right; now left|now left]).
  destruct (sign_fun _ _ _ _ (I neg) (I neg') C1 C2 N1 N2 E) as [_ E2]. rewrite E2 in M. destruct (numeral_fun _ _ _ _ _ M M') as [_ Eb]. congruence.
Qed.

(** * The patterns *)
Definition ra_pattern : str := $"([1-3][0-9]{2}|[1-9]?[0-9])?(\.[0-9]{0,9})?".
Definition dd_pattern : str := $"[+\-]?([1-9]?[0-9])?(\.[0123456789]{0,9})?".
Definition ra_pat : pat := Eval vm_compute in match pattern ra_pattern with Some (PSeq a _) => a | _ => PEps end.
Lemma ra_read : pattern ra_pattern = Some (PSeq ra_pat (PSeq (PRep (frac_pat (Some 9%nat)) 0 (Some 1%nat)) PEps)). Proof. vm_compute. reflexivity. Qed.
Definition dd_pat : pat := Eval vm_compute in match pattern dd_pattern with Some (PSeq _ (PSeq a _)) => a | _ => PEps end.
Definition dd_frac : pat := PSeq (PSet false [(".", ".")]%char) (PSeq (PRep (PSet false (map (fun x => (x, x)) ["0"; "1"; "2"; "3"; "4"; "5"; "6"; "7"; "8"; "9"]%char)) 0 (Some 9%nat)) PEps).
Lemma dd_read : pattern dd_pattern = Some (PSeq sign_pat (PSeq dd_pat (PSeq (PRep dd_frac 0 (Some 1%nat)) PEps))). Proof. vm_compute. reflexivity. Qed.
Lemma r_ten : forall c, xorb false (in_ranges (map (fun x => (x, x)) ["0"; "1"; "2"; "3"; "4"; "5"; "6"; "7"; "8"; "9"]%char) c) = isdig c.
Proof. apply eqb_ascii. vm_compute. reflexivity. Qed.
Lemma dd_frac_lang b : forallb isdig b = true -> (length b <= 9)%nat -> lang (PRep dd_frac 0 (Some 1%nat)) (point :: b).
Proof.
  intros A L. apply lang_opt. right. unfold dd_frac. apply lang_char. exists b. split; [reflexivity|]. apply (proj2 (lang_end _ _)), lang_rep_set.
  rewrite (forallb_eq _ _ b r_ten). split; [exact A|]. split; [lia|exact L].
Qed.
Definition wholeb (p : pat) (s : str) : bool := existsb nullb (rest_of 20 p s).
Lemma whole_sound p s : wholeb p s = true -> lang p s.
Proof.
  unfold wholeb. intro H. apply existsb_exists in H as (r & I & N). destruct r; [|discriminate N]. apply rest_sound in I as (x & -> & Hx). now rewrite app_nil_r.
Qed.
Lemma ra_whole n : 0 <= n < 360 -> lang ra_pat (dec n).
Proof. intro H. apply whole_sound. refine (upto_all (fun n => wholeb ra_pat (dec n)) 0 360 n _ H). vm_compute. reflexivity. Qed.
Lemma dd_whole n : 0 <= n <= 90 -> lang dd_pat (dec n).
Proof. intro H. apply whole_sound. refine (upto_all (fun n => wholeb dd_pat (dec n)) 0 91 n _ ltac:(lia)). vm_compute. reflexivity. Qed.
Lemma ra_matches d V : (1 <= d <= 9)%nat -> 0 <= V < 360 * 10 ^ Z.of_nat d -> matches ra_pattern (decimal_text false d V).
Proof.
  intros Hd HV. destruct (text_parts d V) as (A & B & L & E); [lia|lia|]. pose proof (p10_pos d) as P. apply (matches_lang _ _ _ ra_read).
  unfold decimal_text. cbn [app]. apply lang_split.
  - apply ra_whole. split; [apply Z.div_pos; lia|apply Z.div_lt_upper_bound; lia].
  - apply (proj2 (lang_end _ _)), frac_lang. right. eexists. split; [reflexivity|]. split; [exact B|]. rewrite L. lia.
Qed.
Lemma dd_matches neg d V : (1 <= d <= 9)%nat -> 0 <= V <= 90 * 10 ^ Z.of_nat d -> matches dd_pattern (decimal_text neg d V).
Proof.
  intros Hd HV. destruct (text_parts d V) as (A & B & L & E); [lia|lia|]. pose proof (p10_pos d) as P. apply (matches_lang _ _ _ dd_read).
  unfold decimal_text. apply lang_split; [apply sign_lang; destruct neg; [right; right; now left|now left]|]. apply lang_split.
  - apply dd_whole. split; [apply Z.div_pos; lia|]. enough (V / 10 ^ Z.of_nat d < 91) by lia. apply Z.div_lt_upper_bound; lia.
  - apply (proj2 (lang_end _ _)), dd_frac_lang; [exact B|]. rewrite L. lia.
Qed.

(** * Sexagesimal texts *)
Definition precisions : list prec := [PTen 1; PTen 2; PTen 3; PInt 1; PHund; PInt 6; PInt 60].
Lemma sex_facts s X pr u : sexagesimal s X pr u -> (length s <= 12)%nat ->
  In pr precisions /\ (0 < u)%Q /\ exists k n, 0 < k /\ 0 <= n /\ (60 == inject_Z k * u)%Q /\ (X == inject_Z n * u)%Q.
Proof.
  intros H L. destruct H.
  - pose proof (p10_pos p) as PP. rewrite sec_text_length in L by lia. assert (p = 1 \/ p = 2 \/ p = 3)%nat as Hp by (destruct p; lia).
    set (P := 10 ^ Z.of_nat p) in *. assert (0 < inject_Z P)%Q as QP by (apply (injZ_lt 0); exact PP).
    split; [destruct Hp as [->|[->| ->]]; [now left|right; now left|right; right; now left]|].
    split; [now apply Qinv_lt_0_compat|]. exists (60 * P), ((3600 * h + 60 * m) * P + N). split; [lia|]. split; [nia|].
    split.
    + rewrite inject_Z_mult. change (inject_Z 60) with 60%Q. field. lra.
    + rewrite (inject_Z_plus _ N), (inject_Z_mult _ P). field. lra.
  - split; [do 3 right; now left|]. split; [reflexivity|]. exists 60, (3600 * h + 60 * m + s). split; [lia|]. split; [lia|]. split; [reflexivity|ring].
  - split; [do 4 right; now left|]. split; [reflexivity|]. exists 100, (6000 * h + N). split; [lia|]. split; [lia|]. split; [reflexivity|].
    rewrite inject_Z_plus, !inject_Z_mult. change (inject_Z 3600) with 3600%Q. change (inject_Z 6000) with 6000%Q. ring.
  - split; [do 5 right; now left|]. split; [reflexivity|]. exists 10, (600 * h + N). split; [lia|]. split; [lia|]. split; [reflexivity|].
    rewrite inject_Z_plus, !inject_Z_mult. change (inject_Z 3600) with 3600%Q. change (inject_Z 600) with 600%Q. ring.
  - split; [do 6 right; now left|]. split; [reflexivity|]. exists 1, (60 * h + m). split; [lia|]. split; [lia|]. split; [reflexivity|].
    rewrite !inject_Z_plus, !inject_Z_mult. change (inject_Z 3600) with 3600%Q. change (inject_Z 60) with 60%Q. ring.
Qed.
(** whole minutes are multiples of the last digit's unit *)
Lemma sex_step k n M u X : 0 < k -> (0 < u)%Q -> (60 == inject_Z k * u)%Q -> (X == inject_Z n * u)%Q -> (X < 60 * inject_Z M)%Q -> (X <= 60 * inject_Z M - u)%Q.
Proof.
  intros K U E1 E2 H. assert (n < M * k) as L.
  { destruct (Z_lt_ge_dec n (M * k)) as [L|G]; [exact L|]. exfalso. assert (inject_Z (M * k) <= inject_Z n)%Q as Q by (apply injZ_le; lia).
    rewrite inject_Z_mult in Q. rewrite E2 in H. assert ((inject_Z M * inject_Z k) * u <= inject_Z n * u)%Q as Q2 by (apply Qmult_le_compat_r; lra).
    assert (60 * inject_Z M == (inject_Z M * inject_Z k) * u)%Q as E3 by (rewrite E1; ring). lra. }
  assert (inject_Z (n + 1) <= inject_Z (M * k))%Q as Q by (apply injZ_le; lia). rewrite inject_Z_plus, inject_Z_mult in Q. change (inject_Z 1) with 1%Q in Q.
  assert ((inject_Z n + 1) * u <= (inject_Z M * inject_Z k) * u)%Q as Q2 by (apply Qmult_le_compat_r; lra).
  assert (60 * inject_Z M == (inject_Z M * inject_Z k) * u)%Q as E3 by (rewrite E1; ring). rewrite E2. lra.
Qed.
Lemma div_lt V d B : 0 <= V -> ((inject_Z V / inject_Z (10 ^ Z.of_nat d) < inject_Z B)%Q <-> V < B * 10 ^ Z.of_nat d).
Proof.
  intro HV. pose proof (p10_pos d) as P. assert (0 < inject_Z (10 ^ Z.of_nat d))%Q as Q by (apply (injZ_lt 0); exact P).
  rewrite Zlt_Qlt, inject_Z_mult. split; intro H.
  - apply (Qmult_lt_r _ _ _ Q) in H. unfold Qdiv in H. rewrite <- Qmult_assoc, (Qmult_comm (/ _)), Qmult_inv_r, Qmult_1_r in H by lra. exact H.
  - apply Qlt_shift_div_r; [exact Q|exact H].
Qed.
Lemma div_le V d B : 0 <= V -> ((inject_Z V / inject_Z (10 ^ Z.of_nat d) <= inject_Z B)%Q <-> V <= B * 10 ^ Z.of_nat d).
Proof.
  intro HV. pose proof (p10_pos d) as P. assert (0 < inject_Z (10 ^ Z.of_nat d))%Q as Q by (apply (injZ_lt 0); exact P).
  rewrite Zle_Qle, inject_Z_mult. split; intro H.
  - apply (Qmult_le_r _ _ _ Q) in H. unfold Qdiv in H. rewrite <- Qmult_assoc, (Qmult_comm (/ _)), Qmult_inv_r, Qmult_1_r in H by lra. exact H.
  - apply Qle_shift_div_r; [exact Q|exact H].
Qed.
(** the nearest decimal of X is below B degrees when X is *)
Lemma close_lt s X pr u c d V M B : sexagesimal s X pr u -> (length s <= 12)%nat -> (0 < c)%Q -> (60 * inject_Z M * c == inject_Z B)%Q -> 0 <= V ->
  close X c u d V -> ((X < 60 * inject_Z M)%Q <-> V < B * 10 ^ Z.of_nat d).
Proof.
  intros H L C E HV [C1 C2]. destruct (sex_facts _ _ _ _ H L) as (_ & U & k & n & K & _ & E1 & E2).
  assert (0 < u * c)%Q as UC by (apply Qmult_lt_0_compat; auto).
  pose proof (p10_pos d) as P. assert (0 < inject_Z (10 ^ Z.of_nat d))%Q as Q by (apply (injZ_lt 0); exact P).
  set (v := (inject_Z V / inject_Z (10 ^ Z.of_nat d))%Q) in *. apply Qabs_Qle_condition in C1, C2. split; intro A.
  - apply (div_lt V d B HV). fold v. pose proof (sex_step k n M u X K U E1 E2 A) as A2.
    assert (X * c <= (60 * inject_Z M - u) * c)%Q as A3 by (apply Qmult_le_compat_r; [exact A2|apply Qlt_le_weak; exact C]).
    assert ((60 * inject_Z M - u) * c == inject_Z B - u * c)%Q as A4 by (rewrite <- E; ring). lra.
  - apply Qnot_le_lt. intro G. assert (60 * inject_Z M * c <= X * c)%Q as A3 by (apply Qmult_le_compat_r; [exact G|apply Qlt_le_weak; exact C]).
    rewrite E in A3.
    assert (inject_Z V <= inject_Z (B * 10 ^ Z.of_nat d - 1))%Q as A4 by (apply injZ_le; lia).
    rewrite <- Z.add_opp_r, (inject_Z_plus _ (- (1))), inject_Z_mult in A4. change (inject_Z (- (1))) with (-1)%Q in A4.
    assert (inject_Z V == v * inject_Z (10 ^ Z.of_nat d))%Q as E3 by (unfold v; field; lra). rewrite E3 in A4.
    set (D := inject_Z (10 ^ Z.of_nat d)) in *. clearbody D.
    assert ((52 # 100) / D * D == 52 # 100)%Q as E4 by (field; lra). set (e := ((52 # 100) / D)%Q) in *. clearbody e v. clear - C1 A3 A4 E4 Q. nra.
Qed.
Lemma close_le s X pr u c d V M B : sexagesimal s X pr u -> (length s <= 12)%nat -> (0 < c)%Q -> (60 * inject_Z M * c == inject_Z B)%Q -> 0 <= V ->
  close X c u d V -> ((X <= 60 * inject_Z M)%Q <-> V <= B * 10 ^ Z.of_nat d).
Proof.
  intros H L C E HV [C1 C2]. destruct (sex_facts _ _ _ _ H L) as (_ & U & k & n & K & _ & E1 & E2).
  assert (0 < u * c)%Q as UC by (apply Qmult_lt_0_compat; auto).
  pose proof (p10_pos d) as P. assert (0 < inject_Z (10 ^ Z.of_nat d))%Q as Q by (apply (injZ_lt 0); exact P).
  assert (inject_Z V == inject_Z V / inject_Z (10 ^ Z.of_nat d) * inject_Z (10 ^ Z.of_nat d))%Q as E3 by (field; lra).
  set (v := (inject_Z V / inject_Z (10 ^ Z.of_nat d))%Q) in *. apply Qabs_Qle_condition in C1, C2. split; intro A.
  - assert (X * c <= 60 * inject_Z M * c)%Q as A3 by (apply Qmult_le_compat_r; [exact A|apply Qlt_le_weak; exact C]). rewrite E in A3.
    destruct (Z_le_gt_dec V (B * 10 ^ Z.of_nat d)) as [G|G]; [exact G|exfalso].
    assert (inject_Z (B * 10 ^ Z.of_nat d + 1) <= inject_Z V)%Q as A4 by (apply injZ_le; lia).
    rewrite inject_Z_plus, inject_Z_mult in A4. change (inject_Z 1) with 1%Q in A4. rewrite E3 in A4.
    set (D := inject_Z (10 ^ Z.of_nat d)) in *. clearbody D.
    assert ((52 # 100) / D * D == 52 # 100)%Q as E4 by (field; lra). set (e := ((52 # 100) / D)%Q) in *. clearbody e v. clear - C1 A3 A4 E4 Q. nra.
  - apply Qnot_lt_le. intro G. apply (div_le V d B HV) in A. fold v in A.
    assert (X >= 60 * inject_Z M + u)%Q as A2.
    { assert (M * k < n) as L2.
      { destruct (Z_lt_ge_dec (M * k) n) as [L2|G2]; [exact L2|]. exfalso. assert (inject_Z n <= inject_Z (M * k))%Q as Q1 by (apply injZ_le; lia).
        rewrite inject_Z_mult in Q1. assert (inject_Z n * u <= (inject_Z M * inject_Z k) * u)%Q as Q2 by (apply Qmult_le_compat_r; lra).
        assert (60 * inject_Z M == (inject_Z M * inject_Z k) * u)%Q as E5 by (rewrite E1; ring). rewrite E2 in G. lra. }
      assert (inject_Z (M * k + 1) <= inject_Z n)%Q as Q1 by (apply injZ_le; lia). rewrite inject_Z_plus, inject_Z_mult in Q1. change (inject_Z 1) with 1%Q in Q1.
      assert ((inject_Z M * inject_Z k + 1) * u <= inject_Z n * u)%Q as Q2 by (apply Qmult_le_compat_r; lra).
      assert (60 * inject_Z M == (inject_Z M * inject_Z k) * u)%Q as E5 by (rewrite E1; ring). rewrite E2. lra. }
    assert ((60 * inject_Z M + u) * c <= X * c)%Q as A3 by (apply Qmult_le_compat_r; [exact A2|apply Qlt_le_weak; exact C]).
    assert ((60 * inject_Z M + u) * c == inject_Z B + u * c)%Q as A4 by (rewrite <- E; ring). lra.
Qed.

(** * The types of right ascension, declination and their precisions *)
Lemma fmul_digits n a b : (1 <= n)%nat -> exists neg V, 0 <= V /\ fmtf n (fmul a b) = decimal_text neg n V.
Proof.
  intro N. exists (fneg (fmul a b)), (rheQ (fmag (fmul a b) * inject_Z (10 ^ Z.of_nat n))). split; [|now apply fmtf_dec].
  apply SexProofs5.rheQ_nonneg, Qmult_le_0_compat; [apply rnd_nonneg|]. apply (injZ_le 0). pose proof (p10_pos n). lia.
Qed.
Definition between (n : nat) : bool := Nat.leb 1 n && Nat.leb n 9.
Lemma between_le n : between n = true -> (1 <= n <= 9)%nat.
Proof. unfold between. intro H. apply andb_prop in H as [A B]. apply Nat.leb_le in A, B. auto. Qed.
Lemma ra_digits pr : In pr precisions -> (1 <= Z.to_nat (out_digits pr secToDegrees) <= 9)%nat.
Proof. intro I. apply between_le. revert pr I. apply forallb_forall. vm_compute. reflexivity. Qed.
Lemma dec_digits pr : In pr precisions -> (1 <= Z.to_nat (out_digits pr arcsecToDegrees) <= 9)%nat.
Proof. intro I. apply between_le. revert pr I. apply forallb_forall. vm_compute. reflexivity. Qed.
Lemma ra_few w d V pr : In pr precisions -> (1 <= d)%nat -> 0 <= V -> checkRa w = Ok (decimal_text false d V, pr) -> (d <= 9)%nat.
Proof.
  intros I Hd HV H. unfold checkRa in H. destruct (sexRaToDecRa w) as [[t p]|e] eqn:E; [|discriminate H]. cbn [rbind] in H.
  destruct (decRaToSexRa t (prec_fl p)) as [r|e]; [|discriminate H]. cbn [rbind] in H. destruct (streqb r w); [|discriminate H].
  assert (t = decimal_text false d V /\ p = pr) as [-> ->] by (injection H; auto). clear H.
  unfold sexRaToDecRa in E. destruct (checkSexagesimal w) as [[[[h m] s] p]|e]; [|discriminate E]. cbn [rbind] in E. cbv beta iota zeta in E.
  assert (p = pr) as -> by (injection E; auto). pose proof (ra_digits pr I) as B. set (n := Z.to_nat (out_digits pr secToDegrees)) in *. clearbody n.
  match type of E with Ok (fmtf n (fmul ?a ?b), _) = _ => destruct (fmul_digits n a b ltac:(lia)) as (neg & V' & HV' & E2) end.
  assert (decimal_text neg n V' = decimal_text false d V) as E3 by (rewrite <- E2; injection E; auto).
  apply text_digits in E3; [lia|lia|exact HV'|exact Hd|exact HV].
Qed.
Lemma dec_few w neg d V pr : In pr precisions -> (1 <= d)%nat -> 0 <= V -> checkDec w = Ok (decimal_text neg d V, pr) -> (d <= 9)%nat.
Proof.
  intros I Hd HV H. unfold checkDec in H. destruct (sexDeclToDecDecl w) as [[t p]|e] eqn:E; [|discriminate H]. cbn [rbind] in H.
  destruct (degDeclToSexDecl t (prec_fl p)) as [r|e]; [|discriminate H]. cbn [rbind] in H. destruct (streqb r w); [|discriminate H].
  assert (t = decimal_text neg d V /\ p = pr) as [-> ->] by (injection H; auto). clear H.
  unfold sexDeclToDecDecl in E. destruct w as [|c w]; [discriminate E|]. destruct (negb _); [discriminate E|].
  destruct (checkSexagesimal w) as [[[[h m] s] p]|e]; [|discriminate E]. cbn [rbind] in E. cbv beta iota zeta in E.
  assert (p = pr) as -> by (injection E; auto). pose proof (dec_digits pr I) as B. set (n := Z.to_nat (out_digits pr arcsecToDegrees)) in *. clearbody n.
  match type of E with Ok (fmtf n (fmul ?a ?b), _) = _ => destruct (fmul_digits n a b ltac:(lia)) as (neg' & V' & HV' & E2) end.
  assert (decimal_text neg' n V' = decimal_text neg d V) as E3 by (rewrite <- E2; injection E; auto).
  apply text_digits in E3; [lia|lia|exact HV'|exact Hd|exact HV].
Qed.
Lemma padr_short n s w : w = padr n s -> length w = n -> (length s <= n)%nat.
Proof. intros -> H. unfold padr in H. rewrite app_length in H. lia. Qed.

Section Angles.
Variable F : derivation -> str -> Prop.
Hypothesis R : reads_decimals F.
Notation G := general_xsd.
Lemma ra_type d V : (1 <= d <= 9)%nat -> 0 <= V -> (simple F G $"RAType" (decimal_text false d V) <-> V < 360 * 10 ^ Z.of_nat d).
Proof.
  intros Hd HV. rewrite (number_type F R "RAType" [[($"xsd:minInclusive", $"0.0"); ($"xsd:maxExclusive", $"360.0"); ($"xsd:pattern", ra_pattern)]] _ ltac:(vm_compute; reflexivity) (text_strip false d V ltac:(lia) HV)).
  pose proof (text_decimal false d V ltac:(lia) HV) as D. unfold text_value in D. split.
  - intros (q & Dq & H). pose proof (Forall_inv H) as H0. apply (proj1 (num_below_pattern _ _ _ _ _ _ _ lit_0 lit_360)) in H0.
    apply (div_lt V d 360 HV). rewrite <- (Qmult_1_l (_ / _)). change (inject_Z 360) with 360%Q. rewrite <- (decimal_fun _ _ _ Dq D). tauto.
  - intro H. eexists. split; [exact D|]. constructor; [|constructor]. apply (num_below_pattern _ _ _ _ _ _ _ lit_0 lit_360). rewrite Qmult_1_l. split; [split|].
    + apply Qle_shift_div_l; [apply (injZ_lt 0), p10_pos|]. rewrite Qmult_0_l. apply (injZ_le 0). exact HV.
    + apply (div_lt V d 360 HV). exact H.
    + apply ra_matches; [exact Hd|lia].
Qed.
Lemma dec_type neg d V : (1 <= d <= 9)%nat -> 0 <= V -> (simple F G $"DeclinationType" (decimal_text neg d V) <-> V <= 90 * 10 ^ Z.of_nat d).
Proof.
  intros Hd HV. rewrite (number_type F R "DeclinationType" [[($"xsd:minInclusive", $"-90.0"); ($"xsd:maxInclusive", $"90.0"); ($"xsd:pattern", dd_pattern)]] _ ltac:(vm_compute; reflexivity) (text_strip neg d V ltac:(lia) HV)).
  pose proof (text_decimal neg d V ltac:(lia) HV) as D. unfold text_value in D.
  assert (0 <= inject_Z V / inject_Z (10 ^ Z.of_nat d))%Q as P by (apply Qle_shift_div_l; [apply (injZ_lt 0), p10_pos|]; rewrite Qmult_0_l; apply (injZ_le 0); exact HV).
  split.
  - intros (q & Dq & H). pose proof (Forall_inv H) as H0. apply (proj1 (num_limits_pattern _ _ _ _ _ _ _ lit_m90 lit_90)) in H0.
    apply (div_le V d 90 HV). change (inject_Z 90) with 90%Q. destruct H0 as [H0 _]. rewrite (decimal_fun _ _ _ Dq D) in H0.
    destruct neg; destruct H0 as [H0 H1]; lra.
  - intro H. eexists. split; [exact D|]. constructor; [|constructor]. apply (num_limits_pattern _ _ _ _ _ _ _ lit_m90 lit_90).
    pose proof (proj2 (div_le V d 90 HV) H) as Q. change (inject_Z 90) with 90%Q in Q. split; [destruct neg; split; lra|]. apply dd_matches; [exact Hd|lia].
Qed.
Lemma ra_fine w ra pr : length w = 12%nat -> checkRa w = Ok (ra, pr) -> (simple F G $"RAType" ra <-> right_ascension w).
Proof.
  intros L H. assert (forall s X pr0 u, sexagesimal s X pr0 u -> w = padr 12 s -> (simple F G $"RAType" ra <-> (X < 24 * 3600)%Q)) as K.
  { intros s X pr0 u Hs E. pose proof (padr_short _ _ _ E L) as Ls. destruct (ra_canonical s X pr0 u Hs Ls) as (d & V & Hd & HV & C & _ & N).
    rewrite <- E, H in C. assert (ra = decimal_text false d V /\ pr = pr0) as [-> ->] by (injection C; auto).
    pose proof (ra_few w d V pr0 (proj1 (sex_facts _ _ _ _ Hs Ls)) Hd HV H) as D9.
    rewrite (ra_type d V ltac:(lia) HV), <- (close_lt s X pr0 u (1 # 240) d V 1440 360 Hs Ls ltac:(reflexivity) ltac:(reflexivity) HV N). reflexivity. }
  split.
  - intro S0. destruct (ra_complete w ltac:(lia)) as [E|(s & X & pr0 & u & Hs & E)]; [rewrite E in H; discriminate H|].
    exists s, X, pr0, u. split; [exact Hs|]. split; [exact E|]. now apply (K s X pr0 u Hs E).
  - intros (s & X & pr0 & u & Hs & E & B). now apply (K s X pr0 u Hs E).
Qed.
Lemma dec_fine w de pr : length w = 12%nat -> checkDec w = Ok (de, pr) -> (simple F G $"DeclinationType" de <-> declination w).
Proof.
  intros L H. assert (forall neg s X pr0 u, sexagesimal s X pr0 u -> w = padr 12 (sgn neg ++ s) -> (simple F G $"DeclinationType" de <-> (X <= 90 * 3600)%Q)) as K.
  { intros neg s X pr0 u Hs E. pose proof (padr_short _ _ _ E L) as Ls. assert (length s <= 11)%nat as Ls' by (rewrite app_length in Ls; destruct neg; cbn in Ls; lia).
    destruct (dec_canonical neg s X pr0 u Hs Ls') as (d & V & Hd & HV & C & _ & N).
    rewrite <- E, H in C. assert (de = decimal_text neg d V /\ pr = pr0) as [-> ->] by (injection C; auto).
    pose proof (dec_few w neg d V pr0 (proj1 (sex_facts _ _ _ _ Hs ltac:(lia))) Hd HV H) as D9.
    rewrite (dec_type neg d V ltac:(lia) HV), <- (close_le s X pr0 u (1 # 3600) d V 5400 90 Hs ltac:(lia) ltac:(reflexivity) ltac:(reflexivity) HV N). reflexivity. }
  split.
  - intro S0. destruct (dec_complete w ltac:(lia)) as [E|(neg & s & X & pr0 & u & Hs & E)]; [rewrite E in H; discriminate H|].
    exists neg, s, X, pr0, u. split; [exact Hs|]. split; [exact E|]. now apply (K neg s X pr0 u Hs E).
  - intros (neg & s & X & pr0 & u & Hs & E & B). now apply (K neg s X pr0 u Hs E).
Qed.
(** the precisions are among the enumerated ones *)
Definition prec_values : list str := map prec_str precisions.
Lemma prec_fine pr : In pr precisions -> simple F G $"RaDecPrecType" (prec_str pr).
Proof.
  intro I. assert (exists q, decimal_value (prec_str pr) q) as [q D].
  { destruct I as [<-|[<-|[<-|[<-|[<-|[<-|[<-|[]]]]]]]].
    - exists (1 # 10). exists [], $"0", $"1". split; [right; reflexivity|]. split; [now left|]. split; [reflexivity|]. split; [discriminate|]. vm_compute. reflexivity.
    - exists (1 # 100). exists [], $"0", $"01". split; [right; reflexivity|]. split; [now left|]. split; [reflexivity|]. split; [discriminate|]. vm_compute. reflexivity.
    - exists (1 # 1000). exists [], $"0", $"001". split; [right; reflexivity|]. split; [now left|]. split; [reflexivity|]. split; [discriminate|]. vm_compute. reflexivity.
    - exists 1%Q. exists [], $"1", []. split; [left; split; reflexivity|]. split; [now left|]. split; [reflexivity|]. split; [discriminate|]. vm_compute. reflexivity.
    - exists (6 # 10). exists [], $"0", $"6". split; [right; reflexivity|]. split; [now left|]. split; [reflexivity|]. split; [discriminate|]. vm_compute. reflexivity.
    - exists 6%Q. exists [], $"6", []. split; [left; split; reflexivity|]. split; [now left|]. split; [reflexivity|]. split; [discriminate|]. vm_compute. reflexivity.
    - exists 60%Q. exists [], $"60", []. split; [left; split; reflexivity|]. split; [now left|]. split; [reflexivity|]. split; [discriminate|]. vm_compute. reflexivity. }
  apply (enum_number F R "RaDecPrecType" [$"0.1"; $"0.6"; $"0.01"; $"0.001"; $"60"; $"6"; $"1"] (prec_str pr) q).
  - vm_compute. reflexivity.
  - destruct I as [<-|[<-|[<-|[<-|[<-|[<-|[<-|[]]]]]]]]; vm_compute; reflexivity.
  - exact D.
  - destruct I as [<-|[<-|[<-|[<-|[<-|[<-|[<-|[]]]]]]]]; cbn [In];
      [now left|right; right; now left|do 3 right; now left|do 6 right; now left|right; now left|do 5 right; now left|do 4 right; now left].
Qed.
Lemma ra_prec w ra pr : length w = 12%nat -> checkRa w = Ok (ra, pr) -> In pr precisions.
Proof.
  intros L H. destruct (ra_complete w ltac:(lia)) as [E|(s & X & pr0 & u & Hs & E)]; [rewrite E in H; discriminate H|].
  pose proof (padr_short _ _ _ E L) as Ls. destruct (ra_canonical s X pr0 u Hs Ls) as (d & V & Hd & HV & C & _ & N).
  rewrite <- E, H in C. assert (pr = pr0) as -> by (injection C; auto). exact (proj1 (sex_facts _ _ _ _ Hs Ls)).
Qed.
Lemma dec_prec w de pr : length w = 12%nat -> checkDec w = Ok (de, pr) -> In pr precisions.
Proof.
  intros L H. destruct (dec_complete w L) as [E|(neg & s & X & pr0 & u & Hs & E)]; [rewrite E in H; discriminate H|].
  pose proof (padr_short _ _ _ E L) as Ls. assert (length s <= 11)%nat as Ls' by (rewrite app_length in Ls; destruct neg; cbn in Ls; lia).
  destruct (dec_canonical neg s X pr0 u Hs Ls') as (d & V & Hd & HV & C & _ & N).
  rewrite <- E, H in C. assert (pr = pr0) as -> by (injection C; auto). exact (proj1 (sex_facts _ _ _ _ Hs ltac:(lia))).
Qed.
End Angles.
