(** Dates: what the date pattern accepts. *)
From Verif Require Import PyStrProofs PyReInv PackProofs2 PsvLines RoundProofs1 PyFloat PyFloatProofs SexVals SexSpec SexProofs1 SexProofs2 SexProofs3 SexProofs4 SexProofs5 SexProofs6 SexProofs7 SexProofs12 SexProofs13 SexProofs14 SexProofs15 SexProofs16.
From Coq Require Import Lqa.
Open Scope Z_scope.

Lemma digval_le c : isdig c = true -> 0 <= digval c <= 9.
Proof.
  assert (H : forall c, implb (isdig c) ((0 <=? digval c) && (digval c <=? 9)) = true) by (apply forall_ascii; vm_compute; reflexivity).
  intros E. specialize (H c). rewrite E in H. cbn [implb] in H. lia.
Qed.
Lemma cls_le k lo hi c : forallb (fun c => implb (incls k c) (isdig c && (lo <=? digval c) && (digval c <=? hi))) allascii = true -> incls k c = true ->
  isdig c = true /\ lo <= digval c <= hi.
Proof.
  intros H E. pose proof (forall_ascii _ H c) as H'. cbv beta in H'. rewrite E in H'. cbn [implb] in H'. apply andb_prop in H' as [H1 H2]. apply andb_prop in H1 as [H1 H3]. split; [exact H1|lia].
Qed.
Lemma year4 a b c e : isdig a = true -> isdig b = true -> isdig c = true -> isdig e = true -> 1 <= digval a -> 1600 <= decval [a; b; c; e] ->
  exists y, 1600 <= y <= 9999 /\ [a; b; c; e] = dec y.
Proof.
  intros A B C E H1 H2. exists (decval [a; b; c; e]).
  assert (AD : alldig [a; b; c; e] = true) by (unfold alldig; cbn [forallb]; now rewrite A, B, C, E).
  pose proof (decval_bound _ AD) as HB. change (10 ^ Z.of_nat (length [a; b; c; e])) with 10000 in HB. split; [lia|].
  rewrite (num_uniq 4 [a; b; c; e] ltac:(lia) AD eq_refl) at 1. apply (num_dec 3). cbn in HB |- *. lia.
Qed.
Lemma two_of a b : isdig a = true -> isdig b = true -> [a; b] = num 2 (10 * digval a + digval b).
Proof.
  intros A B. assert (AD : alldig [a; b] = true) by (unfold alldig; cbn [forallb]; now rewrite A, B).
  rewrite (num_uniq 2 [a; b] ltac:(lia) AD eq_refl) at 1. f_equal.
Qed.
Lemma blanks w : forallb (incls (c_one " ")) w = true -> w = spaces (length w).
Proof.
  induction w as [|c w IH]; intros H; [reflexivity|]. cbn [forallb] in H. apply andb_prop in H as [H1 H2]. apply incls_one in H1. subst c.
  cbn [length]. unfold spaces in *. cbn [repeat]. f_equal. auto.
Qed.

Ltac part re n := match eval unfold re in re with
  | context [RGrp n ?r] => exact (RGrp n r) end.
Definition re_year : re := ltac:(part re_date 1%nat).
Definition re_month : re := ltac:(part re_date 3%nat).
Definition re_days : re := ltac:(part re_date 4%nat).
Definition re_day : re := ltac:(part re_date 5%nat).
Definition re_frac : re := ltac:(part re_date 6%nat).
Lemma re_date_parts : re_date = RSeq REps (RSeq re_year (RSeq (RCls (c_one " ")) (RSeq re_month (RSeq (RCls (c_one " ")) (RSeq re_days (RSeq (RRep (c_one " ") 0 None) REos)))))).
Proof. reflexivity. Qed.
Lemma re_days_parts : re_days = RGrp 4 (RSeq re_day (RSeq (RCls (c_one ".")) re_frac)).
Proof. reflexivity. Qed.
Ltac dcase := repeat inv_step.
Lemma inv_year s c K : inv re_year s c K -> exists y s' x, 1600 <= y <= 9999 /\ s = dec y ++ s' /\ K s' ((1%nat, dec y) :: (2%nat, x) :: c).
Proof.
  unfold re_year. cbn [inv]. intros H. 
  assert (G : exists a b x y s', s = a :: b :: x :: y :: s' /\ isdig a = true /\ isdig b = true /\ isdig x = true /\ isdig y = true /\ 1 <= digval a /\ 1600 <= decval [a; b; x; y] /\
     exists w, K s' ((1%nat, [a; b; x; y]) :: (2%nat, w) :: c)).
  { dcase;
    repeat match goal with D : incls (Cl false [("0", "9")%char]) ?x = true |- _ => change (incls c_digit x = true) in D; rewrite k_digit_eq in D end;
    try match goal with D : incls (Cl false [("2", "9")%char]) ?x = true |- _ => apply (cls_le _ 2 9) in D as [? ?]; [|vm_compute; reflexivity] end;
    (do 5 eexists; split; [reflexivity|]; do 4 (split; [first [assumption|reflexivity]|]);
     repeat match goal with D : isdig ?x = true |- _ => lazymatch goal with _ : 0 <= digval x <= 9 |- _ => fail | _ => pose proof (digval_le x D) end end;
     split; [first [lia | vm_compute; discriminate]|split; [|eexists; eassumption]];
     unfold decval; cbn [fold_left];
     repeat match goal with |- context [digval (Ascii ?p ?q ?r ?s ?t ?u ?v ?w)] => let c := constr:(Ascii p q r s t u v w) in let v := eval vm_compute in (digval c) in change (digval c) with v end; lia). }
  destruct G as (a & b & x & y & s' & -> & A & B & X & Y & L & U & w & HK). destruct (year4 a b x y A B X Y L U) as (yy & HY & E).
  exists yy, s', w. rewrite <- E. auto.
Qed.
Lemma inv_two lo hi (i : nat) s c (K : str -> caps -> Prop) :
  (exists a b s', s = a :: b :: s' /\ isdig a = true /\ isdig b = true /\ lo <= 10 * digval a + digval b <= hi /\ K s' ((i, [a; b]) :: c)) ->
  exists m s', lo <= m <= hi /\ s = num 2 m ++ s' /\ K s' ((i, num 2 m) :: c).
Proof. intros (a & b & s' & -> & A & B & H & HK). exists (10 * digval a + digval b), s'. rewrite <- two_of by auto. auto. Qed.
Ltac two_cases H :=
  cbn [inv] in H; dcase;
    repeat match goal with D : incls (Cl false [("0", "9")%char]) ?x = true |- _ => change (incls c_digit x = true) in D; rewrite k_digit_eq in D end;
    try match goal with D : incls (Cl false [("1", "9")%char]) ?x = true |- _ => apply (cls_le _ 1 9) in D as [? ?]; [|vm_compute; reflexivity] end;
    try match goal with D : incls (Cl false [("1", "1")%char; ("2", "2")%char]) ?x = true |- _ => apply (cls_le _ 1 2) in D as [? ?]; [|vm_compute; reflexivity] end;
    (do 3 eexists; split; [reflexivity|]; do 2 (split; [first [assumption|reflexivity]|]);
     repeat match goal with D : isdig ?x = true |- _ => lazymatch goal with _ : 0 <= digval x <= 9 |- _ => fail | _ => pose proof (digval_le x D) end end;
     split; [|eassumption];
     repeat match goal with |- context [digval (Ascii ?p ?q ?r ?s ?t ?u ?v ?w)] => let c := constr:(Ascii p q r s t u v w) in let v := eval vm_compute in (digval c) in change (digval c) with v end; lia).
Lemma inv_month s c K : inv re_month s c K -> exists m s', 1 <= m <= 12 /\ s = num 2 m ++ s' /\ K s' ((3%nat, num 2 m) :: c).
Proof. intros H. apply (inv_two 1 12 3%nat s c K). unfold re_month in H. two_cases H. Qed.
Lemma inv_day s c K : inv re_day s c K -> exists m s', 1 <= m <= 31 /\ s = num 2 m ++ s' /\ K s' ((5%nat, num 2 m) :: c).
Proof. intros H. apply (inv_two 1 31 5%nat s c K). unfold re_day in H. two_cases H. Qed.
Lemma date_inv w g : re_match re_date w = Some g ->
  exists y m d f j e, 1600 <= y <= 9999 /\ 1 <= m <= 12 /\ 1 <= d <= 31 /\ alldig f = true /\ f <> [] /\ eos e /\
    w = dec y ++ $" " ++ num 2 m ++ $" " ++ num 2 d ++ $"." ++ f ++ spaces j ++ e /\
    gs g 1 = dec y /\ gs g 3 = num 2 m /\ gs g 5 = num 2 d /\ gs g 6 = f.
Proof.
  intros H. apply re_match_inv in H. rewrite re_date_parts in H.
  change (inv re_year w [] (fun s1 c1 => inv (RCls (c_one " ")) s1 c1 (fun s2 c2 => inv re_month s2 c2 (fun s3 c3 => inv (RCls (c_one " ")) s3 c3 (fun s4 c4 => inv re_days s4 c4 (fun s5 c5 => inv (RSeq (RRep (c_one " ") 0 None) REos) s5 c5 (fun _ c => g = c))))))) in H.
  apply inv_year in H as (y & s1 & cc & Y & -> & H). cbn [inv] in H. destruct H as (b1 & s2 & -> & B1 & H). apply incls_one in B1. subst b1.
  apply inv_month in H as (m & s3 & M & -> & H). destruct H as (b2 & s4 & -> & B2 & H). apply incls_one in B2. subst b2.
  rewrite re_days_parts in H. change (inv (RGrp 4 (RSeq re_day (RSeq (RCls (c_one ".")) re_frac))) s4 ?c ?K) with
     (inv re_day s4 c (fun s' c' => inv (RSeq (RCls (c_one ".")) re_frac) s' c' (fun s'' c'' => exists w, s4 = w ++ s'' /\ K s'' ((4%nat, w) :: c'')))) in H.
  apply inv_day in H as (d & s5 & D & -> & H). unfold re_frac in H. cbn [inv] in H.
  destruct H as (p & s6 & -> & Bp & H). apply incls_one in Bp. subst p. destruct H as (f & s7 & -> & F & Lf & H).
  destruct H as (f' & Ef & H). apply app_inv_tail in Ef. subst f'. destruct H as (dd & Edd & H). destruct H as (bl & e & -> & Bl & _ & Ee & ->).
  exists y, m, d, f, (length bl), e. rewrite <- (blanks bl Bl). repeat split; try lia; auto.
  - now apply digs_alldig.
  - intros ->. cbn in Lf. lia.
Qed.
