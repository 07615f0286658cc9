(** Lemmas of C49, part 2: when an optical line is written. *)
From Verif Require Import PyStrProofs PyFloat SexVals SexSpec SexProofs23 PropsSexAny PropsPack XmlToMpc80 Line80Spec Print80Proofs1.
From Verif Require Import PsvSpec2 LayoutSpec Submit80Spec.
Local Open Scope Z_scope.

(** * Precisions *)
Definition calm_p (p : fl) : bool := if Qle_bool (fval p) 0 then false else negb (- int_log10 (fmag p) <? 0).
Lemma seconds_ok x p : calm_p p = true -> exists w, seconds_text x p = Ok w.
Proof.
  unfold calm_p, seconds_text. destruct (Qle_bool (fval p) 0); [intro H; discriminate H|]. intro H. apply negb_true_iff in H. cbv zeta. rewrite H. eexists. reflexivity.
Qed.
Lemma ra_ok t f p : pyfloat t = Ok f -> calm_p p = true -> exists w, decRaToSexRa t p = Ok w.
Proof.
  intros P C. unfold decRaToSexRa. rewrite P. cbn [rbind]. cbv zeta. destruct (feqb p f06); [eexists; reflexivity|]. destruct (feqb p (of_Z 6)); [eexists; reflexivity|].
  destruct (feqb p (of_Z 60)); [eexists; reflexivity|]. destruct (seconds_ok (fsub (fsub (fdiv f secToDegrees) (fmul (of_Z (fint (fdiv (fdiv f secToDegrees) (of_Z 3600)))) (of_Z 3600))) (fmul (of_Z (fint (fdiv (fsub (fdiv f secToDegrees) (fmul (of_Z (fint (fdiv (fdiv f secToDegrees) (of_Z 3600)))) (of_Z 3600))) (of_Z 60)))) (of_Z 60))) p C) as [w E].
  rewrite E. eexists. reflexivity.
Qed.
Lemma dec_ok t f p : pyfloat t = Ok f -> calm_p p = true -> exists w, degDeclToSexDecl t p = Ok w.
Proof.
  intros P C. unfold degDeclToSexDecl. rewrite P. cbn [rbind]. cbv zeta. destruct (if fltb _ _ then _ else _) as [sg rev]. destruct (feqb p f06); [eexists; reflexivity|]. destruct (feqb p (of_Z 6)); [eexists; reflexivity|].
  destruct (feqb p (of_Z 60)); [eexists; reflexivity|].
  match goal with |- context [seconds_text ?x p] => destruct (seconds_ok x p C) as [w E]; rewrite E end. eexists. reflexivity.
Qed.
Lemma ra_inv t p w : decRaToSexRa t p = Ok w -> readable t.
Proof. unfold decRaToSexRa, readable. destruct (pyfloat t) as [f|e]; [intros _; now exists f|intro H; discriminate H]. Qed.
Lemma dec_inv t p w : degDeclToSexDecl t p = Ok w -> readable t.
Proof. unfold degDeclToSexDecl, readable. destruct (pyfloat t) as [f|e]; [intros _; now exists f|intro H; discriminate H]. Qed.
(** the precisions of the settings *)
Record prec_facts (o : opts80) (pt pr pd : fl) (k a b : nat) : Prop := {
  pf_time : pyfloat (o_precTime o) = Ok pt; pf_ra : pyfloat (o_precRA o) = Ok pr; pf_dec : pyfloat (o_precDec o) = Ok pd;
  pf_places : places o k a b; pf_day : day_decimals pt k;
  pf_pr : pr = prec_fl (PTen a); pf_pd : pd = prec_fl (PTen b);
  pf_a : In a [2; 3]%nat; pf_b : In b [1; 2]%nat }.
Lemma day_1 : day_decimals (of_Z 1) 6. Proof. left. split; [reflexivity|]. split; [reflexivity|]. left. reflexivity. Qed.
Lemma day_10 : day_decimals (of_Z 10) 5.
Proof. right. left. split; [lia|]. split; [reflexivity|]. split; vm_compute; [intro X; discriminate X|reflexivity]. Qed.
Lemma standard_facts o : standard o -> exists pt pr pd k a b, prec_facts o pt pr pd k a b.
Proof.
  intros [(A & B & C)|(A & B & C)].
  - exists (of_Z 1), (prec_fl (PTen 3)), (prec_fl (PTen 2)), 6%nat, 3%nat, 2%nat. split; [rewrite A; vm_compute; reflexivity|rewrite B; vm_compute; reflexivity|rewrite C; vm_compute; reflexivity| |exact day_1|reflexivity|reflexivity|right; now left|right; now left].
    left. repeat split; assumption.
  - exists (of_Z 10), (prec_fl (PTen 2)), (prec_fl (PTen 1)), 5%nat, 2%nat, 1%nat. split; [rewrite A; vm_compute; reflexivity|rewrite B; vm_compute; reflexivity|rewrite C; vm_compute; reflexivity| |exact day_10|reflexivity|reflexivity|now left|now left].
    right. repeat split; assumption.
Qed.
Lemma calm_ten d : In d [1; 2; 3]%nat -> calm_p (prec_fl (PTen d)) = true.
Proof. intros [<-|[<-|[<-|[]]]]; vm_compute; reflexivity. Qed.
Lemma time_ok s p k : plain_time s -> day_decimals p k -> exists w, isoToSexDate s p = Ok w.
Proof. intros (y & m & d & sec & f & C & S & D & L & ->) P. destruct (C40_date y m d sec f p k C S D L P) as (V & _ & E & _). eexists. exact E. Qed.

(** * Numbers in columns *)
Lemma padD_ok s l p : 0 <= p -> (points s <= 1)%nat -> exists r, padD s l p = Ok r.
Proof. intros P H. destruct (C16_decimal_accepts s l p P H) as (r & w & q & E). exists r. unfold padD. rewrite E. reflexivity. Qed.
Lemma unpack_ok s l p : 1 <= p -> s <> [] -> (points s <= 1)%nat -> exists r, unPackSigned s l p = Ok r.
Proof.
  intros P N H. unfold unPackSigned. destruct s as [|c s]; [congruence|].
  assert (points s <= 1)%nat as H'. { unfold points in *. cbn [filter] in H. destruct (ceqb c "."); cbn [length] in H; lia. }
  destruct (isdig c) eqn:D.
  - replace (negb (ceqb "+" "+" || ceqb "+" "-")) with false by reflexivity. cbv iota beta.
    destruct (C16_decimal_accepts (c :: s) (l - 1) (p - 1) ltac:(lia) H) as (r & w & q & E). rewrite E. eexists. reflexivity.
  - destruct (negb (ceqb c "+" || ceqb c "-")).
    + destruct (C16_decimal_accepts (c :: s) l p ltac:(lia) H) as (r & w & q & E). rewrite E. eexists. reflexivity.
    + destruct (C16_decimal_accepts s (l - 1) (p - 1) ltac:(lia) H') as (r & w & q & E). rewrite E. eexists. reflexivity.
Qed.
Lemma satpos_ok s p : 1 <= p -> s <> [] -> (points s <= 1)%nat -> exists r, satpos s p = Ok r.
Proof. intros P N H. destruct (unpack_ok s 11 p P N H) as [r E]. unfold satpos. rewrite E. eexists. reflexivity. Qed.
Lemma band_ok b : exists r, band80 b = Ok r.
Proof.
  unfold band80. destruct (dget b bandconv) as [[|c s]|]; try (eexists; reflexivity);
  (destruct (1 <? length b)%nat eqn:L; [|eexists; reflexivity]; destruct b as [|x [|y b]]; [discriminate L|discriminate L|]; eexists; reflexivity).
Qed.
Lemma cat_ok c : strip c = c -> exists r, astCat80 c = Ok r.
Proof.
  intro S. unfold astCat80. rewrite S. destruct (smem c (map fst rCatCodes)) eqn:M; [|eexists; reflexivity].
  assert (forall l : list (str * str), smem c (map fst l) = true -> exists r, dget c l = Some r) as K.
  { clear. intro l. induction l as [|[k v] l IH]; [intro H; discriminate H|]. cbn [map fst smem existsb dget]. destruct (streqb c k); [intros _; now exists v|exact IH]. }
  destruct (K _ M) as [r E]. rewrite E. now exists r.
Qed.

(** * The line *)
Section Line.
Variables (o : opts80) (d : list (str * str)) (time stn cat : str) (pt pr pd : fl) (k a b : nat).
Hypothesis PF : prec_facts o pt pr pd k a b.
Hypothesis NoPT : dget $"precTime" d = None.
Hypothesis NoPR : dget $"precRA" d = None.
Hypothesis NoPD : dget $"precDec" d = None.
Hypothesis NoProg : dget $"prog" d = None.
Hypothesis NoRef : dget $"ref" d = None.
Hypothesis NoDep : dget $"deprecated" d = None.
Hypothesis NoFrm : dget $"subFrm" d = None.
Hypothesis HT : dget $"obsTime" d = Some time.
Hypothesis PT : plain_time time.
Hypothesis HS : dget $"stn" d = Some stn.
Hypothesis HC : dget $"astCat" d = Some cat.
Hypothesis SC : strip cat = cat.
Hypothesis HN : hasKeyOrVal d $"notes" $" " <> [].
Hypothesis HM : (points (hasKeyOrVal d $"mag" []) <= 1)%nat.
Hypothesis Hpos : forall x, dget $"pos1" d = Some x -> exists y z s, dget $"pos2" d = Some y /\ dget $"pos3" d = Some z /\ dget $"sys" d = Some s /\
  forall v, In v [x; y; z] -> v <> [] /\ (points v <= 1)%nat.
Definition id_ok : Prop := dget $"artSat" d <> None \/ exists c, packTupleID (dget $"permID" d, dget $"provID" d, dget $"trkSub" d) = Ok c.
Definition angle_ok : Prop :=
  if streqb stn $"275" then exists x y, dget $"raStar" d = Some x /\ dget $"decStar" d = Some y /\ readable x /\ readable y
  else if streqb stn $"244" then exists x x' y y', dget $"raStar" d = Some x /\ dget $"deltaRA" d = Some x' /\ dget $"decStar" d = Some y /\ dget $"deltaDec" d = Some y' /\
    readable (x ++ x') /\ readable (y ++ y')
  else exists x y, dget $"ra" d = Some x /\ dget $"dec" d = Some y /\ readable x /\ readable y.
Definition code_ok : Prop :=
  match dget $"pos1" d with
  | Some _ => In (hasKeyOrVal d $"sys" []) [$"WGS84"; $"ICRF_AU"; $"ICRF_KM"]
  | None => exists m c, dget $"mode" d = Some m /\ dget m reverseCodeDict = Some c
  end.
Lemma bind_ok {A B} (x : res A) (f : A -> res B) : (exists r, rbind x f = Ok r) <-> exists y, x = Ok y /\ exists r, f y = Ok r.
Proof. destruct x as [y|e]; cbn [rbind]; split; [intro H; exists y; now split|intros (z & E & H); now injection E as <-|intros [r H]; discriminate H|intros (z & E & _); discriminate E]. Qed.
Lemma kget_ok x : (exists v, kget x d = Ok v) <-> exists v, dget x d = Some v.
Proof. unfold kget. destruct (dget x d) as [v|]; split; intros [w H]; try discriminate H; now exists v. Qed.
Lemma kget_some x v : kget x d = Ok v <-> dget x d = Some v.
Proof. unfold kget. destruct (dget x d); split; intro H; try discriminate H; congruence. Qed.
Lemma angles_ok {T} (g : str -> str -> T) :
  (exists r, (if streqb stn $"275" then
       do r <- kget $"raStar" d; do ra <- decRaToSexRa r pr; do e <- kget $"decStar" d; do de <- degDeclToSexDecl e pd; Ok (g ra de)
     else if streqb stn $"244" then
       do r <- kget $"raStar" d; do r' <- kget $"deltaRA" d; do ra <- decRaToSexRa (r ++ r') pr;
       do e <- kget $"decStar" d; do e' <- kget $"deltaDec" d; do de <- degDeclToSexDecl (e ++ e') pd; Ok (g ra de)
     else do r <- kget $"ra" d; do ra <- decRaToSexRa r pr; do e <- kget $"dec" d; do de <- degDeclToSexDecl e pd; Ok (g ra de)) = Ok r) <-> angle_ok.
Proof.
  assert (calm_p pr = true) as Cr by (rewrite (pf_pr _ _ _ _ _ _ _ PF); apply calm_ten; destruct (pf_a _ _ _ _ _ _ _ PF) as [<-|[<-|[]]]; cbn [In]; tauto).
  assert (calm_p pd = true) as Cd by (rewrite (pf_pd _ _ _ _ _ _ _ PF); apply calm_ten; destruct (pf_b _ _ _ _ _ _ _ PF) as [<-|[<-|[]]]; cbn [In]; tauto).
  assert (forall t, (exists w, decRaToSexRa t pr = Ok w) <-> readable t) as Ra by (intro t; split; [intros [w H]; exact (ra_inv _ _ _ H)|intros [f H]; exact (ra_ok t f pr H Cr)]).
  assert (forall t, (exists w, degDeclToSexDecl t pd = Ok w) <-> readable t) as De by (intro t; split; [intros [w H]; exact (dec_inv _ _ _ H)|intros [f H]; exact (dec_ok t f pd H Cd)]).
  unfold angle_ok. destruct (streqb stn $"275"); [|destruct (streqb stn $"244")].
  - rewrite bind_ok. split.
    + intros (x & X & H). apply kget_some in X. apply bind_ok in H as (w & W & H). apply bind_ok in H as (y & Y & H). apply kget_some in Y. apply bind_ok in H as (w' & W' & _).
      exists x, y. split; [exact X|]. split; [exact Y|]. split; [apply Ra; now exists w|apply De; now exists w'].
    + intros (x & y & X & Y & Rx & Ry). exists x. split; [now apply kget_some|]. apply Ra in Rx as [w W]. apply De in Ry as [w' W']. rewrite W. cbn [rbind]. rewrite (proj2 (kget_some _ _) Y). cbn [rbind]. rewrite W'. eexists. reflexivity.
  - rewrite bind_ok. split.
    + intros (x & X & H). apply kget_some in X. apply bind_ok in H as (x' & X' & H). apply kget_some in X'. apply bind_ok in H as (w & W & H).
      apply bind_ok in H as (y & Y & H). apply kget_some in Y. apply bind_ok in H as (y' & Y' & H). apply kget_some in Y'. apply bind_ok in H as (w' & W' & _).
      exists x, x', y, y'. repeat (split; [assumption|]). split; [apply Ra; now exists w|apply De; now exists w'].
    + intros (x & x' & y & y' & X & X' & Y & Y' & Rx & Ry). exists x. split; [now apply kget_some|]. apply Ra in Rx as [w W]. apply De in Ry as [w' W'].
      rewrite (proj2 (kget_some _ _) X'). cbn [rbind]. rewrite W. cbn [rbind]. rewrite (proj2 (kget_some _ _) Y). cbn [rbind]. rewrite (proj2 (kget_some _ _) Y'). cbn [rbind]. rewrite W'. eexists. reflexivity.
  - rewrite bind_ok. split.
    + intros (x & X & H). apply kget_some in X. apply bind_ok in H as (w & W & H). apply bind_ok in H as (y & Y & H). apply kget_some in Y. apply bind_ok in H as (w' & W' & _).
      exists x, y. split; [exact X|]. split; [exact Y|]. split; [apply Ra; now exists w|apply De; now exists w'].
    + intros (x & y & X & Y & Rx & Ry). exists x. split; [now apply kget_some|]. apply Ra in Rx as [w W]. apply De in Ry as [w' W']. rewrite W. cbn [rbind]. rewrite (proj2 (kget_some _ _) Y). cbn [rbind]. rewrite W'. eexists. reflexivity.
Qed.
Lemma code_iff : (exists c, code80 d = Ok c) <-> code_ok.
Proof.
  unfold code80, code_ok. rewrite NoDep. cbv iota beta. unfold kmem. rewrite NoFrm. destruct (dget $"pos1" d) as [x|] eqn:P1.
  - destruct (Hpos x eq_refl) as (y & z & s & _ & _ & Sy & _). unfold kget, hasKeyOrVal. rewrite Sy. cbn [rbind].
    destruct (streqb s $"WGS84") eqn:E1; [apply streqb_eq in E1; subst s; split; [intros _; now left|intros _; eexists; reflexivity]|].
    destruct (streqb s $"ICRF_AU") eqn:E2; [apply streqb_eq in E2; subst s; split; [intros _; right; now left|intros _; eexists; reflexivity]|].
    destruct (streqb s $"ICRF_KM") eqn:E3; [apply streqb_eq in E3; subst s; split; [intros _; right; right; now left|intros _; eexists; reflexivity]|].
    split; [intros [c H]; discriminate H|]. intros [H|[H|[H|[]]]]; subst s; [rewrite (proj2 (streqb_eq _ _) eq_refl) in E1; discriminate E1|rewrite (proj2 (streqb_eq _ _) eq_refl) in E2; discriminate E2|rewrite (proj2 (streqb_eq _ _) eq_refl) in E3; discriminate E3].
  - cbv iota. rewrite bind_ok. split.
    + intros (m & M & c & H). apply kget_some in M. exists m. destruct (dget m reverseCodeDict) as [c'|] eqn:D; [exists c'; now split|discriminate H].
    + intros (m & c & M & C). exists m. split; [now apply kget_some|]. rewrite C. now exists c.
Qed.
Lemma line_iff : (exists ls, printOpticalLine o d = Ok ls) <-> id_ok /\ angle_ok /\ code_ok.
Proof.
  unfold printOpticalLine.
  assert (forall x v, dget x d = None -> hasKeyOrVal d x v = v) as HK by (intros x v E; unfold hasKeyOrVal; now rewrite E).
  rewrite (HK $"precTime" _ NoPT), (HK $"precRA" _ NoPR), (HK $"precDec" _ NoPD), (HK $"ref" _ NoRef).
  destruct (time_ok time pt k PT (pf_day _ _ _ _ _ _ _ PF)) as [date HD].
  destruct (padD_ok (hasKeyOrVal d $"mag" []) 5 3 ltac:(lia) HM) as [mag Hmag].
  destruct (band_ok (hasKeyOrVal d $"band" $" ")) as [band Hband]. destruct (cat_ok cat SC) as [acat Hcat].
  assert (exists c, chat (hasKeyOrVal d $"notes" $" ") 0 = Ok c) as [n0 HN0]. { destruct (hasKeyOrVal d $"notes" $" ") as [|c s]; [congruence|]. now exists c. }
  split.
  - intro H. apply bind_ok in H as (id & Id & H). rewrite HN0, (pf_time _ _ _ _ _ _ _ PF), (pf_ra _ _ _ _ _ _ _ PF), (pf_dec _ _ _ _ _ _ _ PF) in H. cbn [rbind] in H.
    rewrite (proj2 (kget_some _ _) HT) in H. cbn [rbind] in H. rewrite HD, (proj2 (kget_some _ _) HS) in H. cbn [rbind] in H.
    apply bind_ok in H as ([ra de] & An & H). rewrite Hmag, Hband, (proj2 (kget_some _ _) HC) in H. cbn [rbind] in H. rewrite Hcat in H. cbn [rbind] in H.
    apply bind_ok in H as (pref & _ & H). rewrite NoProg in H. cbn [rbind] in H. apply bind_ok in H as (code & Co & _).
    split; [|split].
    + unfold id_ok. destruct (dget $"artSat" d); [left; intro X; discriminate X|right; now exists id].
    + apply (angles_ok pair). now exists (ra, de).
    + apply code_iff. now exists code.
  - intros (Id & An & Co). apply bind_ok.
    assert (exists id, match dget $"artSat" d with Some a => Ok (padl 12 a) | None => packTupleID (dget $"permID" d, dget $"provID" d, dget $"trkSub" d) end = Ok id) as [id Hid].
    { destruct Id as [Id|[c Id]]; destruct (dget $"artSat" d); try congruence; try (eexists; reflexivity). now exists c. }
    exists id. split; [exact Hid|]. rewrite HN0, (pf_time _ _ _ _ _ _ _ PF), (pf_ra _ _ _ _ _ _ _ PF), (pf_dec _ _ _ _ _ _ _ PF). cbn [rbind].
    rewrite (proj2 (kget_some _ _) HT). cbn [rbind]. rewrite HD, (proj2 (kget_some _ _) HS). cbn [rbind]. apply bind_ok.
    apply (angles_ok pair) in An as [[ra de] An]. exists (ra, de). split; [exact An|].
    rewrite Hmag, Hband, (proj2 (kget_some _ _) HC). cbn [rbind]. rewrite Hcat. cbn [rbind]. replace (packRef $" ") with (Ok (spaces 5)) by reflexivity. cbn [rbind]. rewrite NoProg. cbn [rbind].
    pose proof Co as Co'. apply code_iff in Co as [code Co]. rewrite Co. cbn [rbind]. unfold kmem. unfold code_ok in Co'. destruct (dget $"pos1" d) as [x|] eqn:P1; [|eexists; reflexivity].
    destruct (Hpos x eq_refl) as (y & z & s & Y & Z & Sy & Fine). unfold kget. rewrite P1, Y, Z, Sy. unfold hasKeyOrVal in Co'. rewrite Sy in Co'. cbn [rbind].
    destruct (Fine x (or_introl eq_refl)) as [Nx Px]. destruct (Fine y (or_intror (or_introl eq_refl))) as [Ny Py]. destruct (Fine z (or_intror (or_intror (or_introl eq_refl)))) as [Nz Pz].
    destruct Co' as [<-|[<-|[<-|[]]]].
    + replace (streqb $"WGS84" $"WGS84") with true by reflexivity. cbv iota. destruct (padD_ok x 11 4 ltac:(lia) Px) as [r1 ->]. destruct (padD_ok y 11 4 ltac:(lia) Py) as [r2 ->]. cbn [rbind]. eexists. reflexivity.
    + replace (streqb $"ICRF_AU" $"WGS84") with false by reflexivity. replace (streqb $"ICRF_AU" $"ICRF_AU") with true by reflexivity. cbv iota.
      destruct (satpos_ok x 3 ltac:(lia) Nx Px) as [r1 ->]. destruct (satpos_ok y 3 ltac:(lia) Ny Py) as [r2 ->]. destruct (satpos_ok z 3 ltac:(lia) Nz Pz) as [r3 ->]. cbn [rbind]. eexists. reflexivity.
    + replace (streqb $"ICRF_KM" $"WGS84") with false by reflexivity. replace (streqb $"ICRF_KM" $"ICRF_AU") with false by reflexivity. replace (streqb $"ICRF_KM" $"ICRF_KM") with true by reflexivity. cbv iota.
      destruct (satpos_ok x 7 ltac:(lia) Nx Px) as [r1 ->]. destruct (satpos_ok y 7 ltac:(lia) Ny Py) as [r2 ->]. destruct (satpos_ok z 7 ltac:(lia) Nz Pz) as [r3 ->]. cbn [rbind]. eexists. reflexivity.
Qed.
End Line.
