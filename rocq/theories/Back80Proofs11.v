(** Lemmas about Back80Spec, part 11: the documents, and the lines printed from them. *)
From Verif Require Import PyStrProofs JustSpec JustProofs AdesMasterTables FmtRe.
From Verif Require Import XmlToMpc80 Mpc80 Mpc80Spec Line80Spec PackSpec DocSpec DocProofs2 DocProofs6 Mpc80Proofs1 Mpc80Proofs4 Mpc80Proofs11 Mpc80Proofs12 Mpc80Proofs13 PropsDoc.
From Verif Require Import Back80Spec Back80Proofs1 Back80Proofs2 Back80Proofs3 Back80Proofs4 Back80Proofs5 Back80Proofs6 Back80Proofs7 Back80Proofs8 Back80Proofs9 Back80Proofs10.
From Verif Require Import FileLines Mpc80 Mpc80Spec Back80Spec.
Local Open Scope nat_scope.

Lemma print_snoc o g P x ch : print_records o g = Ok P -> print_record o x = Ok ch -> print_records o (g ++ [x]) = Ok (P ++ ch).
Proof.
  unfold print_records. intros A B.
  assert (forall g ls, rmap (print_record o) g = Ok ls -> rmap (print_record o) (g ++ [x]) = Ok (ls ++ [ch])) as K.
  { clear A. induction g0 as [|y g0 IH]; intros ls H; cbn [app rmap] in *.
    - injection H as <-. rewrite B. reflexivity.
    - destruct (print_record o y); [|discriminate H]. cbn [rbind] in *. destruct (rmap _ g0) as [q|]; [|discriminate H]. cbn [rbind] in *. injection H as <-.
      rewrite (IH q eq_refl). reflexivity. }
  destruct (rmap (print_record o) g) as [ls|] eqn:G; [|discriminate A]. cbn [rbind] in A. injection A as <-. rewrite (K g ls G).
  cbn [rbind]. rewrite concat_app. cbn [concat]. now rewrite app_nil_r.
Qed.
Definition record_in (x : xml) : str * list (str * str) := (xtag x, subDict_of x).
Lemma print_all o chs xs : Forall2 (printed o) chs xs -> print_records o (map record_in xs) = Ok (concat chs).
Proof.
  induction 1 as [|ch x chs xs [_ P] _ IH]; [reflexivity|]. unfold print_records in *. cbn [map rmap concat]. unfold record_in at 1. rewrite P. cbn [rbind].
  destruct (rmap _ (map record_in xs)); [|discriminate IH]. cbn [rbind] in *. injection IH as <-. reflexivity.
Qed.
Definition ades_ok : list str := match dget $"ades" (allowed ades_tables) with Some l => l | None => [] end.
Definition data_ok : list str := match dget $"obsData" (allowed ades_tables) with Some l => l | None => [] end.
Definition block_ok : list str := match dget $"obsBlock" (allowed ades_tables) with Some l => l | None => [] end.
Lemma ades_ok_get : dget $"ades" (allowed ades_tables) = Some ades_ok /\ dget $"obsData" (allowed ades_tables) = Some data_ok /\ dget $"obsBlock" (allowed ades_tables) = Some block_ok.
Proof. vm_compute. auto. Qed.
Lemma ades_ok_tags : smem $"optical" ades_ok = true /\ smem $"radar" ades_ok = true /\ smem $"obsBlock" ades_ok = true /\
  smem $"optical" data_ok = true /\ smem $"radar" data_ok = true /\ smem $"obsContext" block_ok = true /\ smem $"obsData" block_ok = true.
Proof. vm_compute. repeat split. Qed.
Definition data_tag (t : str) : Prop := t = $"optical" \/ t = $"radar".
Lemma tag_data ch : ch <> [] -> data_tag (tag_of ch).
Proof. destruct ch as [|l ch]; [congruence|]. intros _. unfold tag_of. destruct (streqb _ _); [right|left]; reflexivity. Qed.
Lemma kept_some ch : kept ch -> ch <> []. Proof. destruct 1; discriminate. Qed.

(** * Without headers *)
Lemma plain_kids o chs xs : Forall2 (printed o) chs xs -> Forall (fun x => data_tag (xtag x)) xs ->
  forall last g out P, print_records o g = Ok P -> exists g' out' P',
    ades_kids80 ades_tables o xs last g out = Ok (g', out') /\ print_records o g' = Ok P' /\ out' ++ P' = out ++ P ++ concat chs.
Proof.
  induction 1 as [|ch x chs xs [T P] _ IH]; intros D last g out Q PQ.
  - exists g, out, Q. cbn [ades_kids80 concat]. rewrite app_nil_r. auto.
  - pose proof (Forall_inv D) as D1. apply Forall_inv_tail in D. cbn [ades_kids80]. rewrite (proj1 ades_ok_get).
    assert (smem (xtag x) ades_ok = true) as -> by (destruct D1 as [-> | ->]; apply ades_ok_tags). cbn [negb].
    assert (streqb (xtag x) $"obsBlock" = false) as -> by (destruct D1 as [-> | ->]; reflexivity).
    set (same := match last with Some t => streqb (xtag x) t | None => false end).
    assert (exists g1 P1 ls, (if same then Ok [] else print_records o g) = Ok ls /\ processDataElement80 (negb same) x g = g1 /\ print_records o g1 = Ok P1 /\ (out ++ ls) ++ P1 = out ++ Q ++ ch)
      as (g1 & P1 & ls & E1 & -> & E3 & E4).
    { unfold processDataElement80. destruct same; cbn [negb].
      - exists (g ++ [(xtag x, subDict_of x)]), (Q ++ ch), []. split; [reflexivity|]. split; [reflexivity|]. split; [now apply print_snoc|]. now rewrite app_nil_r.
      - exists [(xtag x, subDict_of x)], ch, Q. split; [exact PQ|]. split; [reflexivity|]. split; [|now rewrite app_assoc].
        apply (print_snoc o [] [] _ ch); [reflexivity|exact P]. }
    rewrite E1. cbn [rbind]. destruct (IH D (Some (xtag x)) g1 (out ++ ls) P1 E3) as (g' & out' & P' & A & B & C).
    exists g', out', P'. split; [exact A|]. split; [exact B|]. rewrite C. cbn [concat]. rewrite !app_assoc. rewrite !app_assoc in E4. now rewrite E4.
Qed.
Lemma printed_tags o chs xs : Forall2 (printed o) chs xs -> Forall (fun ch => ch <> []) chs -> Forall (fun x => data_tag (xtag x)) xs.
Proof. induction 1 as [|ch x chs xs [T P] _ IH]; intros N; constructor; [rewrite T; apply tag_data; exact (Forall_inv N)|apply IH; exact (Forall_inv_tail N)]. Qed.
Lemma kept_lines chs : Forall kept chs -> Forall (fun ch : list str => ch <> []) chs.
Proof. intros F. eapply Forall_impl; [|exact F]. exact kept_some. Qed.
Lemma written_some x t : written x = Written t -> exists kids, x = Some kids /\ t = ades kids.
Proof. destruct x as [kids|]; cbn [written]; [|intros H; discriminate H]. intros H. exists kids. split; [reflexivity|]. congruence. Qed.
Lemma opt_rad : dget $"optical" (allowed ades_tables) = Some ofields /\ dget $"radar" (allowed ades_tables) = Some rfields.
Proof. vm_compute. auto. Qed.
Lemma made_data nosplit chs ds : Forall2 (made nosplit) chs ds -> Forall (fun d => header d = false) ds.
Proof. induction 1 as [|ch d chs ds M _ IH]; constructor; auto. apply (m_data _ _ _ M). Qed.
Lemma plain_back nosplit o chs t : Forall kept chs -> readable (concat chs) -> whole nosplit (concat chs) ->
  mpc80coltoxml ades_tables nosplit (file (concat chs)) = Written t -> xmltompc80col ades_tables o t = Ok (file (concat chs)).
Proof.
  intros K R W H.
  assert (Forall plain_line (concat chs)) as PL by exact (proj1 R).
  destruct (all_made nosplit chs K PL W) as (ds & F).
  rewrite (C39_headerless ades_tables ofields rfields nosplit (concat chs) ds (proj1 opt_rad) (proj2 opt_rad) R) in H.
  2: { apply records_chunks; [|now apply made_unsplit with ds|now apply made_len with nosplit ds]. eapply Forall2_imp; [|exact F]. intros a b M. apply (m_yields _ _ _ M). }
  2: { now apply made_data with nosplit chs. }
  apply written_some in H as (xs & E & ->). pose proof (rows_printed nosplit o chs ds F xs E) as PR.
  unfold xmltompc80col, xmltompc80col_lines. change (xtag (ades xs)) with ($"ades"). change (streqb $"ades" $"ades") with true. cbn [negb]. change (xkids (ades xs)) with xs.
  destruct (plain_kids o chs xs PR (printed_tags o chs xs PR (kept_lines chs K)) None [] [] [] eq_refl) as (g' & out' & P' & A & B & C).
  rewrite A. cbn [rbind]. rewrite B. cbn [rbind]. rewrite C. reflexivity.
Qed.
