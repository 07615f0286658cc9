(** XML - PSV - XML: printing a section. *)
From Verif Require Import PyStrProofs XmlSpec XmlProofs PsvToXml PsvSpec PsvSpec2 PsvLines TablesProofs JustSpec JustProofs
  XmlProofs2 PsvProofs4 PsvProofs5 XmlToPsv RoundSpec RoundProofs1 RoundProofs2.

Lemma rmap_ok {A B} (f : A -> res B) (P : A -> B -> Prop) l : (forall x, In x l -> exists y, f x = Ok y /\ P x y) ->
  exists ys, rmap f l = Ok ys /\ Forall2 P l ys.
Proof.
  induction l as [|x l IH]; intros H; [exists []; auto|].
  destruct (H x) as (y & E & Hy); [now left|]. destruct IH as (ys & E2 & F); [intros; apply H; now right|].
  exists (y :: ys). cbn. rewrite E. cbn. rewrite E2. auto.
Qed.
Lemma nodup_names d l : NoDup (map h_id l) -> (forall h, In h l -> dget (h_name h) d = Some (h_id h)) -> NoDup (map h_name l).
Proof.
  induction l as [|h l IH]; intros N H; [constructor|]. inversion N as [|? ? NI N']; subst. cbn [map]. constructor.
  - intros I. apply in_map_iff in I as (h' & E & I). apply NI. apply in_map_iff. exists h'. split; auto.
    pose proof (H h' (or_intror I)) as A. pose proof (H h (or_introl eq_refl)) as B. rewrite E in A. congruence.
  - apply IH; auto. intros; apply H; now right.
Qed.
Lemma nodup_filter {A B} (f : A -> bool) (g : A -> B) l : NoDup (map g l) -> NoDup (map g (filter f l)).
Proof.
  induction l as [|x l IH]; intros N; [constructor|]. inversion N as [|? ? NI N']; subst. cbn [filter]. destruct (f x); auto.
  cbn [map]. constructor; auto. intros I. apply NI. apply in_map_iff in I as (y & E & I). apply filter_In in I as [I _].
  apply in_map_iff. eauto.
Qed.

(** characters of a printed line *)
Lemma rstrip_In c s : In c (rstrip s) -> In c s.
Proof. destruct (rstrip_prefix s) as (b & E & _). rewrite E at 2. intros I. apply in_or_app. now left. Qed.
Lemma join_In c cs : In c (join_bar cs) -> c = "|"%char \/ exists s, In s cs /\ In c s.
Proof.
  destruct cs as [|x cs]; [intros []|]. cbn [join_bar]. intros I. apply in_app_or in I as [I|I]; [right; exists x; split; [now left|auto]|].
  apply in_concat in I as (y & I & J). apply in_map_iff in I as (z & <- & I). destruct J as [<-|J]; auto.
  right. exists z. split; [now right|auto].
Qed.
Lemma one_line_join cs vs : Forall2 padded vs cs -> Forall one_line vs -> one_line (rstrip (join_bar cs)).
Proof.
  intros F O.
  assert (G : forall c, In c (rstrip (join_bar cs)) -> c = "|"%char \/ c = " "%char \/ exists v, In v vs /\ In c v).
  { intros c I. apply rstrip_In in I. apply join_In in I as [->|(s & I & J)]; auto.
    assert (K : exists v, In v vs /\ padded v s).
    { clear -F I. induction F; [destruct I|]. destruct I as [<-|I]; [exists x; split; [now left|auto]|].
      destruct IHF as (v & ? & ?); auto. exists v. split; [now right|auto]. }
    destruct K as (v & Iv & P). destruct (padded_chars _ _ _ P J); eauto. }
  rewrite Forall_forall in O.
  split; intros I; apply G in I as [I|[I|(v & Iv & I)]]; try discriminate I; destruct (O _ Iv); auto.
Qed.
Lemma no_pipe_padded vs cs : Forall2 padded vs cs -> Forall (fun v => ~ In "|"%char v) vs -> Forall (fun c => ~ In "|"%char c) cs.
Proof.
  intros F N. induction F as [|v s vs cs P F IH]; constructor; inversion N; subst; auto.
  intros I. destruct (padded_chars _ _ _ P I) as [K|K]; [auto|discriminate K].
Qed.
Lemma strip_padded vs cs : Forall2 padded vs cs -> Forall is_trimmed vs -> map strip cs = vs.
Proof.
  intros F N. induction F as [|v s vs cs P F IH]; [reflexivity|]. inversion N; subst. cbn [map]. rewrite IH by auto. f_equal.
  now apply padded_strip.
Qed.

Lemma name_chars n c : valid_name n = true -> In c n -> c <> "|"%char /\ c <> nl /\ c <> cr.
Proof.
  intros V I. assert (A : forall c, name_char c = true -> (ceqb c "|" || ceqb c nl || ceqb c cr) = false).
  { intros x. apply (implf_ascii name_char (fun c => ceqb c "|" || ceqb c nl || ceqb c cr)). vm_compute. reflexivity. }
  assert (N : name_char c = true).
  { unfold valid_name in V. destruct n as [|d n]; [destruct I|]. apply andb_prop in V as [V1 V2]. destruct I as [->|I].
    - unfold name_char. now rewrite V1.
    - rewrite forallb_forall in V2. auto. }
  apply A in N. apply orb_false_iff in N as [N N3]. apply orb_false_iff in N as [N1 N2]. apply ceqb_neq in N1, N2, N3. auto.
Qed.
Lemma name_trimmed n : valid_name n = true -> is_trimmed n.
Proof.
  intros V. destruct (name_word _ V) as [N F]. apply is_trimmed_iff. apply nospace_trimmed. apply forallb_forall.
  intros c I. rewrite Forall_forall in F. rewrite F; auto.
Qed.

Lemma alpha_head s : starts_alpha s -> header_cell s /\ forall m r, s = m :: r -> m <> "#"%char /\ m <> "!"%char.
Proof.
  intros (c & r & -> & A). split; [exact A|]. intros m r' E. injection E as <- _. split; intros ->; discriminate A.
Qed.

Lemma value_map (f : str -> str) cols k : NoDup cols -> In k cols -> value_of cols (map f cols) k = f k.
Proof.
  intros N I. apply value_in; auto.
  - apply map_length.
  - clear N. induction cols as [|c cols IH]; [destruct I|]. cbn. destruct I as [->|I]; auto.
Qed.
Lemma row_normal T ty al r cols : dget ty (allowed T) = Some al -> xtag r = ty -> NoDup cols -> 
  (forall k, rec_value r k <> [] -> In k cols) ->
  row_tree al ty cols (map (rec_value r) cols) = normal_record T r.
Proof.
  intros Ea <- N H. unfold row_tree, normal_record, order_of. rewrite Ea. f_equal.
  assert (V : forall k, value_of cols (map (rec_value r) cols) k = rec_value r k).
  { intros k. destruct (in_dec (list_eq_dec ascii_dec) k cols) as [I|NI]; [now apply value_map|].
    rewrite value_out by auto. destruct (rec_value r k) eqn:E; auto. exfalso. apply NI, H. congruence. }
  rewrite (filter_ext _ (fun k => negb (streqb (rec_value r k) []))) by (intros; now rewrite V).
  apply map_ext. intros k. now rewrite V.
Qed.

Definition keys_of (rs : list xml) (ks : list str) : Prop := forall k, In k ks <-> exists r, In r rs /\ rec_value r k <> [].

Lemma print_section T ty g ks rs fs al rq : printable T ty ->
  dget ty (psvFormat T) = Some fs -> dget ty (allowed T) = Some al -> dget ty (required T) = Some rq ->
  Forall (fun k => valid_name k = true /\ starts_alpha k) al ->
  good T ty al fs g ks -> keys_of rs ks -> x_data g = map subDict_of rs -> rs <> [] -> Forall (writable_record T ty) rs ->
  exists raws cols rows, printDataDicts g = Ok raws /\ Forall2 (reads_as T) raws (LHead cols ty :: map LData rows) /\
    Forall (fun l => nonblank l = true) raws /\ Forall one_line raws /\ rows <> [] /\
    Forall (fun r => (length r <= length cols)%nat) rows /\ map (row_tree al ty cols) rows = map (normal_record T) rs.
Proof.
  intros (_ & _ & _ & _ & TA & _) Ef Ea Er Fal G K D N W.
  set (items := filter h_seen (x_info g)). set (cols := map h_name items).
  assert (Hit : forall h, In h items -> In h (x_info g) /\ dget (h_name h) (x_dict g) = Some (h_id h) /\ In (h_name h) ks).
  { intros h I. apply filter_In in I as [I S]. destruct (G3 _ _ _ _ _ _ G h I S). auto. }
  assert (Kal : forall k, In k ks -> In k al).
  { intros k I. apply K in I as (r & I & V). rewrite Forall_forall in W. destruct (W r I) as (_ & H & _). apply H in V as [V _].
    unfold order_of in V. now rewrite Ea in V. }
  assert (Cks : forall k, In k cols <-> In k ks).
  { intros k. split.
    - intros I. apply in_map_iff in I as (h & <- & I). now apply Hit.
    - intros I. destruct (G3' _ _ _ _ _ _ G k I) as (h & Ih & <- & S). apply in_map. now apply filter_In. }
  assert (ND : NoDup cols).
  { apply (nodup_names (x_dict g)); [apply nodup_filter; apply G|]. intros h I. now apply Hit. }
  assert (Cn : Forall (fun k => valid_name k = true /\ starts_alpha k) cols).
  { apply Forall_forall. intros k I. apply Cks, Kal in I. rewrite Forall_forall in Fal. auto. }
  assert (Call : forall r k, In r rs -> rec_value r k <> [] -> In k cols).
  { intros r k I V. apply Cks, K. eauto. }
  (* header *)
  destruct (rmap_ok (fun h => do (s, _, _) <- applyPaddingAndJustification (h_name h) (h_width h) $"L" 0; Ok s)
              (fun h s => padded (h_name h) s) items) as (hs & Eh & Fh).
  { intros h I. destruct (just_ok (h_name h) (h_width h) $"L" 0) as (s & w & d & E & P & _); [left; now left|intros NL; exfalso; apply NL; now left|].
    exists s. rewrite E. auto. }
  assert (Fh' : Forall2 padded cols hs).
  { clear -Fh. unfold cols. induction Fh; constructor; auto. }
  set (hraw := rstrip (join_bar hs)).
  assert (Ne : cols <> []).
  { destruct rs as [|r rs]; [congruence|]. inversion W as [|? ? (_ & _ & _ & (k & V & _) & _) _]; subst.
    intros E. apply (Call r k) in V; [|now left]. rewrite E in V. destruct V. }
  assert (Neh : hs <> []) by (intros ->; inversion Fh'; subst; congruence).
  assert (Ch : cells hraw = cols).
  { unfold hraw. rewrite cells_join; auto.
    - apply strip_padded; auto. eapply Forall_impl; [|exact Cn]. intros k [V _]. now apply name_trimmed.
    - eapply no_pipe_padded; eauto. eapply Forall_impl; [|exact Cn]. intros k [V _] I. now apply (name_chars k "|"%char V) in I. }
  assert (Rh : reads_as T hraw (LHead cols ty)).
  { rewrite <- Ch. apply r_head.
    - assert (NB : nonblank hraw = true); [|now apply nonblank_true]. apply nonblank_cells. rewrite Ch. intros F.
      destruct cols as [|k cs]; [congruence|]. inversion F; inversion Cn as [|? ? [V _] _]; subst. discriminate V.
    - intros X. revert X. assert (NC : ~ is_context hraw).
      { unfold hraw. destruct hs as [|s hs]; [congruence|]. apply join_not_context. intros m r E.
        destruct cols as [|k cs]; [congruence|]. inversion Fh'; subst. inversion Cn as [|? ? [V A] _]; subst.
        rewrite (padded_strip k) in E by (auto using name_trimmed). now apply (proj2 (alpha_head k A)) in E. }
      intros X. apply NC. now left.
    - intros X. revert X. assert (NC : ~ is_context hraw).
      { unfold hraw. destruct hs as [|s hs]; [congruence|]. apply join_not_context. intros m r E.
        destruct cols as [|k cs]; [congruence|]. inversion Fh'; subst. inversion Cn as [|? ? [V A] _]; subst.
        rewrite (padded_strip k) in E by (auto using name_trimmed). now apply (proj2 (alpha_head k A)) in E. }
      intros X. apply NC. now right.
    - rewrite Ch. eapply Forall_impl; [|exact Cn]. intros k [_ A]. now apply alpha_head.
    - rewrite Ch. apply (TA al rq); auto.
      + intros k I. apply Kal, Cks. exact I.
      + intros k I. destruct rs as [|r rs]; [congruence|]. inversion W as [|? ? (_ & _ & Rq & _) _]; subst.
        apply (Call r); [now left|]. eapply Rq; eauto. }
  assert (Oh : one_line hraw).
  { eapply one_line_join; eauto. eapply Forall_impl; [|exact Cn]. intros k [V _]. split; intros I; now apply (name_chars _ _ V) in I. }
  assert (Nh : nonblank hraw = true).
  { apply nonblank_cells. rewrite Ch. intros F. destruct cols as [|k cs]; [congruence|]. inversion F; inversion Cn as [|? ? [V _] _]; subst. discriminate V. }
  (* rows *)
  assert (First : forall r k0 cs, In r rs -> cols = k0 :: cs -> ~ starts_hash (rec_value r k0)).
  { intros r k0 cs I Ec H. assert (V : rec_value r k0 <> []) by (destruct H as (c & x & E & _); congruence).
    rewrite Forall_forall in W. destruct (W r I) as (_ & H1 & _ & _ & (k & Vk & Nk)).
    destruct (H1 k0 V) as [_ (_ & _ & H2 & _)].
    destruct (list_eq_dec ascii_dec k0 (last_column T ty)) as [El|Nl]; [|now apply H2 in Nl].
    assert (Nf : fs <> []).
    { intros ->. unfold last_column in El. rewrite Ef in El. cbn in El. subst k0. 
      assert (In [] cols) as J by (rewrite Ec; now left). rewrite Forall_forall in Cn. destruct (Cn _ J) as [J' _]. discriminate J'. }
    destruct (G6 _ _ _ _ _ _ G Nf) as (l & hl & Ei & En & Ed).
    unfold cols, items in Ec. rewrite Ei, filter_app in Ec.
    destruct (filter h_seen l) as [|h0 l0] eqn:Efl.
    - cbn [app filter] in Ec. assert (Kc : In k cols) by (apply (Call r); auto). unfold cols, items in Kc. rewrite Ei, filter_app, Efl in Kc.
      cbn [app filter] in Kc. destruct (h_seen hl); [|destruct Kc]. destruct Kc as [Kc|[]]. congruence.
    - cbn [app map] in Ec. injection Ec as E0 _.
      assert (I0 : In h0 l /\ h_seen h0 = true) by (apply filter_In; rewrite Efl; now left).
      destruct I0 as [I0 S0]. destruct (G3 _ _ _ _ _ _ G h0) as [Q _]; auto; [rewrite Ei; apply in_or_app; now left|].
      assert (h_id h0 = h_id hl) by (rewrite E0, El, <- En in Q; congruence).
      pose proof (G1 _ _ _ _ _ _ G) as ND1. rewrite Ei, map_app in ND1. cbn [map] in ND1. apply NoDup_remove_2 in ND1.
      apply ND1. rewrite app_nil_r. apply in_map_iff. eauto. }
  destruct (rmap_ok (fun sd => row_text (x_info g) sd) (fun sd raw => forall r, In r rs -> sd = subDict_of r ->
     reads_as T raw (LData (map (rec_value r) cols)) /\ nonblank raw = true /\ one_line raw) (map subDict_of rs)) as (raws & Er' & Fr).
  { intros sd I. apply in_map_iff in I as (r & <- & I).
    assert (Wr : writable_record T ty r) by (rewrite Forall_forall in W; auto).
    destruct (rmap_ok (cell_text (subDict_of r)) (fun h s => padded (rec_value r (h_name h)) s) items) as (cs & Ec & Fc).
    { intros h Ih. unfold cell_text. rewrite rec_get. destruct Wr as (_ & Wv & _). specialize (Wv (h_name h)).
      destruct (rec_value r (h_name h)) as [|c v] eqn:V.
      - eexists. split; [reflexivity|]. unfold zspaces. exists (Z.to_nat (h_width h)), 0%nat. cbn. now rewrite app_nil_r.
      - destruct Wv as [_ (_ & _ & _ & Pt)]; [discriminate|]. destruct (Hit h Ih) as (Ii & Di & _).
        destruct (just_ok (c :: v) (h_width h) (h_fmt h) (h_dpos h)) as (s & w & d & E & P & _).
        + apply (G4 _ _ _ _ _ _ G); auto.
        + intros NL. apply Pt. destruct (free_column T ty (h_name h)) eqn:Fc; auto. exfalso. apply NL. now apply (G5 _ _ _ _ _ _ G).
        + rewrite E. cbn [rbind]. eauto. }
    unfold row_text. fold items. rewrite Ec. cbn [rbind]. eexists. split; [reflexivity|].
    intros r2 I2 E2.
    assert (EV : forall k, rec_value r2 k = rec_value r k).
    { intros k. pose proof (rec_get r2 k) as A. rewrite <- E2, rec_get in A. destruct (rec_value r k), (rec_value r2 k); congruence. }
    assert (Fc' : Forall2 padded (map (rec_value r) cols) cs).
    { clear -Fc. unfold cols. induction Fc; constructor; auto. }
    assert (Wvals : Forall (fun v => one_line v /\ ~ In "|"%char v) (map (rec_value r) cols)).
    { apply Forall_forall. intros v Iv. apply in_map_iff in Iv as (k & <- & Ik). destruct Wr as (_ & Wv & _). specialize (Wv k).
      destruct (rec_value r k) eqn:V; [split; [split|]; intros []|]. destruct Wv as [_ (O & P & _)]; [discriminate|]. auto. }
    assert (Nc : cs <> []) by (intros ->; inversion Fc'; destruct cols; [congruence|discriminate]).
    assert (Cr : cells (rstrip (join_bar cs)) = map (rec_value r) cols).
    { rewrite cells_join; auto.
      - apply strip_padded; auto. apply Forall_forall. intros v Iv. apply in_map_iff in Iv as (k & <- & _). apply rec_trimmed.
      - eapply no_pipe_padded; eauto. eapply Forall_impl; [|exact Wvals]. now intros v []. }
    assert (DL : data_line (rstrip (join_bar cs))).
    { split.
      - destruct cs as [|s cs]; [congruence|]. apply join_not_context. intros m x E.
        destruct cols as [|k0 cs0] eqn:Eco; [congruence|]. cbn [map] in Fc'. inversion Fc'; subst.
        rewrite (padded_strip (rec_value r k0)) in E by (auto using rec_trimmed).
        pose proof (First r k0 cs0 I eq_refl) as NH. split; intros ->; apply NH; do 2 eexists; (split; [exact E|auto]).
      - rewrite Cr. intros F. destruct Wr as (_ & _ & _ & (k & V & NA) & _). rewrite Forall_forall in F.
        assert (header_cell (rec_value r k)) as HC by (apply F, in_map, (Call r); auto).
        destruct (rec_value r k) as [|c v] eqn:Ek; [congruence|]. apply NA. exists c, v. auto. }
    split; [|split].
    + apply reads_data; auto. rewrite Cr. f_equal. apply map_ext. intros k. now rewrite EV.
    + now apply data_nonblank.
    + eapply one_line_join; eauto. eapply Forall_impl; [|exact Wvals]. now intros v []. }
  exists (hraw :: raws), cols, (map (fun r => map (rec_value r) cols) rs).
  split; [|split; [|split; [|split; [|split; [|split]]]]].
  - unfold printDataDicts. rewrite D. destruct rs as [|r rs]; [congruence|]. cbn [map]. unfold header_text. fold items. rewrite Eh. cbn [rbind].
    change (subDict_of r :: map subDict_of rs) with (map subDict_of (r :: rs)).
    replace (rmap (row_text (x_info g)) (map subDict_of (r :: rs))) with (rmap (fun sd => row_text (x_info g) sd) (map subDict_of (r :: rs))) by reflexivity.
    rewrite Er'. reflexivity.
  - constructor; auto. clear -Fr. assert (G : forall l raws, (forall x, In x l -> In x rs) -> Forall2 (fun (sd : list (str * str)) (raw : str) => forall r, In r rs -> sd = subDict_of r ->
     reads_as T raw (LData (map (rec_value r) cols)) /\ nonblank raw = true /\ one_line raw) (map subDict_of l) raws -> Forall2 (reads_as T) raws (map LData (map (fun r => map (rec_value r) cols) l))).
    { induction l as [|r l IH]; intros rw S F; inversion F; subst; constructor; [|apply IH; auto; intros; apply S; now right].
      apply H1; auto. apply S. now left. }
    apply G; auto.
  - constructor; auto. clear -Fr. remember (map subDict_of rs) as sds. assert (S : forall x, In x sds -> exists r, In r rs /\ x = subDict_of r).
    { intros x I. subst. apply in_map_iff in I as (r & <- & I). eauto. }
    clear Heqsds. induction Fr as [|sd raw sds raws H F IH]; constructor.
    + destruct (S sd) as (r & I & E); [now left|]. now apply (H r).
    + apply IH. intros; apply S; now right.
  - constructor; auto. clear -Fr. remember (map subDict_of rs) as sds. assert (S : forall x, In x sds -> exists r, In r rs /\ x = subDict_of r).
    { intros x I. subst. apply in_map_iff in I as (r & <- & I). eauto. }
    clear Heqsds. induction Fr as [|sd raw sds raws H F IH]; constructor.
    + destruct (S sd) as (r & I & E); [now left|]. now apply (H r).
    + apply IH. intros; apply S; now right.
  - destruct rs; [congruence|discriminate].
  - apply Forall_forall. intros x I. apply in_map_iff in I as (r & <- & _). rewrite map_length. lia.
  - rewrite map_map. apply map_ext_in. intros r I. apply row_normal; auto.
    + rewrite Forall_forall in W. now destruct (W r I).
    + intros k V. apply (Call r); auto.
Qed.
