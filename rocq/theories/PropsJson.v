(** C37: XML to JSON to XML (model: Json.v; vocabulary: JsonSpec.v). *)
From Coq Require Import Permutation.
From Verif Require Import JsonSpec JsonProofs3.
From Verif Require Import Json JsonSpec.

(** The document that comes back says the same, except that in every element
    the children of the same name stand together, in the order in which the
    names first occur.  [repr] is Python's str() of containers: it does not
    matter. *)
Theorem C37_round repr x : is_element x -> well_formed x ->
  exists y, jsontoxml repr (xmltojson x) = Ok (Some y) /\ is_element y /\ meaning y = grouped (meaning x).
Proof. exact (round repr x). Qed.

(** Every element, with its position in the hierarchy, attributes and text, is
    there as often as before. *)
Theorem C37_nothing_lost repr x y : is_element x -> well_formed x -> jsontoxml repr (xmltojson x) = Ok (Some y) ->
  Permutation (entries [] (meaning y)) (entries [] (meaning x)).
Proof.
  intros E W J. destruct (round repr x E W) as (y' & J' & _ & M). assert (y' = y) by congruence. subst. rewrite M. apply grouped_entries.
Qed.

(** The order among siblings of the same name is kept (at every depth, since
    [grouped] is what happens to the children too). *)
Theorem C37_same_named_in_order repr x y n : is_element x -> well_formed x -> jsontoxml repr (xmltojson x) = Ok (Some y) ->
  named n (xkids (meaning y)) = map grouped (named n (xkids (meaning x))).
Proof.
  intros E W J. destruct (round repr x E W) as (y' & J' & _ & M). assert (y' = y) by congruence. subst. rewrite M. apply grouped_named.
Qed.

(** If siblings of the same name always stand together, nothing changes at all. *)
Theorem C37_tidy repr x : is_element x -> well_formed x -> tidy (meaning x) ->
  exists y, jsontoxml repr (xmltojson x) = Ok (Some y) /\ meaning y = meaning x.
Proof.
  intros E W T. destruct (round repr x E W) as (y & J & _ & M). exists y. split; [exact J|]. rewrite M. now apply tidy_grouped.
Qed.

(** Converting the result to JSON again gives the same JSON value. *)
Theorem C37_again repr x y : is_element x -> well_formed x -> jsontoxml repr (xmltojson x) = Ok (Some y) -> xmltojson y = xmltojson x.
Proof. exact (again repr x y). Qed.

(** A JSON file with two roots is refused. *)
Theorem C37_one_root repr k v k' v' o y : jsontoxml repr (JObj ((k, v) :: (k', v') :: o)) = Ok y -> False.
Proof. cbn [jsontoxml]. destruct (emit1 repr 0 k _); discriminate. Qed.
Theorem C37_one_root_list repr k v v' l y : jsontoxml repr (JObj [(k, JList (v :: v' :: l))]) = Ok y -> False.
Proof. cbn [jsontoxml]. destruct (emit1 repr 0 k _); discriminate. Qed.

(** * Examples *)
Definition el (t : string) (ks : list xnode) : xnode := NElem $t [] ks.
Definition ind : xnode := NText (nl :: $"   ").
Definition ex_data : xnode :=
  NElem $"ades" [($"version", $"2022")]
    [ind; NOther; el "obsBlock" [ind;
       el "obsData" [ind; el "optical" [el "stn" [NText $" 568 "]; el "mag" [NText $"21.3"]]; ind;
                     el "offset" [el "stn" [NText $"F51"]]; ind;
                     el "optical" [el "stn" [NText $"568"]; el "remarks" []]; ind]; ind]; ind].
Example ex_data_ok : is_element ex_data /\ well_formed ex_data.
Proof.
  split; [repeat eexists|]. unfold ex_data, el, ind.
  assert (N : forall c s, ceqb c "@" = false -> ceqb c "#" = false -> name_like (c :: s)).
  { intros c s H1 H2. exists c, s. split; [reflexivity|]. split; intros ->; discriminate. }
  assert (T : forall s, forallb (fun c => negb (code c =? 13)%N) s = true -> well_formed (NText s)).
  { intros s H. constructor. intros I. rewrite forallb_forall in H. specialize (H _ I). discriminate. }
  assert (ND : NoDup (@nil str)) by constructor.
  assert (NV : NoDup (map fst [($"version", $"2022")])) by (constructor; [intros []|constructor]).
  repeat first [ apply wf_other | exact ND | exact NV | apply T; reflexivity | apply N; reflexivity | apply Forall_nil | apply Forall_cons | apply wf_elem ].
Qed.
Example ex_data_json :
  xmltojson ex_data =
  JObj [($"ades", JObj [($"@version", JStr $"2022"); ($"obsBlock", JObj [($"obsData",
    JObj [($"optical", JList [JObj [($"stn", JStr $"568"); ($"mag", JStr $"21.3")];
                              JObj [($"stn", JStr $"568"); ($"remarks", JNull)]]);
          ($"offset", JObj [($"stn", JStr $"F51")])])])])].
Proof. vm_compute. reflexivity. Qed.
(** a tidy document *)
Definition ex_tidy : xnode :=
  NElem $"ades" [($"version", $"2022")]
    [el "optical" [el "stn" [NText $"568"]]; el "optical" [el "stn" [NText $"F51"]]; el "offset" [el "stn" [NText $"F51"]]].
Example ex_tidy_ok : tidy (meaning ex_tidy).
Proof.
  assert (L : forall t s, tidy (Elem t [] s [])) by (intros; constructor; [exact I|constructor]).
  vm_compute. constructor.
  - split; [now left|]. split; [|exact (conj I I)]. right. intros [H|[]]. discriminate H.
  - repeat (apply Forall_cons || apply Forall_nil); (constructor; [exact (conj I I)|repeat (apply Forall_cons || apply Forall_nil); apply L]).
Qed.

(** * What is not kept *)
(** The order of records of different kinds is lost. *)
Theorem C37_interleaving_refuted repr : exists x y, is_element x /\ well_formed x /\
  jsontoxml repr (xmltojson x) = Ok (Some y) /\ meaning y <> meaning x.
Proof.
  destruct (C37_round repr ex_data (proj1 ex_data_ok) (proj2 ex_data_ok)) as (y & J & _ & M).
  exists ex_data, y. split; [apply ex_data_ok|]. split; [apply ex_data_ok|]. split; [exact J|].
  rewrite M. vm_compute. discriminate.
Qed.
(** A carriage return inside a text (a character reference) becomes a line feed. *)
Theorem C37_carriage_return_refuted repr : exists x y, is_element x /\
  jsontoxml repr (xmltojson x) = Ok (Some y) /\ tidy (meaning x) /\ meaning y <> meaning x.
Proof.
  exists (NElem $"line" [] [NText ($"a" ++ [Ascii.ascii_of_N 13] ++ $"b")]). eexists. split; [repeat eexists|].
  split; [vm_compute; reflexivity|]. split; [cbn [meaning flat_map]; repeat constructor|]. vm_compute. discriminate.
Qed.

Print Assumptions C37_round.
Print Assumptions C37_nothing_lost.
Print Assumptions C37_same_named_in_order.
Print Assumptions C37_tidy.
Print Assumptions C37_again.
Print Assumptions C37_one_root.
Print Assumptions C37_one_root_list.
Print Assumptions C37_interleaving_refuted.
Print Assumptions C37_carriage_return_refuted.
