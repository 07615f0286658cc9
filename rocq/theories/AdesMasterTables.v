(** The tables computed from xml/adesmaster.xml when adesutility is imported
    (adesutility.py:449). *)
From Verif Require Import AdesTables Master.

Definition ades_tables : tables :=
  Eval vm_compute in
    match readAdesTables 20 adesmaster with Some (Ok t) => t | _ => empty_tables end.

Lemma ades_tables_computed : readAdesTables 20 adesmaster = Some (Ok ades_tables).
Proof. vm_compute. reflexivity. Qed.
