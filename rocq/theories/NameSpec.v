(** Vocabulary of C25_texts: the names and texts of XML 1.0 (productions 2, 4 and
    5, for characters up to U+00FF and without the colon of namespaces). *)
From Coq Require Import List NArith.
From Coq Require Ascii.
Import ListNotations.
Local Open Scope N_scope.

Definition within (ranges : list (N * N)) (c : Ascii.ascii) : Prop :=
  exists lo hi, In (lo, hi) ranges /\ lo <= Ascii.N_of_ascii c <= hi.
(** A-Z, underscore, a-z, letters with accents *)
Definition start_ranges : list (N * N) := [(65, 90); (95, 95); (97, 122); (192, 214); (216, 246); (248, 255)].
(** and - . 0-9 and the middle dot *)
Definition name_ranges : list (N * N) := start_ranges ++ [(45, 46); (48, 57); (183, 183)].
Definition text_ranges : list (N * N) := [(9, 10); (13, 13); (32, 255)].
Definition xml_name (s : list Ascii.ascii) : Prop :=
  match s with c :: s' => within start_ranges c /\ Forall (within name_ranges) s' | [] => False end.
Definition xml_text (s : list Ascii.ascii) : Prop := Forall (within text_ranges) s.
