(** How the PSV file is laid out: vocabulary. *)
From Verif Require Export RoundSpec JustSpec.
From Verif Require Import PsvSpec2.
Local Open Scope nat_scope.

(** where the values stand in a column; [AtPoint p]: the decimal point, or the
    end of a value without one, in character p of the column *)
Inductive place := AtLeft | AtRight | Centred | AtPoint (p : nat).
Record column := { c_name : str; c_width : nat; c_place : place }.
(** the text of a value in its column *)
Definition filled (c : column) (v text : str) : Prop :=
  exists a b, text = spaces a ++ v ++ spaces b /\
  match c_place c with
  | AtLeft => a = 0 /\ length text = c_width c
  | AtRight => b = 0 /\ length text = c_width c
  | Centred => a <= b <= a + 1 /\ length text = c_width c
  | AtPoint p => a + length (before_point v) + 1 = p /\ length text = Nat.max (c_width c) (a + length v)
  end.
(** the text of a record in a column: blanks if it has no value *)
Definition cell (r : xml) (c : column) (text : str) : Prop :=
  match rec_value r (c_name c) with [] => text = spaces (c_width c) | v => filled c v text end.
(** fields separated by bars *)
Fixpoint bars (l : list str) : str := match l with [] => [] | [x] => x | x :: l' => x ++ $"|" ++ bars l' end.
(** the values of a column, from top to bottom *)
Definition column_values (rs : list xml) (k : str) : list str :=
  flat_map (fun r => match rec_value r k with [] => [] | v => [v] end) rs.
(** no value has more characters before the point than the first one *)
Definition first_longest (vs : list str) : Prop :=
  match vs with [] => True | v0 :: vs' => Forall (fun v => length (before_point v) <= length (before_point v0)) vs' end.

(** A section: a header line and one line for each record, without blanks at the
    end.  The columns are the fields with a value in some record. *)
Definition section (rs : list xml) (lines : list str) : Prop :=
  exists cols rows, 
    NoDup (map c_name cols) /\ (forall k, In k (map c_name cols) <-> exists r, In r rs /\ rec_value r k <> []) /\
    Forall (fun c => length (c_name c) <= c_width c) cols /\
    lines = rstrip (bars (map (fun c => c_name c ++ spaces (c_width c - length (c_name c))) cols)) :: rows /\
    Forall2 (fun r l => exists cells, Forall2 (cell r) cols cells /\ l = rstrip (bars cells)) rs rows /\
    (* values do not stick out of the column if its first value has the most characters before the point *)
    forall c p, In c cols -> c_place c = AtPoint p -> first_longest (column_values rs (c_name c)) ->
      Forall (fun v => p - 1 + (length v - length (before_point v)) <= c_width c) (column_values rs (c_name c)).

(** The sections of a document.  [pending]: the records not yet printed; [last]:
    the tag of the sibling before.  A block without records leaves them pending,
    so that they are printed again. *)
Inductive chunk := Context (lines : list str) | Records (rs : list xml).
Definition block_data_of (b : xml) : list xml := flat_map (fun k => if is_tag $"obsData" k then xkids k else []) (xkids b).
(** the header of a block: one line for each element and its parts *)
Definition labelled (mark : str) (e : xml) : str := rstrip (mark ++ $" " ++ xtag e ++ $" " ++ strip (xtext e)).
Definition block_header (b : xml) : list str :=
  flat_map (fun k => if is_tag $"obsContext" k then flat_map (fun i => labelled $"#" i :: map (labelled $"!") (xkids i)) (xkids k) else []) (xkids b).
Fixpoint chunks (es : list xml) (last : option str) (pending : list xml) : list chunk :=
  match es with
  | [] => [Records pending]
  | e :: es' =>
      if is_tag $"obsBlock" e then
        Records pending :: Context (block_header e) ::
        chunks es' (Some (xtag e)) (match block_data_of e with [] => pending | rs => rs end)
      else if match last with Some t => is_tag t e | None => false end then chunks es' last (pending ++ [e])
      else Records pending :: chunks es' (Some (xtag e)) [e]
  end.
Definition chunk_lines (c : chunk) (lines : list str) : Prop :=
  match c with
  | Context l => lines = l
  | Records [] => lines = []
  | Records rs => section rs lines
  end.

(** The bars of a section are below each other: header and rows are cells of the
    same widths, before blanks at the ends of the lines are removed. *)
Definition around (v x : str) : Prop := exists a b, x = spaces a ++ v ++ spaces b.
Definition aligned (names : list str) (rs : list xml) (lines : list str) : Prop :=
  exists widths cells0 rows,
    lines = rstrip (bars cells0) :: rows /\ Forall2 around names cells0 /\ map (@length ascii) cells0 = widths /\
    Forall2 (fun r l => exists cells, l = rstrip (bars cells) /\ Forall2 (fun k x => around (rec_value r k) x) names cells /\
                                      map (@length ascii) cells = widths) rs rows.
