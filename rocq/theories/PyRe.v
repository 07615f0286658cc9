(** Python language layer: the [re] module, restricted to what /repo uses.

    Patterns are written in Coq as the very text of the Python source and are
    parsed by [re_parse]; [re_match] is re.compile(p).match(s): anchored at the
    start, leftmost alternative first, greedy repetition, backtracking, capture
    groups.  Supported: literals, '.', \d \s \S and escaped punctuation, [...] with
    ranges, ( ) (?: ) (?P<name> ) | , ^ $ , and ? * + {n} {n,m} on single characters/classes
    (? also on groups).  /repo uses nothing else.  *)
From Verif Require Export PyStr.

(** a character class: a list of inclusive ranges, possibly negated *)
Record cls := Cl { c_neg : bool; c_rs : list (ascii * ascii) }.

Inductive re :=
| REps
| RCls (c : cls)
| RSeq (a b : re)
| RAlt (a b : re)
| RRep (c : cls) (mn : nat) (mx : option nat)
| RGrp (i : nat) (r : re)
| REos.

Definition inr (rs : list (ascii * ascii)) (c : ascii) : bool :=
  existsb (fun p => cle (fst p) c && cle c (snd p)) rs.
Definition incls (k : cls) (c : ascii) : bool := xorb (c_neg k) (inr (c_rs k) c).

(** * Parser for pattern text *)
Definition c_digit : cls := Cl false [("0", "9")%char].
Definition c_space : cls :=
  Cl false [(ascii_of_N 9, ascii_of_N 13); (ascii_of_N 28, ascii_of_N 32);
            (ascii_of_N 133, ascii_of_N 133); (ascii_of_N 160, ascii_of_N 160)].
Definition c_dot : cls := Cl true [(nl, nl)].
Definition c_one (c : ascii) : cls := Cl false [(c, c)].

Definition p_escape (c : ascii) : option cls :=
  if ceqb c "d" then Some c_digit
  else if ceqb c "s" then Some c_space
  else if ceqb c "S" then Some (Cl true (c_rs c_space))
  else if isalnum c then None
  else Some (c_one c).

(** body of [...]; a '-' between two characters makes a range *)
Fixpoint p_class (f : nat) (s : str) (acc : list (ascii * ascii)) : option (list (ascii * ascii) * str) :=
  match f with
  | O => None
  | S f' =>
    match s with
    | [] => None
    | c :: s' =>
        if ceqb c "]" then Some (rev acc, s')
        else if ceqb c "\" then
          match s' with
          | e :: s'' => match p_escape e with
                        | Some k => p_class f' s'' (rev (c_rs k) ++ acc)
                        | None => None
                        end
          | [] => None
          end
        else match s' with
             | d :: e :: s'' =>
                 if ceqb d "-" && negb (ceqb e "]") then p_class f' s'' ((c, e) :: acc)
                 else p_class f' s' ((c, c) :: acc)
             | _ => p_class f' s' ((c, c) :: acc)
             end
    end
  end.

Fixpoint p_num (s : str) (acc : nat) (seen : bool) : option nat * str :=
  match s with
  | c :: s' => if isdig c then p_num s' (10 * acc + N.to_nat (code c - 48)) true
               else (if seen then Some acc else None, s)
  | [] => (if seen then Some acc else None, s)
  end.

(** optional quantifier after an atom *)
Definition p_quant (a : re) (s : str) : option (re * str) :=
  let rep mn mx s' := match a with RCls k => Some (RRep k mn mx, s') | _ => None end in
  match s with
  | c :: s' =>
      if ceqb c "*" then rep O None s'
      else if ceqb c "+" then rep 1%nat None s'
      else if ceqb c "?" then
        match a with RCls k => Some (RRep k O (Some 1%nat), s') | _ => Some (RAlt a REps, s') end
      else if ceqb c "{" then
        match p_num s' O false with
        | (Some n, d :: s'') =>
            if ceqb d "}" then rep n (Some n) s''
            else if ceqb d "," then
              match p_num s'' O false with
              | (Some m, e :: s3) => if ceqb e "}" then rep n (Some m) s3 else None
              | _ => None
              end
            else None
        | _ => None
        end
      else Some (a, s)
  | [] => Some (a, s)
  end.

(** the rest after the name of (?P<name>...); the group is known by its number *)
Fixpoint skip_name (s : str) : str :=
  match s with
  | [] => []
  | c :: s' => if ceqb c ">" then s' else skip_name s'
  end.

Fixpoint p_alt (f n : nat) (s : str) {struct f} : option (re * nat * str) :=
  match f with
  | O => None
  | S f' =>
    match p_seq f' n s with
    | Some (r, n', c :: s') =>
        if ceqb c "|" then
          match p_alt f' n' s' with
          | Some (r2, n2, s2) => Some (RAlt r r2, n2, s2)
          | None => None
          end
        else Some (r, n', c :: s')
    | x => x
    end
  end
with p_seq (f n : nat) (s : str) {struct f} : option (re * nat * str) :=
  match f with
  | O => None
  | S f' =>
    match s with
    | [] => Some (REps, n, [])
    | c :: _ =>
        if ceqb c ")" || ceqb c "|" then Some (REps, n, s)
        else match p_atom f' n s with
             | Some (a, n', s') =>
                 match p_quant a s' with
                 | Some (a', s'') =>
                     match p_seq f' n' s'' with
                     | Some (r, n3, s3) =>
                         Some (match r with REps => a' | _ => RSeq a' r end, n3, s3)
                     | None => None
                     end
                 | None => None
                 end
             | None => None
             end
    end
  end
with p_atom (f n : nat) (s : str) {struct f} : option (re * nat * str) :=
  match f with
  | O => None
  | S f' =>
    match s with
    | [] => None
    | c :: s' =>
        if ceqb c "(" then
          match s' with
          | q :: col :: s'' =>
              if ceqb q "?" then
                (if ceqb col ":" then
                   match p_alt f' n s'' with
                   | Some (r, n', d :: s3) => if ceqb d ")" then Some (r, n', s3) else None
                   | _ => None
                   end
                 else if ceqb col "P" then
                   match p_alt f' (S n) (skip_name s'') with
                   | Some (r, n', d :: s3) => if ceqb d ")" then Some (RGrp n r, n', s3) else None
                   | _ => None
                   end
                 else None)
              else match p_alt f' (S n) s' with
                   | Some (r, n', d :: s3) => if ceqb d ")" then Some (RGrp n r, n', s3) else None
                   | _ => None
                   end
          | _ => None
          end
        else if ceqb c "[" then
          match s' with
          | q :: s'' =>
              if ceqb q "^" then
                match p_class f' s'' [] with
                | Some (rs, s3) => Some (RCls (Cl true rs), n, s3) | None => None end
              else match p_class f' s' [] with
                   | Some (rs, s3) => Some (RCls (Cl false rs), n, s3) | None => None end
          | [] => None
          end
        else if ceqb c "\" then
          match s' with
          | e :: s'' => match p_escape e with Some k => Some (RCls k, n, s'') | None => None end
          | [] => None
          end
        else if ceqb c "^" then Some (REps, n, s')
        else if ceqb c "$" then Some (REos, n, s')
        else if ceqb c "." then Some (RCls c_dot, n, s')
        else Some (RCls (c_one c), n, s')
    end
  end.

(** re.compile: None for a pattern outside the supported subset *)
Definition re_parse (s : str) : option re :=
  match p_alt (5 * length s + 10) 1 s with
  | Some (r, _, []) => Some r
  | _ => None
  end.
(** for use at definition time only; every use is evaluated to a closed [re] *)
Definition re_compile (s : str) : re := match re_parse s with Some r => r | None => REos end.

(** * Matcher *)
Definition caps := list (nat * str).

Section Match.
  Context {A : Type}.
  Fixpoint rep (k : ascii -> bool) (mn : nat) (mx : option nat) (s : str) (kont : str -> option A) : option A :=
    let stop := match mn with O => kont s | S _ => None end in
    match mx with
    | Some O => stop
    | _ =>
      match s with
      | c :: s' =>
          if k c then
            match rep k (Nat.pred mn) (option_map Nat.pred mx) s' kont with
            | Some x => Some x
            | None => stop
            end
          else stop
      | [] => stop
      end
    end.

  Fixpoint mtch (r : re) (s : str) (c : caps) (kont : str -> caps -> option A) : option A :=
    match r with
    | REps => kont s c
    | RCls k => match s with x :: s' => if incls k x then kont s' c else None | [] => None end
    | RSeq a b => mtch a s c (fun s' c' => mtch b s' c' kont)
    | RAlt a b => match mtch a s c kont with Some x => Some x | None => mtch b s c kont end
    | RRep k mn mx => rep (incls k) mn mx s (fun s' => kont s' c)
    | RGrp i r => mtch r s c (fun s' c' => kont s' ((i, firstn (length s - length s') s) :: c'))
    | REos => match s with
              | [] => kont s c
              | [x] => if ceqb x nl then kont s c else None
              | _ => None
              end
    end.
End Match.

(** pattern.match(s): the captured groups, or None *)
Definition re_match (r : re) (s : str) : option caps := mtch r s [] (fun _ c => Some c).

(** m.group(i): None when the group did not take part in the match *)
Fixpoint grp (c : caps) (i : nat) : option str :=
  match c with
  | [] => None
  | (j, s) :: c' => if Nat.eqb i j then Some s else grp c' i
  end.
#[global] Arguments incls : simpl never.
#[global] Arguments inr : simpl never.
