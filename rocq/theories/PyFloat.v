(** Python language layer: binary64 floats, restricted to what sexVals.py uses.

    Nothing in this file models a function of /repo.  A finite float is a sign
    and an exact non-negative rational magnitude; the arithmetic operations are
    the exact rational operation followed by [rnd], the rounding to 53
    significant bits, half to even, of IEEE 754.  Not modelled: overflow,
    underflow (the exponent is unbounded), infinities and nan; the values that
    occur in sexVals.py are far from those ranges unless a text has hundreds of
    digits. *)
From Verif Require Export PyStr.
From Coq Require Export QArith Qround Qabs.
Open Scope Z_scope.

(** a / b rounded to the nearest integer, ties to even (0 < b) *)
Definition rhe (a b : Z) : Z :=
  let q := a / b in
  let r := a mod b in
  match 2 * r ?= b with
  | Lt => q
  | Gt => q + 1
  | Eq => if Z.even q then q else q + 1
  end.
Definition rheQ (x : Q) : Z := rhe (Qnum x) (Zpos (Qden x)).

(** m * 2^e *)
Definition dyadic (m e : Z) : Q :=
  if 0 <=? e then inject_Z (m * 2 ^ e) else m # Z.to_pos (2 ^ (- e)).
(** the exponent of the last of 53 bits of n/d *)
Definition expo (n d : Z) : Z :=
  let e := Z.log2 n - Z.log2 d - 52 in
  if 2 ^ 52 * d * 2 ^ (Z.max 0 e) <=? n * 2 ^ (Z.max 0 (- e)) then e else e - 1.
(** rounding of a non-negative rational to 53 significant bits, ties to even *)
Definition rnd (x : Q) : Q :=
  match Qnum x with
  | Zpos _ =>
      let n := Qnum x in
      let d := Zpos (Qden x) in
      let e := expo n d in
      dyadic (rhe (n * 2 ^ (Z.max 0 (- e))) (d * 2 ^ (Z.max 0 e))) e
  | _ => 0%Q
  end.

Record fl := F { fneg : bool; fmag : Q }.
Definition fval (f : fl) : Q := if fneg f then (- fmag f)%Q else fmag f.
Definition Qneg (x : Q) : bool := Qnum x <? 0.
(** the float nearest to a rational; zero is +0.0 *)
Definition of_Q (x : Q) : fl := F (Qneg x) (rnd (Qabs x)).
(** float(z) for an int z *)
Definition of_Z (z : Z) : fl := of_Q (inject_Z z).

Definition fadd (a b : fl) : fl :=
  let v := (fval a + fval b)%Q in
  if Qnum v =? 0 then F (fneg a && fneg b) 0%Q else of_Q v.
Definition fopp (a : fl) : fl := F (negb (fneg a)) (fmag a).
Definition fsub (a b : fl) : fl := fadd a (fopp b).
Definition fmul (a b : fl) : fl := F (xorb (fneg a) (fneg b)) (rnd (fmag a * fmag b)%Q).
(** the divisors of the modelled code are non-zero constants *)
Definition fdiv (a b : fl) : fl := F (xorb (fneg a) (fneg b)) (rnd (fmag a / fmag b)%Q).
(** a < b, a == b *)
Definition fltb (a b : fl) : bool := negb (Qle_bool (fval b) (fval a)).
Definition feqb (a b : fl) : bool := Qeq_bool (fval a) (fval b).

Definition signed (neg : bool) (z : Z) : Z := if neg then - z else z.
(** int(f): towards zero; round(f): nearest, ties to even *)
Definition fint (f : fl) : Z := signed (fneg f) (Qfloor (fmag f)).
Definition fround (f : fl) : Z := signed (fneg f) (rheQ (fmag f)).

(** w-digit decimal numeral of n, zeros on the left: str(n).rjust(w, '0') *)
Definition zfill (w : nat) (s : str) : str := repeat "0"%char (w - length s) ++ s.
(** '{:.nf}'.format(f) *)
Definition fmtf (n : nat) (f : fl) : str :=
  let p := 10 ^ Z.of_nat n in
  let v := rheQ (fmag f * inject_Z p)%Q in
  (if fneg f then $"-" else []) ++ dec (v / p) ++
  match n with O => [] | _ => $"." ++ zfill n (dec (v mod p)) end.

(** float(s): blanks, sign, digits with an optional point, optional exponent.
    Not modelled: inf, nan, underscores. *)
Fixpoint take_digits (s : str) : str * str :=
  match s with
  | c :: s' => if isdig c then let '(a, b) := take_digits s' in (c :: a, b) else ([], s)
  | [] => ([], [])
  end.
(** the exponent part: e, sign, digits up to the end *)
Definition float_exp (s : str) : option Z :=
  match s with
  | [] => Some 0
  | c :: s' =>
      if ceqb c "e" || ceqb c "E" then
        let '(neg, ds) := match s' with
                          | x :: r => if ceqb x "-" then (true, r) else if ceqb x "+" then (false, r) else (false, s')
                          | [] => (false, s')
                          end in
        match ds with
        | [] => None
        | _ => if forallb isdig ds then Some (signed neg (decval ds)) else None
        end
      else None
  end.
(** m * 10^e *)
Definition decimal (m e : Z) : Q :=
  if 0 <=? e then inject_Z (m * 10 ^ e) else m # Z.to_pos (10 ^ (- e)).
Definition float_mag (s : str) : option Q :=
  let '(a, r) := take_digits s in
  let '(b, r') := match r with
                  | c :: r1 => if ceqb c "." then take_digits r1 else ([], r)
                  | [] => ([], [])
                  end in
  match a ++ b with
  | [] => None
  | ds => match float_exp r' with
          | Some e => Some (decimal (decval ds) (e - Z.of_nat (length b)))
          | None => None
          end
  end.
Definition pyfloat (s : str) : res fl :=
  let t := strip s in
  let '(neg, u) := match t with
                   | c :: r => if ceqb c "-" then (true, r) else if ceqb c "+" then (false, r) else (false, t)
                   | [] => (false, t)
                   end in
  match float_mag u with
  | Some q => Ok (F neg (rnd q))
  | None => Err ValueError
  end.

(** * math.log10, truncated: int(math.log10(x)) and floor(math.log10(x))
    For x > 0.  Assumption about libm: the float nearest to 10^k has logarithm
    k, and for any other float the logarithm is on the same side of every
    integer as the exact one. *)
Fixpoint log10_up (f : nat) (x : Q) (k : Z) : Z :=     (* largest k' >= k with 10^k' <= x *)
  match f with
  | O => k
  | S f' => if Qle_bool (decimal 1 (k + 1)) x then log10_up f' x (k + 1) else k
  end.
Fixpoint log10_down (f : nat) (x : Q) (k : Z) : Z :=
  match f with
  | O => k
  | S f' => if Qle_bool (decimal 1 k) x then k else log10_down f' x (k - 1)
  end.
(** exact floor of log10 *)
Definition log10_floor (x : Q) : Z :=
  if Qle_bool 1 x then log10_up (Z.to_nat (Z.log2 (Qnum x)) + 1) x 0
  else log10_down (Z.to_nat (Z.log2 (Zpos (Qden x))) + 1) x (-1).
(** the k with x = rnd(10^k), if any *)
Definition log10_exact (x : Q) : option Z :=
  let k := log10_floor x in
  if Qeq_bool x (rnd (decimal 1 k)) then Some k
  else if Qeq_bool x (rnd (decimal 1 (k + 1))) then Some (k + 1) else None.
Definition floor_log10 (x : Q) : Z :=
  match log10_exact x with Some k => k | None => log10_floor x end.
Definition int_log10 (x : Q) : Z :=
  match log10_exact x with
  | Some k => k
  | None => let k := log10_floor x in if k <? 0 then k + 1 else k
  end.

Arguments rnd : simpl never.
Arguments rhe : simpl never.
Arguments rheQ : simpl never.
Arguments fmtf : simpl never.
Arguments Qfloor : simpl never.
