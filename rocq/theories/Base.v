(** * Outcome of a Go call, bytes, and the parts of [math/big] used by the code.

    [big.Int pointer] is [Z].  The definitions below model the methods of Go's
    [math/big] package (an external dependency; documented behaviour). *)
From Coq Require Import ZArith Zpow_facts List Bool.
Import ListNotations.
Open Scope Z_scope.

(** A Go call returns a value and a nil error, or a non-nil error, or panics. *)
Inductive res (A : Type) : Type :=
| Ok (a : A)
| Err
| Panic.
Arguments Ok {A} a.
Arguments Err {A}.
Arguments Panic {A}.

Definition bind {A B} (x : res A) (f : A -> res B) : res B :=
  match x with Ok a => f a | Err => Err | Panic => Panic end.

(** A Go byte slice is the list of its bytes. *)
Definition byte_ok (b : Z) : Prop := 0 <= b < 256.
Definition bytes_ok (l : list Z) : Prop := Forall byte_ok l.

(** Value of a list of base-[B] digits, most significant first. *)
Definition val (B : Z) (l : list Z) : Z := fold_left (fun acc d => acc * B + d) l 0.

(** Digits of a non-negative number in base [B], most significant first, no
    leading zero; the empty list for 0. *)
Fixpoint digits_fuel (B : Z) (n : nat) (x : Z) (acc : list Z) : list Z :=
  match n with
  | O => acc
  | S n' => if x <=? 0 then acc else digits_fuel B n' (x / B) (x mod B :: acc)
  end.
Definition digits (B x : Z) : list Z := digits_fuel B (Z.to_nat (Z.log2 x + 1)) x [].

(** [big.Int.SetBytes]: big-endian unsigned value. *)
Definition SetBytes (l : list Z) : Z := val 256 l.
(** [big.Int.Bytes]: big-endian bytes of the absolute value, minimal. *)
Definition Bytes (x : Z) : list Z := digits 256 (Z.abs x).
(** [big.Int.BitLen]: number of bits of the absolute value. *)
Definition BitLen (x : Z) : Z := if x =? 0 then 0 else Z.log2 (Z.abs x) + 1.
(** [big.Int.Bit]: bit [i] of the two's-complement representation. *)
Definition Bit (x i : Z) : bool := Z.testbit x i.
(** [big.Int.Mod] / [Div] (Euclidean; all moduli in the code are positive,
    where they agree with floor division). *)
Definition bmod (x m : Z) : Z := x mod m.
Definition bdiv (x m : Z) : Z := x / m.

(** [big.Int.String]: decimal representation in ASCII. *)
Definition ascii_digit (d : Z) : Z := d + 48.
Definition big_String (x : Z) : list Z :=
  if x =? 0 then [48]
  else if x <? 0 then 45 :: map ascii_digit (digits 10 (- x))
  else map ascii_digit (digits 10 x).

(** [big.Int.SetString] with base 10: optional sign, then at least one
    decimal digit and nothing else; [None] is failure. *)
Definition is_digit (c : Z) : bool := (48 <=? c) && (c <=? 57).
Definition SetString10 (s : list Z) : option Z :=
  let mag t := match t with
               | [] => None
               | _ => if forallb is_digit t
                      then Some (val 10 (map (fun c => c - 48) t)) else None
               end in
  match s with
  | [] => None
  | c :: t => if c =? 45 then option_map Z.opp (mag t)
              else if c =? 43 then mag t
              else mag s
  end.

(** [big.Int.GCD], the coefficient of the first argument and the gcd. *)
Fixpoint egcd (n : nat) (a b : Z) : Z * Z * Z :=
  match n with
  | O => (1, 0, a)
  | S n' => if b =? 0 then (1, 0, a)
            else let '(u, v, g) := egcd n' b (a mod b) in (v, u - (a / b) * v, g)
  end.
(** [big.Int.ModInverse] for a positive modulus: [None] is the nil result
    (not invertible), otherwise the inverse in [0,m). *)
Definition ModInverse (g m : Z) : option Z :=
  let '(u, _, d) := egcd (S (Z.to_nat (2 * Z.log2 m + 2))) (g mod m) m in
  if d =? 1 then Some (u mod m) else None.
(** [big.Int.Exp] with a positive modulus and a non-negative exponent. *)
Definition Exp (x y m : Z) : Z := Zpow_mod x y m.
(** [big.Int.Exp] with a nil modulus: 1 when the exponent is not positive. *)
Definition ExpNil (x y : Z) : Z := if y <=? 0 then 1 else x ^ y.
(** [big.Int.ModSqrt] for a prime modulus congruent to 3 mod 4 (the only
    one used): nil for a non-residue, otherwise x^((p+1)/4). *)
Definition ModSqrt (x p : Z) : option Z :=
  let y := Zpow_mod x ((p + 1) / 4) p in
  if (y * y) mod p =? x mod p then Some y else None.
