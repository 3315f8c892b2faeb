(** * Model of util/bn/bn.go, util/intconversion/intconversion.go and the
    integer part of util/util.go *)
From Coq Require Import ZArith List Bool.
From Verif Require Import Base ByteConv.
Import ListNotations.
Open Scope Z_scope.

(** bn.go:42-54, ModPow, for a positive modulus; [None] is nil. *)
Definition ModPow (base exponent modulo : Z) : option Z :=
  if 0 <=? exponent then Some (Exp base exponent modulo)
  else ModInverse (Exp base (Z.abs exponent) modulo) modulo.

(** bn.go:27-37, CalculateHash: the bytes written to the digest.  [None] is
    a nil second argument. *)
Definition CalculateHash_input (b1 : Z) (b2 : option Z) : list Z :=
  ToByteArray b1 ++ match b2 with Some b => ToByteArray b | None => [] end.
Definition CalculateHash (sha : list Z -> list Z) (b1 : Z) (b2 : option Z) : res Z :=
  FromByteArray (sha (CalculateHash_input b1 b2)).

(** util.go:41-54, Decompose.  The digit is converted with Int64(); it lies in
    [0,u) and u is an int64, so the conversion is exact (the model keeps Z).
    u = 0 panics in big.Int.Mod and is excluded by the theorems. *)
Fixpoint Decompose_loop (x u : Z) (l : nat) : list Z :=
  match l with
  | O => []
  | S l' => bmod x u :: Decompose_loop (bdiv x u) u l'
  end.
Definition Decompose (x u : Z) (l : nat) : list Z := Decompose_loop x u l.

(** intconversion.go:24-27, BigFromBase10 ([None] is the nil result). *)
Definition BigFromBase10 (s : list Z) : option Z := SetString10 s.
