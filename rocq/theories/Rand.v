(** * crypto/rand.Int of the Go library, and RandomG1, RandomG2 of bn256.go

    The reader is the list of the bytes it delivers before it fails.  The
    results carry what is left of it. *)
From Coq Require Import ZArith List Bool.
From Verif Require Import Base BB BN256.
Import ListNotations.
Open Scope Z_scope.

(** crypto/rand/util.go of the Go library (not part of the repository), the loop
    of Int: read k bytes with io.ReadFull, clear all but b bits of the first, try
    again if the number is too large.  Each round reads k > 0 bytes, so that the
    fuel S (length s) is never used up. *)
Definition clear_bits (b : Z) (l : list Z) : list Z :=
  match l with h :: t => Z.land h (2 ^ b - 1) :: t | [] => [] end.
Fixpoint rand_loop (fuel : nat) (max b : Z) (k : nat) (s : list Z) : res (Z * list Z) :=
  match fuel with
  | O => Err
  | S fuel' =>
      if (length s <? k)%nat then Err                          (* EOF, ErrUnexpectedEOF *)
      else
        let n := SetBytes (clear_bits b (firstn k s)) in
        if n <? max then Ok (n, skipn k s) else rand_loop fuel' max b k (skipn k s)
  end.
(** the same, Int *)
Definition rand_Int (max : Z) (s : list Z) : res (Z * list Z) :=
  if max <=? 0 then Panic
  else
    let bitLen := BitLen (max - 1) in
    if bitLen =? 0 then Ok (0, s)
    else
      let k := (bitLen + 7) / 8 in
      let b := bitLen mod 8 in
      let b := if b =? 0 then 8 else b in
      rand_loop (S (length s)) max b (Z.to_nat k) s.

(** bn256.go:56-65 and 206-215: until the number is not 0 *)
Fixpoint random_loop (fuel : nat) (s : list Z) : res (Z * list Z) :=
  match fuel with
  | O => Err
  | S fuel' =>
      bind (rand_Int bnOrder s) (fun '(k, s') =>
        if 0 <? k then Ok (k, s') else random_loop fuel' s')
  end.
(** bn256.go:52-68, RandomG1 *)
Definition RandomG1 (s : list Z) : res (Z * curvePoint * list Z) :=
  bind (random_loop (S (length s)) s) (fun '(k, s') =>
    Ok (k, G1ScalarBaseMult newCurvePoint k, s')).
(** bn256.go:202-218, RandomG2 *)
Definition RandomG2 (s : list Z) : res (Z * twistPoint * list Z) :=
  bind (random_loop (S (length s)) s) (fun '(k, s') =>
    Ok (k, G2ScalarBaseMult k, s')).
