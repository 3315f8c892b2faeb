(** * Property C68: random numbers and points from a reader

    The vocabulary (blocks, candidates, hits) is that of SpecRand.v.  A reader
    is the list of the bytes it delivers before it fails. *)
From Coq Require Import ZArith List.
From Verif Require Import Base SpecCurve EC PtGroup BB BN256 SpecBN SpecCodec SpecRand Rand RandProofs RandGroup.
Import ListNotations.
Open Scope Z_scope.

(** C68: RandomG1 takes the first complete block of 32 bytes whose 254 low bits
    are a number x with 0 < x < Order, returns x and the point x * generator,
    which is not the point at infinity, and reads no further; it returns the
    reader's error exactly if there is no such block. *)
Theorem C68_RandomG1 : forall s, Forall byte s ->
  (exists i p, first_hit 254 32 1 bnOrder s i /\ RandomG1 s = Ok (candidate 254 (block 32 i s), p, skipn (32 * S i) s) /\
     g1_ok p /\ g1v p = zmul bn_P (candidate 254 (block 32 i s)) g1_gen /\ g1v p <> None) \/
  (no_hit 254 32 1 bnOrder s /\ RandomG1 s = Err).
Proof. exact RandomG1_spec. Qed.
Print Assumptions C68_RandomG1.
(** the same for RandomG2 *)
Theorem C68_RandomG2 : forall s, Forall byte s ->
  (exists i p, first_hit 254 32 1 bnOrder s i /\ RandomG2 s = Ok (candidate 254 (block 32 i s), p, skipn (32 * S i) s) /\
     g2_ok p /\ g2v p = ptmul (candidate 254 (block 32 i s)) g2_gen /\ g2v p <> Inf) \/
  (no_hit 254 32 1 bnOrder s /\ RandomG2 s = Err).
Proof. exact RandomG2_spec. Qed.
Print Assumptions C68_RandomG2.
(** A block of zeros, one of ones, which is too large, then 5 with the two top
    bits set, and one more byte; and the same stream cut short. *)
Example C68_stream : Forall byte (repeat 0 32 ++ repeat 255 32 ++ 192 :: repeat 0 30 ++ [5; 7]).
Proof. exact ex_bytes. Qed.
Example C68_runs : let s := repeat 0 32 ++ repeat 255 32 ++ 192 :: repeat 0 30 ++ [5; 7] in
  (exists p, RandomG1 s = Ok (5, p, [7])) /\ (exists p, RandomG2 s = Ok (5, p, [7])) /\
  RandomG1 (firstn 95 s) = Err /\ RandomG2 (firstn 95 s) = Err.
Proof. exact ex_random. Qed.

(** C68: crypto/rand.Int, as all packages call it: for max > 1 the first block of
    ceil(n / 8) bytes whose n low bits are less than max, n = ceil(log2 max). *)
Theorem C68_rand_Int : forall max s, 1 < max -> Forall byte s ->
  let n := Z.log2_up max in let k := Z.to_nat ((n + 7) / 8) in
  (exists i, first_hit n k 0 max s i /\ rand_Int max s = Ok (candidate n (block k i s), skipn (k * S i) s)) \/
  (no_hit n k 0 max s /\ rand_Int max s = Err).
Proof. exact rand_Int_spec. Qed.
Print Assumptions C68_rand_Int.
Theorem C68_rand_Int_small : forall s, rand_Int 1 s = Ok (0, s) /\ forall max, max <= 0 -> rand_Int max s = Panic.
Proof. exact rand_Int_edges. Qed.
Print Assumptions C68_rand_Int_small.
Example C68_Int_runs : rand_Int 1000 [255; 255; 3; 231; 7; 208; 9] = Ok (999, [7; 208; 9]) /\
  rand_Int 1000 [255; 255; 3] = Err.
Proof. exact ex_Int. Qed.

(** C68: no bias: every number v < 2^n is the candidate of the same number
    2^(8k - n) of blocks of k bytes. *)
Theorem C68_no_bias : forall n k v, 0 <= n <= 8 * Z.of_nat k -> 0 <= v < 2 ^ n -> exists ls,
  NoDup ls /\ Z.of_nat (length ls) = 2 ^ (8 * Z.of_nat k - n) /\
  forall l, In l ls <-> length l = k /\ Forall byte l /\ candidate n l = v.
Proof. exact uniform. Qed.
Print Assumptions C68_no_bias.
(** for RandomG1 and RandomG2: four blocks for each number *)
Example C68_four : 0 <= 254 <= 8 * Z.of_nat 32 /\ 2 ^ (8 * Z.of_nat 32 - 254) = 4 /\ bnOrder < 2 ^ 254.
Proof. now vm_compute. Qed.
