(** * Vocabulary of C69: the acceptable numbers of a reader, in their order *)
From Coq Require Import ZArith List.
From Verif Require Import SpecCodec SpecRand.
Open Scope Z_scope.

Definition blocks (k : nat) (s : list Z) : list (list Z) := map (fun i => block k i s) (seq 0 (length s / k)).
Definition accepted (max : Z) (s : list Z) : list Z :=
  let n := Z.log2_up max in
  filter (fun c => c <? max) (map (candidate n) (blocks (Z.to_nat ((n + 7) / 8)) s)).
