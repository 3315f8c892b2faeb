(** * Model of the Pedersen commitment over secp256k1 in util/util.go *)
From Coq Require Import ZArith.
From Verif Require Import Base P256.
Open Scope Z_scope.

(** util.go:70-75, CommitG1: g^x combined with h^r by P256.Add *)
Definition CommitG1 (E : ext) (x r : Z) (h : point) : point :=
  let C := ScalarBaseMult E x in
  let Hr := ScalarMult E h r in
  Add C Hr.
