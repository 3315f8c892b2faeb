(** * Vocabulary of C69: all values of a tape are reduced *)
From Coq Require Import ZArith List.
From Verif Require Import P256 Bulletproofs BB CCS08.
Open Scope Z_scope.

Definition bp_range (t : tape) : Prop :=
  0 <= r_gamma t < secp_N /\ 0 <= r_alpha t < secp_N /\
  Forall (fun x => 0 <= x < secp_N) (r_sL t) /\ Forall (fun x => 0 <= x < secp_N) (r_sR t) /\
  0 <= r_rho t < secp_N /\ 0 <= r_tau1 t < secp_N /\ 0 <= r_tau2 t < secp_N.
Definition set_range (t : tapeSet) : Prop :=
  0 <= ts_m t < bnOrder /\ 0 <= ts_v t < bnOrder /\ 0 <= ts_s t < bnOrder /\ 0 <= ts_t t < bnOrder.
Definition ul_range (t : tapeUL) : Prop :=
  0 <= tu_m t < bnOrder /\
  Forall (fun '(v, s, t) => 0 <= v < bnOrder /\ 0 <= s < bnOrder /\ 0 <= t < bnOrder) (tu_digits t).
