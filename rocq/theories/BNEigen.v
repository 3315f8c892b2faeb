(** * The Frobenius endomorphism acts on G2 as multiplication by p *)
From Coq Require Import ZArith Znumtheory Lia Bool List.
From mathcomp Require Import all_ssreflect all_algebra.
From Verif Require Import Base ZMod MCRing EC PtGroup BB BN256 PrimesBN BNTower BNField BNFrob SpecBN BNG1 BNG2 BNOrder2 BNGroup2 SpecPair PtMap BNLine.
Set Implicit Arguments.
Unset Strict Implicit.
Unset Printing Implicit Defensive.
Import GRing.Theory.
Delimit Scope Z_scope with Z.
Local Open Scope ring_scope.

Local Opaque bn_P bnOrder mk2 mk6 mk12 bn_u.

Lemma tfr_eigen k : tfr (ptmul k g2_gen) = ptmul bn_P (ptmul k g2_gen).
Proof.
rewrite tfr_mul tfr_gen -!(@ptmulA c2) ?g2_gen_on //. by rewrite Z.mul_comm.
Qed.
(** untwisting carries it to the p-power map *)
Lemma om_pn : om12 ^+ pn = in12_2 (v2 xiToPMinus1Over6) * om12. Proof. by rewrite om_p xi_c1. Qed.
Lemma untwist_tfr q : untwist (tfr q) = frob_pt (untwist q).
Proof.
case: q => [|x y] //=.
have E (z : K2) n : in12_2 (z ^+ pn * v2 xiToPMinus1Over6 ^+ n) * om12 ^+ n = (in12_2 z * om12 ^+ n) ^+ pn.
  rewrite i12M (fmX i12M i12_1 z) (fmX i12M i12_1 _ n) exprMn. rewrite -(exprM om12 n pn) mulnC exprM om_pn exprMn. by rewrite mulrA.
by rewrite !E.
Qed.
Lemma untwist_neg q : untwist (pt_neg q) = pt_neg (untwist q).
Proof. by rewrite !untwistE (pm_neg _ i12D). Qed.
Lemma untwist_add p q : untwist (pt_add p q) = pt_add (untwist p) (untwist q).
Proof. by rewrite !untwistE (pm_add i12D i12M i12_1 om_neq0 k12_2). Qed.
