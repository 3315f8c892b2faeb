(** * gfP2 Invert does not depend on what the pool hands out *)
From Coq Require Import ZArith Znumtheory Lia Bool.
From mathcomp Require Import all_ssreflect all_algebra.
From Verif Require Import Base BaseFacts SpecCurve ZField MCRing FieldExt CertXi BB BN256 BNTower BNField.

(** gfp2.go:208-232: ModInverse leaves its receiver alone only if the norm is
    zero, and then the element is zero *)
Lemma gfP2_InvertStaleE s a : gfP2_InvertStale s a = gfP2_Invert a.
Proof.
have E := v2_InvertStale s a. rewrite -(v2_InvertStale 0 a) in E. move/v2_inj: E => [Ex Ey].
rewrite /gfP2_Invert. move: Ex Ey. rewrite /gfP2_InvertStale /= /bmod. by rewrite !Zmod_mod => -> ->.
Qed.
