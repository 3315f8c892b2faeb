(** * Property C70: the accessors CurvePoints, Real and Imag of crypto/bn256 *)
From Coq Require Import ZArith.
From mathcomp Require Import all_ssreflect all_algebra.
From Verif Require Import SpecCurve EC BN256 BNTower SpecBN BNAccess BNAccessProofs.
Import GRing.Theory.
Delimit Scope Z_scope with Z.
Local Open Scope ring_scope.

(** C70: Real and Imag are exchanged: e is Real e * i + Imag e, where i is
    [v2 (GfP2 1 0)], with i^2 = -1 (C40). *)
Theorem C70_Real_Imag : forall e, v2 e = v2 (GfP2 0 (gfP2_Real e)) * v2 (GfP2 1 0) + v2 (GfP2 0 (gfP2_Imag e)).
Proof. exact Real_Imag. Qed.
Print Assumptions C70_Real_Imag.
(** The reading their names suggest holds only if the two agree, *)
Theorem C70_Real_Imag_as_named : forall e,
  v2 e = v2 (GfP2 0 (gfP2_Real e)) + v2 (GfP2 0 (gfP2_Imag e)) * v2 (GfP2 1 0) <->
  (gfP2_Real e mod bn_P = gfP2_Imag e mod bn_P)%Z.
Proof. exact Real_Imag_swapped. Qed.
Print Assumptions C70_Real_Imag_as_named.
(** and fails for 1, whose Real is 0. *)
Theorem C70_Real_refuted : exists e, v2 e = 1 /\ v2 (GfP2 0 (gfP2_Real e)) = 0 /\
  v2 e <> v2 (GfP2 0 (gfP2_Real e)) + v2 (GfP2 0 (gfP2_Imag e)) * v2 (GfP2 1 0).
Proof. exact Real_refuted. Qed.
Print Assumptions C70_Real_refuted.

(** C70: CurvePoints gives Jacobian coordinates, *)
Theorem C70_G1_CurvePoints : forall p x y z t, g1_ok p -> G1CurvePoints p = (x, y, z, t) ->
  (g1v p = None <-> z = 0%Z) /\
  forall X Y, g1v p = Some (X, Y) -> (x mod bn_P = (X * z ^ 2) mod bn_P)%Z /\ (y mod bn_P = (Y * z ^ 3) mod bn_P)%Z.
Proof. exact CurvePoints_G1. Qed.
Print Assumptions C70_G1_CurvePoints.
Theorem C70_G2_CurvePoints : forall p x y z t, g2_ok p -> G2CurvePoints p = (x, y, z, t) ->
  (g2v p = Inf <-> z = GfP2 0 0) /\ forall X Y, g2v p = Aff X Y -> v2 x = X * v2 z ^+ 2 /\ v2 y = Y * v2 z ^+ 3.
Proof. exact CurvePoints_G2. Qed.
Print Assumptions C70_G2_CurvePoints.
(** and not the coordinates of the point: so for 2 * generator. *)
Theorem C70_G1_affine_refuted : exists p x y z t, g1_ok p /\ G1CurvePoints p = (x, y, z, t) /\
  g1v p = zmul bn_P 2 g1_gen /\ g1v p <> Some (x mod bn_P, y mod bn_P)%Z.
Proof. exact CurvePoints_refuted. Qed.
Print Assumptions C70_G1_affine_refuted.
Example C70_nonvacuous : g1_ok curveGen /\ G1CurvePoints curveGen = (1, -2, 1, 1)%Z /\ g2_ok twistGen /\
  gfP2_Real (GfP2 3 4) = 3%Z.
Proof. exact access_ex. Qed.
