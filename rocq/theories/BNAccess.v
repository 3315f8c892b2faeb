(** * The accessors of crypto/bn256 *)
From Coq Require Import ZArith.
From Verif Require Import BN256.

(** gfp2.go:234-240, Real, Imag *)
Definition gfP2_Real (e : gfP2) : Z := c2x e.
Definition gfP2_Imag (e : gfP2) : Z := c2y e.
(** bn256.go:74-76, G1.CurvePoints, and 225-227, G2.CurvePoints.  The code
    returns the pointers: a caller can change the point through them. *)
Definition G1CurvePoints (e : curvePoint) : Z * Z * Z * Z := (cpx e, cpy e, cpz e, cpt e).
Definition G2CurvePoints (e : twistPoint) : gfP2 * gfP2 * gfP2 * gfP2 := (tpx e, tpy e, tpz e, tpt e).
