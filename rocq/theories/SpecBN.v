(** * Specification vocabulary for crypto/bn256

    G1 is the curve y^2 = x^3 + 3 over Z/P.  A G1 object holds Jacobian
    coordinates; [g1v] is the affine point (None for infinity) it denotes, with
    coordinates in [0, P), and [SpecCurve] defines the group. *)
From Coq Require Import ZArith List Bool.
From Verif Require Import Base SpecCurve BN256.
Open Scope Z_scope.

Definition g1v (c : curvePoint) : zpt :=
  if cpz c mod bn_P =? 0 then None else
  let zi := inv_mod bn_P (cpz c) in
  Some ((cpx c * (zi * zi)) mod bn_P, (cpy c * (zi * (zi * zi))) mod bn_P).
(** the object denotes a point of the curve; z is not negative, and 0 if it is
    0 modulo P (the only representation of infinity that IsInfinity
    recognises).  Every object made through the API satisfies this. *)
Definition g1_ok (c : curvePoint) : Prop :=
  zon bn_P 3 (g1v c) /\ 0 <= cpz c /\ (cpz c mod bn_P = 0 -> cpz c = 0).
(** the generator (1, -2) *)
Definition g1_gen : zpt := Some (1, bn_P - 2).

(** the 32 big-endian bytes of a number below 2^256 *)
Definition be32 (v : Z) : list Z := map (fun i => (v / 256 ^ (31 - Z.of_nat i)) mod 256) (seq 0 32).
(** the encoding of a point of G1; infinity is encoded as (0, 1) *)
Definition g1_bytes (q : zpt) : list Z :=
  match q with None => be32 0 ++ be32 1 | Some (x, y) => be32 x ++ be32 y end.
(** the encoding of a G2 point: x.x, x.y, y.x, y.y, each reduced; infinity is
    128 zero bytes *)
Definition g2_bytes_of (xx xy yx yy : Z) : list Z := be32 xx ++ be32 xy ++ be32 yx ++ be32 yy.

(** G2 is the curve y^2 = x^3 + 3/(i+9) over the field K2 = F_p(i) of
    [BNTower], with the textbook group law of [EC].  [v2] is the value of a
    gfP2 object in K2. *)
From mathcomp Require Import all_ssreflect all_algebra.
From Verif Require Import MCRing EC PtGroup BNTower BNField.
Delimit Scope Z_scope with Z.
Local Open Scope ring_scope.
Import GRing.Theory.

(** the affine point of a Jacobian triple *)
Definition jacobian {F : fieldType} (X Y Z : F) : pt F :=
  if Z == 0 then Inf else Aff (X / Z ^+ 2) (Y / Z ^+ 3).
Definition g2v (c : twistPoint) : pt K2 := jacobian (v2 (tpx c)) (v2 (tpy c)) (v2 (tpz c)).
(** the coefficient of the twist, 3/xi *)
Definition g2_b : K2 := v2 (GfP2 0 3) / v2 (GfP2 1 9).
(** the object denotes a point of the twist; z has no negative component and
    is recognised as zero if it is zero modulo P.  Every object made through
    the API satisfies this. *)
Definition g2_ok (c : twistPoint) : Prop :=
  on_curve g2_b (g2v c) /\ (0 <= c2y (tpz c))%Z /\ (v2 (tpz c) = 0 -> tpz c = GfP2 0 0).
Definition g2_gen : pt K2 := g2v twistGen.
