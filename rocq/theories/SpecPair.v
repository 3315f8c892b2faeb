(** * Specification of the optimal ate pairing

    Textbook Miller evaluation (Miller 1986; Vercauteren 2010) on the curve
    y^2 = x^3 + 3 over K12 = GF(p^12), in affine coordinates and without regard
    to how the code represents points. *)
From Coq Require Import ZArith List.
From mathcomp Require Import all_ssreflect all_algebra.
From Verif Require Import Base BB EC BN256 BNTower BNField BNFrob.
Delimit Scope Z_scope with Z.
Local Open Scope ring_scope.
Import GRing.Theory.

Section Miller.
Context {F : fieldType}.
(** the value at [p] of the line through [a] and [b] (the tangent if a = b) *)
Definition line_at (a b p : pt F) : F :=
  match a, b, p with
  | Aff x1 y1, Aff x2 y2, Aff x y =>
      if x1 == x2 then
        if y1 == - y2 then x - x1
        else (y - y1) - (3%:R * x1 ^+ 2) / (2%:R * y1) * (x - x1)
      else (y - y1) - (y2 - y1) / (x2 - x1) * (x - x1)
  | _, _, _ => 1
  end.
(** one signed binary digit of the loop: square and multiply by the tangent,
    then by the line through t and q or -q *)
Definition miller_step (q p : pt F) (st : F * pt F) (d : Z) : F * pt F :=
  let '(f, t) := st in
  let f := f ^+ 2 * line_at t t p in
  let t := pt_add t t in
  if (d =? 1)%Z then (f * line_at t q p, pt_add t q)
  else if (d =? -1)%Z then (f * line_at t (pt_neg q) p, pt_add t (pt_neg q))
  else (f, t).
(** the digits after the leading 1, most significant first *)
Definition miller_fun (q p : pt F) (ds : list Z) : F * pt F := fold_left (miller_step q p) ds (1, q).
End Miller.

(** the value of a signed binary expansion 1 d1 d2 ... *)
Definition digits_value (ds : list Z) : Z := fold_left (fun n d => (2 * n + d)%Z) ds 1%Z.

(** the embeddings of GF(p) and GF(p^2) in GF(p^12) *)
Definition in12 (x : K1) : K12 := e12 (e6 (e2 x)).
Definition in12_2 (x : K2) : K12 := e12 (e6 x).
(** a point of G1, as a point over GF(p^12) *)
Definition lift1 (x y : Z) : pt K12 := Aff (in12 (ph x)) (in12 (ph y)).
(** untwisting: (x, y) |-> (x w^2, y w^3), where w^6 = i + 9 *)
Definition untwist (q : pt K2) : pt K12 :=
  match q with Inf => Inf | Aff x y => Aff (in12_2 x * om12 ^+ 2) (in12_2 y * om12 ^+ 3) end.
(** the p-power Frobenius *)
Definition frob_pt (q : pt K12) : pt K12 :=
  match q with Inf => Inf | Aff x y => Aff (x ^+ pn) (y ^+ pn) end.

(** f_{6u+2,q}(p) l_{[6u+2]q, Fr q}(p) l_{[6u+2]q + Fr q, -Fr^2 q}(p);
    [ds] is an expansion of 6u+2 *)
Definition ate_miller (ds : list Z) (p q : pt K12) : K12 :=
  let '(f, t) := miller_fun q p ds in
  let q1 := frob_pt q in
  let q2 := pt_neg (frob_pt q1) in
  f * line_at t q1 p * line_at (pt_add t q1) q2 p.
(** ... raised to (p^12 - 1)/r *)
Definition optimal_ate (ds : list Z) (p q : pt K12) : K12 :=
  ate_miller ds p q ^+ Z.to_nat ((bn_P ^ 12 - 1) / bnOrder).
