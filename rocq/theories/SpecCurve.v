(** * Specification vocabulary: the group of a curve y^2 = x^3 + b over Z/P.

    Textbook affine definitions, independent of the code's formulas.  A point
    is [None] (infinity) or [Some (x, y)] with coordinates in [0, P). *)
From Coq Require Import ZArith.
From Verif Require Import Base.
Open Scope Z_scope.

Definition zpt : Type := option (Z * Z).

(** inverse modulo a prime (0 for 0) *)
Definition inv_mod (P a : Z) : Z := match ModInverse a P with Some i => i | None => 0 end.

(** the point is infinity or reduced and on the curve *)
Definition zon (P b : Z) (p : zpt) : Prop :=
  match p with
  | None => True
  | Some (x, y) => 0 <= x < P /\ 0 <= y < P /\ (y * y) mod P = (x * x * x + b) mod P
  end.

Definition zneg (P : Z) (p : zpt) : zpt :=
  match p with None => None | Some (x, y) => Some (x, (- y) mod P) end.

(** third intersection of the line of slope [l] through (x1,y1), reflected *)
Definition zline (P l x1 y1 x2 : Z) : zpt :=
  let x3 := (l * l - x1 - x2) mod P in Some (x3, (l * (x1 - x3) - y1) mod P).

(** chord-and-tangent addition *)
Definition zadd (P : Z) (p q : zpt) : zpt :=
  match p, q with
  | None, _ => q
  | _, None => p
  | Some (x1, y1), Some (x2, y2) =>
      if x1 =? x2 then
        if (y1 + y2) mod P =? 0 then None
        else zline P ((3 * (x1 * x1)) * inv_mod P (2 * y1)) x1 y1 x2
      else zline P ((y2 - y1) * inv_mod P (x2 - x1)) x1 y1 x2
  end.

(** k-fold sum *)
Definition zmul (P k : Z) (p : zpt) : zpt :=
  match k with
  | Z0 => None
  | Zpos n => Pos.iter (zadd P p) None n
  | Zneg n => zneg P (Pos.iter (zadd P p) None n)
  end.
