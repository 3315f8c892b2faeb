(** * Jacobian coordinates: (X : Y : Z) stands for (X/Z^2, Y/Z^3), or for
    infinity when Z = 0.  The formulas dbl-2009-l and add-2007-bl used by
    curve.go and twist.go compute the textbook group law. *)
From Coq Require Import Ring_theory Field_theory.
From mathcomp Require Import all_ssreflect all_algebra.
From Verif Require Import MCRing EC.
Set Implicit Arguments.
Unset Strict Implicit.
Unset Printing Implicit Defensive.
Import GRing.Theory.
Local Open Scope ring_scope.

Section Jac.
Variable F : fieldType.
Variable b : F.
Hypothesis h2 : (2%:R : F) != 0.
Add Field FF : (mc_field F).

Definition jpt (X Y Z : F) : pt F := if Z == 0 then Inf else Aff (X / Z ^+ 2) (Y / Z ^+ 3).
Lemma jpt0 X Y : jpt X Y 0 = Inf. Proof. by rewrite /jpt eqxx. Qed.
Lemma jpt1 X Y : jpt X Y 1 = Aff X Y. Proof. by rewrite /jpt oner_eq0 !expr1n !divr1. Qed.
Lemma jptN X Y Z : jpt X (- Y) Z = pt_neg (jpt X Y Z).
Proof. rewrite /jpt. case: eqP => //= _. by rewrite mulNr. Qed.

(** the doubling formula *)
Definition jdX (X Y : F) : F :=
  let A := X * X in let B := Y * Y in let C := B * B in
  let D := (((X + B) * (X + B) - A - C) + ((X + B) * (X + B) - A - C)) in
  let E := A + A + A in E * E - (D + D).
Definition jdY (X Y : F) : F :=
  let A := X * X in let B := Y * Y in let C := B * B in
  let D := (((X + B) * (X + B) - A - C) + ((X + B) * (X + B) - A - C)) in
  let E := A + A + A in E * (D - jdX X Y) - (C + C + (C + C) + (C + C + (C + C))).
Definition jdZ (Y Z : F) : F := Y * Z + Y * Z.

Lemma F3 : (3%:R : F) = 1 + 1 + 1. Proof. by rewrite !mulrS addr0 addrA. Qed.
Lemma F2 : (2%:R : F) = 1 + 1. Proof. by []. Qed.
Lemma addxx (x : F) : x + x = 2%:R * x. Proof. by rewrite mulr2n mulrDl mul1r. Qed.

Lemma jdbl X Y Z : pt_add (jpt X Y Z) (jpt X Y Z) = jpt (jdX X Y) (jdY X Y) (jdZ Y Z).
Proof.
rewrite {1 2}/jpt. case: (eqVneq Z 0) => [->|z0] /=; first by rewrite /jdZ mulr0 addr0 jpt0.
have z3 : Z ^+ 3 != 0 by rewrite expf_neq0.
have z2 : Z ^+ 2 != 0 by rewrite expf_neq0.
rewrite eqxx. case: (eqVneq Y 0) => [->|y0].
  by rewrite mul0r oppr0 eqxx /jdZ mul0r addr0 jpt0.
have -> : (Y / Z ^+ 3 == - (Y / Z ^+ 3)) = false.
  apply/eqP => E. have E2 : 2%:R * (Y / Z ^+ 3) = 0 by rewrite -addxx {1}E addNr.
  move/eqP: E2. rewrite !mulf_eq0 invr_eq0 (negbTE z3) (negbTE y0) (negbTE h2). by [].
have d0 : jdZ Y Z != 0 by rewrite /jdZ addxx !mulf_neq0.
rewrite /jpt (negbTE d0). rewrite /jdX /jdY /jdX /jdZ F3 F2 !exprS !expr0 !mulr1.
have h2' : (1 + 1 : F) != 0 by [].
congr Aff; mcf F; repeat split; apply/eqP; rewrite ?mulf_neq0 //.
Qed.

(** the addition formula *)
Section Add.
Variables X1 Y1 Z1 X2 Y2 Z2 : F.
Definition jU1 := X1 * (Z2 * Z2).
Definition jU2 := X2 * (Z1 * Z1).
Definition jS1 := Y1 * (Z2 * (Z2 * Z2)).
Definition jS2 := Y2 * (Z1 * (Z1 * Z1)).
Definition jH := jU2 - jU1.
Definition jI := (jH + jH) * (jH + jH).
Definition jJ := jH * jI.
Definition jR := (jS2 - jS1) + (jS2 - jS1).
Definition jV := jU1 * jI.
Definition jaX := jR * jR - jJ - (jV + jV).
Definition jaY := jR * (jV - jaX) - (jS1 * jJ + jS1 * jJ).
Definition jaZ := ((Z1 + Z2) * (Z1 + Z2) - Z1 * Z1 - Z2 * Z2) * jH.

Hypothesis z1 : Z1 != 0.
Hypothesis z2 : Z2 != 0.
Lemma jU_eq : (X1 / Z1 ^+ 2 == X2 / Z2 ^+ 2) = (jH == 0).
Proof. by rewrite eqr_div ?expf_neq0 // /jH subr_eq0 /jU1 /jU2 !expr2 eq_sym. Qed.
Lemma jS_eq : (Y1 / Z1 ^+ 3 == Y2 / Z2 ^+ 3) = (jS1 == jS2).
Proof. by rewrite eqr_div ?expf_neq0 // /jS1 /jS2 !exprS !expr0 !mulr1. Qed.
Lemma jadd : on_curve b (jpt X1 Y1 Z1) -> on_curve b (jpt X2 Y2 Z2) ->
  ~~ ((jH == 0) && (jS2 - jS1 == 0)) ->
  pt_add (jpt X1 Y1 Z1) (jpt X2 Y2 Z2) = jpt jaX jaY jaZ.
Proof.
rewrite {1 2 3 4}/jpt (negbTE z1) (negbTE z2) => O1 O2 N.
rewrite /pt_add jU_eq. case: (eqVneq jH 0) N => [H0|H0] /= N.
  have E : (Y1 / Z1 ^+ 3) ^+ 2 = (Y2 / Z2 ^+ 3) ^+ 2.
    have U : X1 / Z1 ^+ 2 = X2 / Z2 ^+ 2 by apply/eqP; rewrite jU_eq H0.
    by rewrite (eqP O1) (eqP O2) U.
  move/eqP: E. rewrite eqf_sqr jS_eq. move: N. rewrite subr_eq0 eq_sym => /negbTE -> /= ->.
  by rewrite /jaZ H0 mulr0 jpt0.
have ZZ : (Z1 + Z2) * (Z1 + Z2) - Z1 * Z1 - Z2 * Z2 != 0.
  have -> : (Z1 + Z2) * (Z1 + Z2) - Z1 * Z1 - Z2 * Z2 = 2%:R * (Z1 * Z2) by rewrite F2; mcfr F.
  by rewrite !mulf_neq0.
have d0 : jaZ != 0.
  by rewrite /jaZ !mulf_neq0.
rewrite /jpt (negbTE d0).
have h2' : (1 + 1 : F) != 0 by [].
have H1 : X2 * (Z1 * Z1) - X1 * (Z2 * Z2) != 0 by [].
rewrite /jaX /jaY /jaX /jaZ /jV /jJ /jI /jR /jH /jS1 /jS2 /jU1 /jU2 !exprS !expr0 !mulr1.
congr Aff; mcf F; repeat split; apply/eqP; rewrite ?mulf_neq0 //.
Qed.
End Add.
End Jac.
