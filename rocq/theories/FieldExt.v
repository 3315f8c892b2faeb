(** * Quadratic and cubic extensions of a field, as MathComp fields

    [quad b] is F(w) with w^2 = d, for d not a square; [cubic b] is F(t) with
    t^3 = xi, for xi not a cube. *)
From mathcomp Require Import all_ssreflect all_algebra.
From Verif Require Import MCRing.
Set Implicit Arguments.
Unset Strict Implicit.
Unset Printing Implicit Defensive.
Import GRing.Theory.
Local Open Scope ring_scope.

Section Identities.
Variable F : fieldType.
Add Field FF : (mc_field F).
Implicit Types (d x y z k : F).

Lemma quad_norm0 d x y : (forall z, z ^+ 2 != d) -> y ^+ 2 - d * x ^+ 2 = 0 -> x = 0 /\ y = 0.
Proof.
move=> nd. have [->|x0] := eqVneq x 0.
  rewrite expr0n mulr0 subr0 => /eqP. by rewrite expf_eq0 => /andP [_ /eqP ->].
move=> E. exfalso. move/negP: (nd (y / x)). apply. apply/eqP. rewrite expr_div_n.
have -> : y ^+ 2 = d * x ^+ 2 by apply/eqP; rewrite -subr_eq0 E.
by rewrite mulfK // expf_neq0.
Qed.
Lemma quad_inv1 d x y N : N != 0 -> N = y ^+ 2 - d * x ^+ 2 ->
  (- x / N * y + y / N * x = 0) /\ (y / N * y + - x / N * x * d = 1).
Proof.
move=> N0 E. split.
  by mcf F; apply/eqP.
rewrite -(mulfV N0) [in X in _ = X / _]E. mcf F. by apply/eqP.
Qed.

Definition cnrm k x y z : F := x ^+ 3 * k ^+ 2 + y ^+ 3 * k + z ^+ 3 - (k * x * y * z) *+ 3.
Definition cA k x y z : F := z ^+ 2 - k * (x * y).
Definition cB k x y z : F := k * x ^+ 2 - y * z.
Definition cC x y z : F := y ^+ 2 - x * z.
Lemma cubic_id k x y z : cB k x y z ^+ 3 - k * cC x y z ^+ 3 = cnrm k x y z * (k * x ^+ 3 - y ^+ 3).
Proof. rewrite /cB /cC /cnrm. by mcfr F. Qed.
Lemma cubic_id1 k x y z : k * x ^+ 3 - y ^+ 3 = x * cB k x y z - y * cC x y z.
Proof. rewrite /cB /cC. by mcfr F. Qed.
Lemma cubic_id2 k x y z : cA k x y z * z + k * (cB k x y z * x + cC x y z * y) = cnrm k x y z.
Proof. rewrite /cB /cC /cA /cnrm. by mcfr F. Qed.
Lemma cube_root k u v : (forall z, z ^+ 3 != k) -> u ^+ 3 = k * v ^+ 3 -> v = 0.
Proof.
move=> nk E. apply/eqP. apply: contraTT (nk (u / v)) => v0.
by rewrite negbK expr_div_n E mulfK // expf_neq0.
Qed.
Lemma cubic_norm0 k x y z : (forall z, z ^+ 3 != k) -> cnrm k x y z = 0 -> [/\ x = 0, y = 0 & z = 0].
Proof.
move=> nk N0. have := cubic_id k x y z. rewrite N0 mul0r => /eqP. rewrite subr_eq0 => /eqP E.
have C0 := cube_root nk E. have B0 : cB k x y z = 0.
  move: E. rewrite C0 expr0n mulr0 => /eqP. by rewrite expf_eq0 => /andP [_ /eqP].
have := cubic_id1 k x y z. rewrite B0 C0 !mulr0 subr0 => /eqP. rewrite subr_eq0 => /eqP /esym E1.
have x0 := cube_root nk E1.
have y0 : y = 0. move: E1. rewrite x0 expr0n mulr0 => /eqP. by rewrite expf_eq0 => /andP [_ /eqP].
split=> //. move: N0. rewrite /cnrm x0 y0 !expr0n !(mulr0, mul0r) mul0rn !add0r subr0 => /eqP.
by rewrite expf_eq0 => /andP [_ /eqP].
Qed.
Lemma cubic_inv k x y z N : N != 0 -> N = cnrm k x y z ->
  [/\ cC x y z / N * z + cB k x y z / N * y + cA k x y z / N * x = 0,
      k * (cC x y z / N * x) + cB k x y z / N * z + cA k x y z / N * y = 0 &
      k * (cC x y z / N * y + cB k x y z / N * x) + cA k x y z / N * z = 1].
Proof.
move=> N0 E. split; rewrite /cC /cB /cA.
- mcf F. by apply/eqP.
- mcf F. by apply/eqP.
rewrite -(mulfV N0) [in X in _ = X / _]E /cnrm. mcf F. by apply/eqP.
Qed.
End Identities.

(** ** F(sqrt d) *)
Record qbase : Type := QBase { qF : fieldType; qd : qF; qP : forall x : qF, x ^+ 2 != qd }.
Record quad (b : qbase) : Type := Quad { q1 : qF b; q0 : qF b }.   (* q1 w + q0 *)

Section Quad.
Variable b : qbase.
Local Notation F := (qF b).
Local Notation d := (qd b).
Local Notation T := (quad b).
Definition q_code (a : T) : F * F := (q1 a, q0 a).
Definition q_decode (c : F * F) : T := Quad c.1 c.2.
Lemma q_codeK : cancel q_code q_decode. Proof. by case. Qed.
Definition quad_eqMixin := CanEqMixin q_codeK.
Canonical quad_eqType := Eval hnf in EqType T quad_eqMixin.
Definition quad_choiceMixin := CanChoiceMixin q_codeK.
Canonical quad_choiceType := Eval hnf in ChoiceType T quad_choiceMixin.
Lemma quad_eq (a c : T) : q1 a = q1 c -> q0 a = q0 c -> a = c.
Proof. by case: a; case: c => a1 a0 c1 c0 /= -> ->. Qed.
Definition q_add (a c : T) : T := Quad (q1 a + q1 c) (q0 a + q0 c).
Definition q_opp (a : T) : T := Quad (- q1 a) (- q0 a).
Definition q_zero : T := Quad 0 0.
Definition q_one : T := Quad 0 1.
Definition q_mul (a c : T) : T := Quad (q1 a * q0 c + q0 a * q1 c) (q0 a * q0 c + q1 a * q1 c * d).
Lemma q_addA : associative q_add. Proof. by move=> x y z; apply: quad_eq; rewrite /= addrA. Qed.
Lemma q_addC : commutative q_add. Proof. by move=> x y; apply: quad_eq; rewrite /= addrC. Qed.
Lemma q_add0 : left_id q_zero q_add. Proof. by move=> x; apply: quad_eq; rewrite /= add0r. Qed.
Lemma q_addN : left_inverse q_zero q_opp q_add. Proof. by move=> x; apply: quad_eq; rewrite /= addNr. Qed.
Definition quad_zmodMixin := ZmodMixin q_addA q_addC q_add0 q_addN.
Canonical quad_zmodType := Eval hnf in ZmodType T quad_zmodMixin.
End Quad.

Section QuadRing.
Variable F : fieldType.
Add Field FF2 : (mc_field F).
Variable d : F.
Lemma qid_A1 (a1 a0 b1 b0 c1 c0 : F) :
  a1 * (b0 * c0 + b1 * c1 * d) + a0 * (b1 * c0 + b0 * c1) = (a1 * b0 + a0 * b1) * c0 + (a0 * b0 + a1 * b1 * d) * c1.
Proof. by mcfr F. Qed.
Lemma qid_A0 (a1 a0 b1 b0 c1 c0 : F) :
  a0 * (b0 * c0 + b1 * c1 * d) + a1 * (b1 * c0 + b0 * c1) * d = (a0 * b0 + a1 * b1 * d) * c0 + (a1 * b0 + a0 * b1) * c1 * d.
Proof. by mcfr F. Qed.
Lemma qid_C1 (a1 a0 b1 b0 : F) : a1 * b0 + a0 * b1 = b1 * a0 + b0 * a1. Proof. by mcfr F. Qed.
Lemma qid_C0 (a1 a0 b1 b0 : F) : a0 * b0 + a1 * b1 * d = b0 * a0 + b1 * a1 * d. Proof. by mcfr F. Qed.
Lemma qid_D1 (a1 a0 b1 b0 c1 c0 : F) : (a1 + b1) * c0 + (a0 + b0) * c1 = a1 * c0 + a0 * c1 + (b1 * c0 + b0 * c1).
Proof. by mcfr F. Qed.
Lemma qid_D0 (a1 a0 b1 b0 c1 c0 : F) :
  (a0 + b0) * c0 + (a1 + b1) * c1 * d = a0 * c0 + a1 * c1 * d + (b0 * c0 + b1 * c1 * d).
Proof. by mcfr F. Qed.
End QuadRing.

Section QuadField.
Variable b : qbase.
Local Notation F := (qF b).
Local Notation d := (qd b).
Local Notation T := (quad b).
Lemma q_mulA : associative (@q_mul b).
Proof. move=> x y z; apply: quad_eq; [exact: qid_A1|exact: qid_A0]. Qed.
Lemma q_mulC : commutative (@q_mul b).
Proof. move=> x y; apply: quad_eq; [exact: qid_C1|exact: qid_C0]. Qed.
Lemma q_mul1 : left_id (q_one b) (@q_mul b).
Proof. by move=> x; apply: quad_eq; rewrite /= !(mul0r, mul1r, add0r, addr0). Qed.
Lemma q_mulD : left_distributive (@q_mul b) (@q_add b).
Proof. move=> x y z; apply: quad_eq; [exact: qid_D1|exact: qid_D0]. Qed.
Lemma q_1neq0 : q_one b != 0 :> T.
Proof. apply/eqP => /(congr1 (@q0 b)) /= /eqP. by rewrite oner_eq0. Qed.
Definition quad_ringMixin := ComRingMixin q_mulA q_mulC q_mul1 q_mulD q_1neq0.
Canonical quad_ringType := Eval hnf in RingType T quad_ringMixin.
Canonical quad_comRingType := Eval hnf in ComRingType T q_mulC.
Definition q_norm (a : T) : F := q0 a ^+ 2 - d * q1 a ^+ 2.
Definition q_inv (a : T) : T := if a == 0 then 0 else Quad (- q1 a / q_norm a) (q0 a / q_norm a).
Lemma q_norm_neq0 (a : T) : a != 0 -> q_norm a != 0.
Proof.
move=> a0. apply/eqP => /(quad_norm0 (@qP b)) [E1 E0]. move/eqP: a0. apply. exact: quad_eq.
Qed.
Lemma q_mulV (a : T) : a != 0 -> q_mul (q_inv a) a = q_one b.
Proof.
move=> a0. rewrite /q_inv (negbTE a0). have [E1 E0] := quad_inv1 (q_norm_neq0 a0) (erefl _).
by apply: quad_eq.
Qed.
Lemma q_inv0 : q_inv 0 = 0. Proof. by rewrite /q_inv eqxx. Qed.
Definition quad_unitRingMixin := FieldUnitMixin q_mulV q_inv0.
Canonical quad_unitRingType := Eval hnf in UnitRingType T quad_unitRingMixin.
Canonical quad_comUnitRingType := Eval hnf in [comUnitRingType of T].
Lemma quad_fieldMixin : GRing.Field.mixin_of quad_unitRingType. Proof. by []. Qed.
Definition quad_idomainMixin := FieldIdomainMixin quad_fieldMixin.
Canonical quad_idomainType := Eval hnf in IdomainType T quad_idomainMixin.
Canonical quad_fieldType := Eval hnf in FieldType T quad_fieldMixin.

Lemma q1D (x y : T) : q1 (x + y) = q1 x + q1 y. Proof. by []. Qed.
Lemma q0D (x y : T) : q0 (x + y) = q0 x + q0 y. Proof. by []. Qed.
Lemma quadM (x y : T) : x * y = Quad (q1 x * q0 y + q0 x * q1 y) (q0 x * q0 y + q1 x * q1 y * d). Proof. by []. Qed.
Lemma quadD (x y : T) : x + y = Quad (q1 x + q1 y) (q0 x + q0 y). Proof. by []. Qed.
Lemma quadN (x : T) : - x = Quad (- q1 x) (- q0 x). Proof. by []. Qed.
Lemma quad0 : 0 = Quad 0 0 :> T. Proof. by []. Qed.
Lemma quad1 : 1 = Quad 0 1 :> T. Proof. by []. Qed.
Lemma quadV (x : T) : x^-1 = if x == 0 then 0 else Quad (- q1 x / q_norm x) (q0 x / q_norm x). Proof. by []. Qed.
(** the embedding of F and the root *)
Definition qemb (x : F) : T := Quad 0 x.
Definition qroot : T := Quad 1 0.
Lemma qemb_additive : additive qemb.
Proof. move=> x y. rewrite /qemb. apply: quad_eq => //=. by rewrite subr0. Qed.
Lemma qemb_multiplicative : multiplicative qemb.
Proof. split=> // x y. apply: quad_eq; by rewrite /= !(mul0r, mulr0, addr0). Qed.
Canonical qemb_add := Additive qemb_additive.
Canonical qemb_rmorphism := AddRMorphism qemb_multiplicative.
Lemma qroot2 : qroot ^+ 2 = qemb d.
Proof. rewrite expr2 quadM /qemb /=. apply: quad_eq; by rewrite /= ?(mul0r, mulr0, mul1r, add0r). Qed.
Lemma quad_dec (x : T) : x = qemb (q1 x) * qroot + qemb (q0 x).
Proof. rewrite quadM quadD /qemb. by apply: quad_eq; rewrite /= !(mul0r, mulr0, mulr1, add0r, addr0). Qed.
End QuadField.

(** ** F(cbrt xi) *)
Record cbase : Type := CBase { cF : fieldType; cxi : cF; cP : forall x : cF, x ^+ 3 != cxi }.
Record cubic (b : cbase) : Type := Cubic { u2 : cF b; u1 : cF b; u0 : cF b }.   (* u2 t^2 + u1 t + u0 *)

Section Cubic.
Variable b : cbase.
Local Notation F := (cF b).
Local Notation k := (cxi b).
Local Notation T := (cubic b).
Definition u_code (a : T) : F * F * F := (u2 a, u1 a, u0 a).
Definition u_decode (c : F * F * F) : T := Cubic c.1.1 c.1.2 c.2.
Lemma u_codeK : cancel u_code u_decode. Proof. by case. Qed.
Definition cubic_eqMixin := CanEqMixin u_codeK.
Canonical cubic_eqType := Eval hnf in EqType T cubic_eqMixin.
Definition cubic_choiceMixin := CanChoiceMixin u_codeK.
Canonical cubic_choiceType := Eval hnf in ChoiceType T cubic_choiceMixin.
Lemma cubic_eq (a c : T) : u2 a = u2 c -> u1 a = u1 c -> u0 a = u0 c -> a = c.
Proof. by case: a; case: c => a2 a1 a0 c2 c1 c0 /= -> -> ->. Qed.
Definition u_add (a c : T) : T := Cubic (u2 a + u2 c) (u1 a + u1 c) (u0 a + u0 c).
Definition u_opp (a : T) : T := Cubic (- u2 a) (- u1 a) (- u0 a).
Definition u_zero : T := Cubic 0 0 0.
Definition u_one : T := Cubic 0 0 1.
Definition u_mul (a c : T) : T := Cubic
  (u2 a * u0 c + u1 a * u1 c + u0 a * u2 c)
  (k * (u2 a * u2 c) + u1 a * u0 c + u0 a * u1 c)
  (k * (u2 a * u1 c + u1 a * u2 c) + u0 a * u0 c).
Lemma u_addA : associative u_add. Proof. by move=> x y z; apply: cubic_eq; rewrite /= addrA. Qed.
Lemma u_addC : commutative u_add. Proof. by move=> x y; apply: cubic_eq; rewrite /= addrC. Qed.
Lemma u_add0 : left_id u_zero u_add. Proof. by move=> x; apply: cubic_eq; rewrite /= add0r. Qed.
Lemma u_addN : left_inverse u_zero u_opp u_add. Proof. by move=> x; apply: cubic_eq; rewrite /= addNr. Qed.
Definition cubic_zmodMixin := ZmodMixin u_addA u_addC u_add0 u_addN.
Canonical cubic_zmodType := Eval hnf in ZmodType T cubic_zmodMixin.
End Cubic.

Section CubicRing.
Variable F : fieldType.
Add Field FF3 : (mc_field F).
Variable k : F.
Implicit Types a b c : F.
Local Notation m2 a2 a1 a0 c2 c1 c0 := (a2 * c0 + a1 * c1 + a0 * c2).
Local Notation m1 a2 a1 a0 c2 c1 c0 := (k * (a2 * c2) + a1 * c0 + a0 * c1).
Local Notation m0 a2 a1 a0 c2 c1 c0 := (k * (a2 * c1 + a1 * c2) + a0 * c0).
Variables a2 a1 a0 b2 b1 b0 c2 c1 c0 : F.
Lemma uid_A2 : m2 a2 a1 a0 (m2 b2 b1 b0 c2 c1 c0) (m1 b2 b1 b0 c2 c1 c0) (m0 b2 b1 b0 c2 c1 c0) =
  m2 (m2 a2 a1 a0 b2 b1 b0) (m1 a2 a1 a0 b2 b1 b0) (m0 a2 a1 a0 b2 b1 b0) c2 c1 c0.
Proof. by mcfr F. Qed.
Lemma uid_A1 : m1 a2 a1 a0 (m2 b2 b1 b0 c2 c1 c0) (m1 b2 b1 b0 c2 c1 c0) (m0 b2 b1 b0 c2 c1 c0) =
  m1 (m2 a2 a1 a0 b2 b1 b0) (m1 a2 a1 a0 b2 b1 b0) (m0 a2 a1 a0 b2 b1 b0) c2 c1 c0.
Proof. by mcfr F. Qed.
Lemma uid_A0 : m0 a2 a1 a0 (m2 b2 b1 b0 c2 c1 c0) (m1 b2 b1 b0 c2 c1 c0) (m0 b2 b1 b0 c2 c1 c0) =
  m0 (m2 a2 a1 a0 b2 b1 b0) (m1 a2 a1 a0 b2 b1 b0) (m0 a2 a1 a0 b2 b1 b0) c2 c1 c0.
Proof. by mcfr F. Qed.
Lemma uid_C2 : m2 a2 a1 a0 b2 b1 b0 = m2 b2 b1 b0 a2 a1 a0. Proof. by mcfr F. Qed.
Lemma uid_C1 : m1 a2 a1 a0 b2 b1 b0 = m1 b2 b1 b0 a2 a1 a0. Proof. by mcfr F. Qed.
Lemma uid_C0 : m0 a2 a1 a0 b2 b1 b0 = m0 b2 b1 b0 a2 a1 a0. Proof. by mcfr F. Qed.
Lemma uid_D2 : m2 (a2 + b2) (a1 + b1) (a0 + b0) c2 c1 c0 = m2 a2 a1 a0 c2 c1 c0 + m2 b2 b1 b0 c2 c1 c0.
Proof. by mcfr F. Qed.
Lemma uid_D1 : m1 (a2 + b2) (a1 + b1) (a0 + b0) c2 c1 c0 = m1 a2 a1 a0 c2 c1 c0 + m1 b2 b1 b0 c2 c1 c0.
Proof. by mcfr F. Qed.
Lemma uid_D0 : m0 (a2 + b2) (a1 + b1) (a0 + b0) c2 c1 c0 = m0 a2 a1 a0 c2 c1 c0 + m0 b2 b1 b0 c2 c1 c0.
Proof. by mcfr F. Qed.
End CubicRing.

Section CubicField.
Variable b : cbase.
Local Notation F := (cF b).
Local Notation k := (cxi b).
Local Notation T := (cubic b).
Lemma u_mulA : associative (@u_mul b).
Proof. move=> x y z; apply: cubic_eq; [exact: uid_A2|exact: uid_A1|exact: uid_A0]. Qed.
Lemma u_mulC : commutative (@u_mul b).
Proof. move=> x y; apply: cubic_eq; [exact: uid_C2|exact: uid_C1|exact: uid_C0]. Qed.
Lemma u_mul1 : left_id (u_one b) (@u_mul b).
Proof. by move=> x; apply: cubic_eq; rewrite /= !(mul0r, mulr0, mul1r, add0r, addr0). Qed.
Lemma u_mulD : left_distributive (@u_mul b) (@u_add b).
Proof. move=> x y z; apply: cubic_eq; [exact: uid_D2|exact: uid_D1|exact: uid_D0]. Qed.
Lemma u_1neq0 : u_one b != 0 :> T.
Proof. apply/eqP => /(congr1 (@u0 b)) /= /eqP. by rewrite oner_eq0. Qed.
Definition cubic_ringMixin := ComRingMixin u_mulA u_mulC u_mul1 u_mulD u_1neq0.
Canonical cubic_ringType := Eval hnf in RingType T cubic_ringMixin.
Canonical cubic_comRingType := Eval hnf in ComRingType T u_mulC.
Definition u_norm (a : T) : F := cnrm k (u2 a) (u1 a) (u0 a).
Definition u_inv (a : T) : T := if a == 0 then 0 else
  Cubic (cC (u2 a) (u1 a) (u0 a) / u_norm a) (cB k (u2 a) (u1 a) (u0 a) / u_norm a) (cA k (u2 a) (u1 a) (u0 a) / u_norm a).
Lemma u_norm_neq0 (a : T) : a != 0 -> u_norm a != 0.
Proof.
move=> a0. apply/eqP => /(cubic_norm0 (@cP b)) [E2 E1 E0]. move/eqP: a0. apply. exact: cubic_eq.
Qed.
Lemma u_mulV (a : T) : a != 0 -> u_mul (u_inv a) a = u_one b.
Proof.
move=> a0. rewrite /u_inv (negbTE a0). have [E2 E1 E0] := cubic_inv (u_norm_neq0 a0) (erefl _).
by apply: cubic_eq.
Qed.
Lemma u_inv0 : u_inv 0 = 0. Proof. by rewrite /u_inv eqxx. Qed.
Definition cubic_unitRingMixin := FieldUnitMixin u_mulV u_inv0.
Canonical cubic_unitRingType := Eval hnf in UnitRingType T cubic_unitRingMixin.
Canonical cubic_comUnitRingType := Eval hnf in [comUnitRingType of T].
Lemma cubic_fieldMixin : GRing.Field.mixin_of cubic_unitRingType. Proof. by []. Qed.
Definition cubic_idomainMixin := FieldIdomainMixin cubic_fieldMixin.
Canonical cubic_idomainType := Eval hnf in IdomainType T cubic_idomainMixin.
Canonical cubic_fieldType := Eval hnf in FieldType T cubic_fieldMixin.

Lemma cubicM (x y : T) : x * y = Cubic (u2 x * u0 y + u1 x * u1 y + u0 x * u2 y)
  (k * (u2 x * u2 y) + u1 x * u0 y + u0 x * u1 y) (k * (u2 x * u1 y + u1 x * u2 y) + u0 x * u0 y). Proof. by []. Qed.
Lemma cubicD (x y : T) : x + y = Cubic (u2 x + u2 y) (u1 x + u1 y) (u0 x + u0 y). Proof. by []. Qed.
Lemma cubicN (x : T) : - x = Cubic (- u2 x) (- u1 x) (- u0 x). Proof. by []. Qed.
Lemma cubic0 : 0 = Cubic 0 0 0 :> T. Proof. by []. Qed.
Lemma cubic1 : 1 = Cubic 0 0 1 :> T. Proof. by []. Qed.
Lemma cubicV (x : T) : x^-1 = u_inv x. Proof. by []. Qed.
Definition uemb (x : F) : T := Cubic 0 0 x.
Definition uroot : T := Cubic 0 1 0.
Lemma uemb_additive : additive uemb.
Proof. move=> x y. rewrite /uemb. apply: cubic_eq => //=; by rewrite subr0. Qed.
Lemma uemb_multiplicative : multiplicative uemb.
Proof. split=> // x y. apply: cubic_eq; by rewrite /= !(mul0r, mulr0, addr0, add0r). Qed.
Canonical uemb_add := Additive uemb_additive.
Canonical uemb_rmorphism := AddRMorphism uemb_multiplicative.
Lemma uroot3 : uroot ^+ 3 = uemb k.
Proof. rewrite !exprS expr0 mulr1 !cubicM /uemb /=. by apply: cubic_eq; rewrite /= ?(mul0r, mulr0, mul1r, mulr1, add0r, addr0). Qed.
Lemma cubic_dec (x : T) : x = uemb (u2 x) * uroot ^+ 2 + uemb (u1 x) * uroot + uemb (u0 x).
Proof. rewrite expr2 !cubicM !cubicD /uemb. by apply: cubic_eq; rewrite /= !(mul0r, mulr0, mulr1, mul1r, add0r, addr0). Qed.
End CubicField.
