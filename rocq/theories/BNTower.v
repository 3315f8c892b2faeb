(** * The field tower of crypto/bn256

    K1 = F_p, K2 = K1(i), K6 = K2(tau), K12 = K6(omega), and the values [v2],
    [v6], [v12] of the objects of the model in them. *)
From Coq Require Import ZArith Znumtheory Lia.
From mathcomp Require Import all_ssreflect all_algebra.
From Verif Require Import Base BaseFacts SpecCurve ZField MCRing FieldExt PrimesBN CertXi BB BN256.
Set Implicit Arguments.
Unset Strict Implicit.
Unset Printing Implicit Defensive.
Import GRing.Theory.
Delimit Scope Z_scope with Z.
Local Open Scope ring_scope.
Local Arguments Z.mul : simpl never.
Local Arguments Z.add : simpl never.
Local Arguments Z.sub : simpl never.

Lemma bnP_prime : Znumtheory.prime bn_P. Proof. exact: bn_P_prime. Qed.
Lemma bnP_gt3 : (3 < bn_P)%Z. Proof. by vm_compute. Qed.
Lemma bnP_pos : (0 < bn_P)%Z. Proof. by vm_compute. Qed.

Definition bnf : zfield bn_P := zfield_of bnP_prime.
Definition K1 : fieldType := zK bnf.
Definition ph : Z -> K1 := @zph _ bnf.

Lemma phD a b : ph (a + b)%Z = ph a + ph b. Proof. exact: zph_add. Qed.
Lemma phM a b : ph (a * b)%Z = ph a * ph b. Proof. exact: zph_mul. Qed.
Lemma phB a b : ph (a - b)%Z = ph a - ph b. Proof. exact: zph_sub. Qed.
Lemma phN a : ph (- a)%Z = - ph a. Proof. exact: zph_opp. Qed.
Lemma ph0 : ph 0 = 0. Proof. exact: zph_0. Qed.
Lemma ph1 : ph 1 = 1. Proof. exact: zph_1. Qed.
Lemma phP : ph bn_P = 0. Proof. exact: zph_P. Qed.
Lemma phmod a : ph (bmod a bn_P) = ph a. Proof. exact: zph_bmod. Qed.
Lemma phXZ a e : (0 <= e)%Z -> ph (a ^ e)%Z = ph a ^+ Z.to_nat e. Proof. exact: zph_powZ. Qed.
Lemma ph_eq a b : ph a = ph b <-> (a mod bn_P = b mod bn_P)%Z. Proof. exact: zph_eq. Qed.
Lemma ph_eq0 a : ph a = 0 <-> (a mod bn_P = 0)%Z. Proof. exact: zph_eq0. Qed.
Lemma ph_surj (x : K1) : exists z, (0 <= z < bn_P)%Z /\ ph z = x. Proof. exact: zph_surj. Qed.
Lemma fermat (x : K1) : x ^+ (Z.to_nat bn_P) = x. Proof. exact: (zph_fermat bnP_prime). Qed.
Lemma ph2_neq0 : ph 2 != 0. Proof. by apply: zph_neq0; vm_compute. Qed.

(** P = 3 mod 4, so that -1 is not a square *)
Lemma bnP_mod4 : (bn_P = 4 * (bn_P / 4) + 3)%Z. Proof. by vm_compute. Qed.
Lemma bnP_div4 : (0 <= bn_P / 4)%Z. Proof. by vm_compute. Qed.
Lemma nat_mod4 (p q : Z) : (0 <= q)%Z -> (p = 4 * q + 3)%Z -> Z.to_nat p = (2 * (2 * Z.to_nat q) + 3)%N.
Proof. rewrite -!plusE -!multE. lia. Qed.
Lemma nat_mod6 (p : Z) (q : positive) : (p = 6 * Zpos q + 1)%Z -> Z.to_nat p = (6 * Pos.to_nat q).+1.
Proof. rewrite -!multE. lia. Qed.
Lemma to_natP4 : Z.to_nat bn_P = (2 * (2 * Z.to_nat (bn_P / 4)) + 3)%N.
Proof. exact: (nat_mod4 bnP_div4 bnP_mod4). Qed.
Lemma m1_neq1 : (-1 : K1) <> 1.
Proof.
move=> /eqP. rewrite eq_sym -subr_eq0 opprK -[1]ph1 -phD. exact/negP/ph2_neq0.
Qed.
Lemma m1_not_square (x : K1) : x ^+ 2 != -1.
Proof.
apply/eqP => E. have x0 : x != 0.
  apply/eqP => x0. move: E. rewrite x0 expr0n => /eqP. rewrite eq_sym oppr_eq0. by rewrite oner_eq0.
have := fermat x. rewrite to_natP4 exprD !exprM E sqrrN expr1n expr1n mul1r.
rewrite exprSr E => E2. apply: m1_neq1. apply: (mulIf x0). by rewrite E2 mul1r.
Qed.

Definition b2 : qbase := @QBase K1 (-1) m1_not_square.
Definition K2 : fieldType := quad_fieldType b2.
Definition v2 (a : gfP2) : K2 := Quad (ph (c2x a) : qF b2) (ph (c2y a)).

Section QNorm.
Variable F : fieldType.
Add Field FFn : (mc_field F).
Lemma qnorm_id (d a1 a0 c1 c0 : F) :
  (a0 * c0 + a1 * c1 * d) ^+ 2 - d * (a1 * c0 + a0 * c1) ^+ 2 = (a0 ^+ 2 - d * a1 ^+ 2) * (c0 ^+ 2 - d * c1 ^+ 2).
Proof. by mcfr F. Qed.
Lemma unorm_id (k a2 a1 a0 c2 c1 c0 : F) :
  cnrm k (a2 * c0 + a1 * c1 + a0 * c2) (k * (a2 * c2) + a1 * c0 + a0 * c1) (k * (a2 * c1 + a1 * c2) + a0 * c0)
  = cnrm k a2 a1 a0 * cnrm k c2 c1 c0.
Proof. rewrite /cnrm. by mcfr F. Qed.
End QNorm.
Lemma qnormM b (x y : quad b) : q_norm (x * y) = q_norm x * q_norm y.
Proof. exact: qnorm_id. Qed.
Lemma qnorm1 b : q_norm (1 : quad b) = 1.
Proof. by rewrite /q_norm /= expr1n expr0n mulr0 subr0. Qed.
Lemma qnormX b (x : quad b) n : q_norm (x ^+ n) = q_norm x ^+ n.
Proof. elim: n => [|n IH]; [by rewrite !expr0 qnorm1|by rewrite !exprS qnormM IH]. Qed.
Lemma unormM b (x y : cubic b) : u_norm (x * y) = u_norm x * u_norm y.
Proof. exact: unorm_id. Qed.

(** ** xi^((P-1)/6) *)
Fixpoint pw2 (e : positive) (hs : list (Z * Z)) : (Z * Z) * list (Z * Z) :=
  match e with
  | xH => ((1, 9)%Z, hs)
  | xO e' => let '((x, y), hs) := pw2 e' hs in
             match hs with
             | cons (q, q') hs' => ((2 * (x * y) - q * bn_P, (y - x) * (x + y) - q' * bn_P)%Z, hs')
             | nil => ((2 * (x * y), (y - x) * (x + y))%Z, nil)
             end
  | xI e' => let '((x, y), hs) := pw2 e' hs in
             let X := (2 * (x * y))%Z in let Y := ((y - x) * (x + y))%Z in
             match hs with
             | cons (q, q') hs' => ((9 * X + Y - q * bn_P, 9 * Y - X - q' * bn_P)%Z, hs')
             | nil => ((9 * X + Y, 9 * Y - X)%Z, nil)
             end
  end.
Definition xi2 : K2 := v2 (GfP2 1 9).

Lemma v2_eqv x y x' y' : ph x = ph x' -> ph y = ph y' -> v2 (GfP2 x y) = v2 (GfP2 x' y').
Proof. by rewrite /v2 /= => -> ->. Qed.
Lemma ph_quot a q : ph (a - q * bn_P)%Z = ph a. Proof. by rewrite phB phM phP mulr0 subr0. Qed.
Section Ids.
Variable F : fieldType.
Add Field FFi : (mc_field F).
Lemma sq_id1 (x y : F) : x * y + y * x = (1 + 1) * (x * y). Proof. by mcfr F. Qed.
Lemma sq_id0 (x y : F) : y * y + x * x * (-1) = (y - x) * (x + y). Proof. by mcfr F. Qed.
Lemma xi_id1 (x y n : F) : x * n + y * 1 = n * x + y. Proof. by mcfr F. Qed.
Lemma xi_id0 (x y n : F) : y * n + x * 1 * (-1) = n * y - x. Proof. by mcfr F. Qed.
End Ids.
Lemma ph_2 : ph 2 = 1 + 1. Proof. by rewrite -[1]ph1 -phD. Qed.
Lemma v2_sq x y : v2 (GfP2 (2 * (x * y)) ((y - x) * (x + y))) = v2 (GfP2 x y) * v2 (GfP2 x y).
Proof.
rewrite quadM. apply: quad_eq; rewrite /v2 /= !(phM, phD, phB) ?ph_2.
  by rewrite sq_id1.
by rewrite sq_id0.
Qed.
Lemma v2_xi x y : v2 (GfP2 (9 * x + y) (9 * y - x)) = v2 (GfP2 x y) * xi2.
Proof.
rewrite quadM. apply: quad_eq; rewrite /v2 /= !(phM, phD, phB) ?ph1.
  by rewrite xi_id1.
by rewrite xi_id0.
Qed.
Lemma pw2_ok e hs : v2 (GfP2 (pw2 e hs).1.1 (pw2 e hs).1.2) = xi2 ^+ Pos.to_nat e.
Proof.
elim: e hs => [e IH|e IH|] hs; last by rewrite expr1.
- rewrite Pos2Nat.inj_xI multE -[S _]addn1 exprD expr1 mulnC exprM expr2 -(IH hs) /=.
  case: (pw2 e hs) => [[x y] [|[q q'] hs']] /=; rewrite -v2_sq -v2_xi //.
  by apply: v2_eqv; rewrite ph_quot.
- rewrite Pos2Nat.inj_xO multE mulnC exprM expr2 -(IH hs) /=.
  case: (pw2 e hs) => [[x y] [|[q q'] hs']] /=; rewrite -v2_sq //.
  by apply: v2_eqv; rewrite ph_quot.
Qed.
Lemma pw2_xi : (pw2 xi_exp xi_hints).1 = (c2x xiToPMinus1Over6, c2y xiToPMinus1Over6).
Proof. by vm_compute. Qed.
Lemma xi_exp6 : (bn_P = 6 * Zpos xi_exp + 1)%Z. Proof. by vm_compute. Qed.
Definition xe : nat := Pos.to_nat xi_exp.
Lemma to_natP6 : Z.to_nat bn_P = (6 * xe).+1.
Proof.
exact: (nat_mod6 xi_exp6).
Qed.
(** the constant xiToPMinus1Over6 is xi^((P-1)/6) *)
Lemma xi_c6 : v2 xiToPMinus1Over6 = xi2 ^+ xe.
Proof. rewrite /xe -(pw2_ok _ xi_hints) pw2_xi. by case: xiToPMinus1Over6. Qed.

(** ** 82 = N(xi) is neither a square nor a cube *)
Definition n6 : Z := (c2x xiToPMinus1Over6 * c2x xiToPMinus1Over6 + c2y xiToPMinus1Over6 * c2y xiToPMinus1Over6)%Z.
Section Ids2.
Variable F : fieldType.
Add Field FFj : (mc_field F).
Lemma nrm_id (x y : F) : y ^+ 2 - (-1) * x ^+ 2 = x * x + y * y. Proof. by mcfr F. Qed.
End Ids2.
Lemma qnorm_v2 (a : gfP2) : q_norm (v2 a) = ph (c2x a * c2x a + c2y a * c2y a).
Proof. by rewrite /q_norm /v2 /= phD !phM nrm_id. Qed.
Definition nm2 (x : K2) : K1 := q_norm x.
Lemma nm2X (x : K2) n : nm2 (x ^+ n) = nm2 x ^+ n. Proof. exact (@qnormX b2 x n). Qed.
Lemma nm2_v2 (a : gfP2) : nm2 (v2 a) = ph (c2x a * c2x a + c2y a * c2y a). Proof. exact: qnorm_v2. Qed.
Lemma norm_xi : nm2 xi2 = ph 82. Proof. by rewrite /xi2 nm2_v2. Qed.
Lemma n6_pow : ph 82 ^+ xe = ph n6.
Proof. by rewrite -norm_xi -nm2X -xi_c6 nm2_v2. Qed.
Lemma n6_2 : ph n6 ^+ 2 != 1.
Proof. apply/eqP. rewrite expr2 -phM -ph1 => /ph_eq. by vm_compute. Qed.
Lemma n6_3 : ph n6 ^+ 3 != 1.
Proof. apply/eqP. rewrite !exprS expr0 mulr1 -!phM -ph1 => /ph_eq. by vm_compute. Qed.
Lemma ph82_neq0 : ph 82 != 0. Proof. by apply: zph_neq0; vm_compute. Qed.
Lemma pow_p1 (x : K1) : x != 0 -> x ^+ (6 * xe) = 1.
Proof. move=> x0. apply: (mulIf x0). by rewrite -exprSr -to_natP6 fermat mul1r. Qed.
Lemma not_square82 (x : K1) : x ^+ 2 != ph 82.
Proof.
apply/eqP => E. have x0 : x != 0 by apply: contraNneq ph82_neq0 => x0; rewrite -E x0 expr0n.
move/eqP: n6_3. apply. by rewrite -n6_pow -E -!exprM mulnCA mulnC -[(2 * 3)%N]/6%N pow_p1.
Qed.
Lemma not_cube82 (x : K1) : x ^+ 3 != ph 82.
Proof.
apply/eqP => E. have x0 : x != 0 by apply: contraNneq ph82_neq0 => x0; rewrite -E x0 expr0n.
move/eqP: n6_2. apply. by rewrite -n6_pow -E -!exprM mulnCA mulnC -[(3 * 2)%N]/6%N pow_p1.
Qed.
Lemma xi_not_cube (x : K2) : x ^+ 3 != xi2.
Proof. apply/eqP => E. move/eqP: (not_cube82 (nm2 x)). apply. by rewrite -nm2X E norm_xi. Qed.

Definition b6 : cbase := @CBase K2 xi2 xi_not_cube.
Definition K6 : fieldType := cubic_fieldType b6.
Definition v6 (a : gfP6) : K6 := Cubic (v2 (c6x a) : cF b6) (v2 (c6y a)) (v2 (c6z a)).
Definition tau6 : K6 := uroot b6.
Definition nm6 (x : K6) : K2 := u_norm x.
Lemma nm6M (x y : K6) : nm6 (x * y) = nm6 x * nm6 y. Proof. exact (@unormM b6 x y). Qed.
Lemma unorm_tau : nm6 tau6 = xi2.
Proof. rewrite /nm6 /u_norm /cnrm /= !(expr0n, expr1n, mul0r, mulr0, mul1r, mul0rn) /=. by rewrite add0r addr0 subr0. Qed.
Lemma tau_not_square (x : K6) : x ^+ 2 != tau6.
Proof.
apply/eqP => E. move/eqP: (not_square82 (nm2 (nm6 x))). apply.
by rewrite -nm2X expr2 -nm6M -expr2 E unorm_tau norm_xi.
Qed.
Definition b12 : qbase := @QBase K6 tau6 tau_not_square.
Definition K12 : fieldType := quad_fieldType b12.
Definition v12 (a : gfP12) : K12 := Quad (v6 (c12x a) : qF b12) (v6 (c12y a)).
