(** * Scalar multiplication from scratch points with arbitrary contents *)
From Coq Require Import ZArith Znumtheory Lia Bool.
From mathcomp Require Import all_ssreflect all_algebra.
From Verif Require Import Base BaseFacts Fp ZMod SpecCurve ZField MCRing EC ECGroup PtGroup Jac FieldExt BB BN256 BNTower BNField ZExp BNFrob SpecBN BNG1 BNG2 BNHeapCurve.
Set Implicit Arguments.
Unset Strict Implicit.
Unset Printing Implicit Defensive.
Import GRing.Theory.
Delimit Scope Z_scope with Z.
Local Open Scope ring_scope.
Local Opaque bn_P ModInverse mk2 mk6 mk12.

Lemma g1_mulfrom_ok s0 t0 a k : (0 <= k)%Z -> g1_ok a -> g1_ok (cp_MulFrom s0 t0 a k) /\ g1v (cp_MulFrom s0 t0 a k) = zmul bn_P k (g1v a).
Proof.
move=> k0 /g1_okE [oa za].
have [E Z0] : jv (cp_MulFrom s0 t0 a k) = ptmul k (jv a) /\ zok (cpz (cp_MulFrom s0 t0 a k)).
  rewrite /cp_MulFrom.
  set st := fun _ _ => _.
  pose I (s : curvePoint * curvePoint) (e : Z) := jv s.1 = ptmul e (jv a) /\ zok (cpz s.1).
  have H := @bit_loop_inv _ I st k.
  have [] := H _ (Z.to_nat (BitLen k + 1)) (cp_SetInfinity s0, t0) 0%Z; last by rewrite BitLen1_pow // Z.mul_0_l Z.add_0_l => ->.
  - move=> [s t] e i i0 [E zs]. rewrite /= in E zs.
    have os : on_curve (ph 3) (jv s) by rewrite E; exact: (@ptmul_on BNG1.c1).
    have Ed : jv (cp_Double t s) = ptmul (2 * e)%Z (jv a).
      by rewrite jv_Double E -(@ptmulD BNG1.c1) // Z.add_diag.
    have zd := @zok_Double t s.
    have od : on_curve (ph 3) (jv (cp_Double t s)) by rewrite Ed; exact: (@ptmul_on BNG1.c1).
    rewrite /st /I /Bit. case: Z.testbit => /=; last by rewrite Z.add_0_r.
    split; first by rewrite jv_Add // Ed (@ptmulD BNG1.c1) // (@ptmul1 BNG1.c1).
    by apply: zok_Add_with => //; exact: zok_Double.
  - by split; [rewrite jv_newinf|].
have E' : em (zmul bn_P k (g1v a)) = ptmul k (jv a) by rewrite em_mul ?em_g1v //; exact: g1v_range.
apply: ok_of => //; first (by apply: zmul_rng; exact: g1v_range); last by rewrite E.
rewrite E'. exact: (@ptmul_on BNG1.c1).
Qed.
Lemma g2_mulfrom_ok s0 t0 a k : (0 <= k)%Z -> g2_ok a -> g2_ok (tp_MulFrom s0 t0 a k) /\ g2v (tp_MulFrom s0 t0 a k) = ptmul k (g2v a).
Proof.
move=> k0 [oa za].
have [E Z0] : g2v (tp_MulFrom s0 t0 a k) = ptmul k (g2v a) /\ tok (tpz (tp_MulFrom s0 t0 a k)).
  rewrite /tp_MulFrom.
  set st := fun _ _ => _.
  pose I (s : twistPoint * twistPoint) (e : Z) := g2v s.1 = ptmul e (g2v a) /\ tok (tpz s.1).
  have H := @bit_loop_inv _ I st k.
  have [] := H _ (Z.to_nat (BitLen k + 1)) (tp_SetInfinity s0, t0) 0%Z; last by rewrite BitLen1_pow // Z.mul_0_l Z.add_0_l => ->.
  - move=> [s t] e i i0 [E zs]. rewrite /= in E zs.
    have os : on_curve g2_b (g2v s) by rewrite E; exact: (@ptmul_on BNG2.c2).
    have Ed : g2v (tp_Double t s) = ptmul (2 * e)%Z (g2v a).
      by rewrite g2v_Double E -(@ptmulD BNG2.c2) // Z.add_diag.
    have zd := @tok_Double t s.
    have od : on_curve g2_b (g2v (tp_Double t s)) by rewrite Ed; exact: (@ptmul_on BNG2.c2).
    rewrite /st /I /Bit. case: Z.testbit => /=; last by rewrite Z.add_0_r.
    split; first by rewrite g2v_Add // Ed (@ptmulD BNG2.c2) // (@ptmul1 BNG2.c2).
    by apply: tok_Add_with => //; exact: tok_Double.
  - split; [by rewrite g2v_inf|by []].
split=> //. split=> //. rewrite E. exact: (@ptmul_on BNG2.c2).
Qed.
