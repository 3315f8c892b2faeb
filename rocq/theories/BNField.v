(** * The operations of gfp2.go, gfp6.go and gfp12.go compute in the tower *)
From Coq Require Import ZArith Znumtheory Lia Bool.
From mathcomp Require Import all_ssreflect all_algebra.
From Verif Require Import Base BaseFacts SpecCurve ZField MCRing FieldExt CertXi BB BN256 BNTower.
Set Implicit Arguments.
Unset Strict Implicit.
Unset Printing Implicit Defensive.
Import GRing.Theory.
Delimit Scope Z_scope with Z.
Local Open Scope ring_scope.
Local Arguments Z.mul : simpl never.
Local Arguments Z.add : simpl never.
Local Arguments Z.sub : simpl never.
Local Opaque bn_P ModInverse xiToPMinus1Over6 xiToPMinus1Over3 xiToPMinus1Over2 xiTo2PMinus2Over3
  xiToPSquaredMinus1Over3 xiTo2PSquaredMinus2Over3 xiToPSquaredMinus1Over6.

Add Field K1F : (mc_field K1).
Add Field K2F : (mc_field K2).
Add Field K6F : (mc_field K6).

(** ** the operations of the three fields on coordinates *)
Definition mk2 (x y : K1) : K2 := Quad (x : qF b2) y.
Definition mk6 (x y z : K2) : K6 := Cubic (x : cF b6) y z.
Definition mk12 (x y : K6) : K12 := Quad (x : qF b12) y.
Lemma mk2M x y x' y' : mk2 x y * mk2 x' y' = mk2 (x * y' + y * x') (y * y' + x * x' * (-1)).
Proof. exact (@quadM b2 (Quad (x : qF b2) y) (Quad (x' : qF b2) y')). Qed.
Lemma mk2D x y x' y' : mk2 x y + mk2 x' y' = mk2 (x + x') (y + y').
Proof. exact (@quadD b2 (Quad (x : qF b2) y) (Quad (x' : qF b2) y')). Qed.
Lemma mk2N x y : - mk2 x y = mk2 (- x) (- y).
Proof. exact (@quadN b2 (Quad (x : qF b2) y)). Qed.
Lemma mk2_0 : mk2 0 0 = 0. Proof. by []. Qed.
Lemma mk2_1 : mk2 0 1 = 1. Proof. by []. Qed.
Lemma mk6M x y z x' y' z' : mk6 x y z * mk6 x' y' z' =
  mk6 (x * z' + y * y' + z * x') (xi2 * (x * x') + y * z' + z * y') (xi2 * (x * y' + y * x') + z * z').
Proof. exact (@cubicM b6 (Cubic (x : cF b6) y z) (Cubic (x' : cF b6) y' z')). Qed.
Lemma mk6D x y z x' y' z' : mk6 x y z + mk6 x' y' z' = mk6 (x + x') (y + y') (z + z').
Proof. exact (@cubicD b6 (Cubic (x : cF b6) y z) (Cubic (x' : cF b6) y' z')). Qed.
Lemma mk6N x y z : - mk6 x y z = mk6 (- x) (- y) (- z).
Proof. exact (@cubicN b6 (Cubic (x : cF b6) y z)). Qed.
Lemma mk6_0 : mk6 0 0 0 = 0. Proof. by []. Qed.
Lemma mk6_1 : mk6 0 0 1 = 1. Proof. by []. Qed.
Lemma mk12M x y x' y' : mk12 x y * mk12 x' y' = mk12 (x * y' + y * x') (y * y' + x * x' * tau6).
Proof. exact (@quadM b12 (Quad (x : qF b12) y) (Quad (x' : qF b12) y')). Qed.
Lemma mk12D x y x' y' : mk12 x y + mk12 x' y' = mk12 (x + x') (y + y').
Proof. exact (@quadD b12 (Quad (x : qF b12) y) (Quad (x' : qF b12) y')). Qed.
Lemma mk12N x y : - mk12 x y = mk12 (- x) (- y).
Proof. exact (@quadN b12 (Quad (x : qF b12) y)). Qed.
Lemma mk12_0 : mk12 0 0 = 0. Proof. by []. Qed.
Lemma mk12_1 : mk12 0 1 = 1. Proof. by []. Qed.
Lemma tau6E : tau6 = mk6 0 1 0. Proof. by []. Qed.
Definition i2 : K2 := mk2 1 0.
Definition om12 : K12 := mk12 1 0.
Lemma v2E a : v2 a = mk2 (ph (c2x a)) (ph (c2y a)). Proof. by []. Qed.
Lemma v6E a : v6 a = mk6 (v2 (c6x a)) (v2 (c6y a)) (v2 (c6z a)). Proof. by []. Qed.
Lemma v12E a : v12 a = mk12 (v6 (c12x a)) (v6 (c12y a)). Proof. by []. Qed.
Lemma mk2_inj x y x' y' : mk2 x y = mk2 x' y' -> x = x' /\ y = y'. Proof. by case. Qed.
Lemma mk6_inj x y z x' y' z' : mk6 x y z = mk6 x' y' z' -> [/\ x = x', y = y' & z = z']. Proof. by case. Qed.
Lemma mk12_inj x y x' y' : mk12 x y = mk12 x' y' -> x = x' /\ y = y'. Proof. by case. Qed.
Lemma mk2_eta (a : K2) : exists x y, a = mk2 x y. Proof. by case: a => x y; exists x, y. Qed.
Lemma mk6_eta (a : K6) : exists x y z, a = mk6 x y z. Proof. by case: a => x y z; exists x, y, z. Qed.
Lemma mk12_eta (a : K12) : exists x y, a = mk12 x y. Proof. by case: a => x y; exists x, y. Qed.
Local Opaque mk2 mk6 mk12.

(** ** gfP2 *)
Lemma ph_3 n : ph (8 * n + n)%Z = ph 9 * ph n. Proof. rewrite -phM. congr ph. lia. Qed.
Lemma v2_Zero : v2 gfP2_Zero = 0. Proof. by rewrite v2E /= ph0 mk2_0. Qed.
Lemma v2_One : v2 gfP2_One = 1. Proof. by rewrite v2E /= ph0 ph1 mk2_1. Qed.
Lemma v2_Add a b : v2 (gfP2_Add a b) = v2 a + v2 b.
Proof. by rewrite !v2E /= !phD mk2D. Qed.
Lemma v2_Negative a : v2 (gfP2_Negative a) = - v2 a.
Proof. by rewrite !v2E /= !phN mk2N. Qed.
Lemma v2_Sub a b : v2 (gfP2_Sub a b) = v2 a - v2 b.
Proof. by rewrite !v2E /= !phB mk2N mk2D. Qed.
Lemma v2_Double a : v2 (gfP2_Double a) = v2 a + v2 a.
Proof. rewrite !v2E /= mk2D -!phD. by congr mk2; congr ph; lia. Qed.
Lemma v2_Mul a b : v2 (gfP2_Mul a b) = v2 a * v2 b.
Proof. rewrite !v2E mk2M /= !phmod phD phB !phM. by congr mk2; mcfr K1. Qed.
Lemma v2_Square a : v2 (gfP2_Square a) = v2 a * v2 a.
Proof. rewrite !v2E mk2M /= !phmod !(phM, phB, phD) ph_2. by congr mk2; mcfr K1. Qed.
Lemma v2_MulScalar a k : v2 (gfP2_MulScalar a k) = v2 a * mk2 0 (ph k).
Proof. rewrite !v2E mk2M /= !phM. by congr mk2; mcfr K1. Qed.
Lemma v2_MulXi a : v2 (gfP2_MulXi a) = xi2 * v2 a.
Proof.
rewrite /xi2 !v2E mk2M /= phD phB !ph_3 ph1. by congr mk2; mcfr K1.
Qed.
Lemma v2_Minimal a : v2 (gfP2_Minimal a) = v2 a.
Proof.
have M z : ph (big_Minimal z) = ph z. by rewrite /big_Minimal; case: ifP => _ //; rewrite phmod.
by rewrite !v2E /= !M.
Qed.
Lemma v2_inj a b : v2 a = v2 b <-> (c2x a mod bn_P = c2x b mod bn_P)%Z /\ (c2y a mod bn_P = c2y b mod bn_P)%Z.
Proof.
rewrite !v2E -!ph_eq. split; first by move/mk2_inj. by move=> [-> ->].
Qed.
Lemma v2_surj (x : K2) : exists a, v2 a = x /\ (0 <= c2x a < bn_P)%Z /\ (0 <= c2y a < bn_P)%Z.
Proof.
have [x1 [x0 ->]] := mk2_eta x. have [a1 [r1 <-]] := ph_surj x1. have [a0 [r0 <-]] := ph_surj x0.
by exists (GfP2 a1 a0).
Qed.
Lemma nm2_mk x y : nm2 (mk2 x y) = x * x + y * y.
Proof. have [a1 [_ <-]] := ph_surj x. have [a0 [_ <-]] := ph_surj y. by rewrite -[mk2 _ _]/(v2 (GfP2 a1 a0)) nm2_v2 phD !phM. Qed.
Lemma nm2_neq0 (x : K2) : x != 0 -> nm2 x != 0.
Proof. exact (@q_norm_neq0 b2 x). Qed.
Lemma ph_ModInverse z : ph z != 0 -> exists2 i, ModInverse z bn_P = Some i & ph i = (ph z)^-1.
Proof. move=> /eqP z0. apply: (zph_ModInverse bnP_prime). by move/ph_eq0. Qed.
Lemma v2_InvertStale s a : v2 (gfP2_InvertStale s a) = (v2 a)^-1.
Proof.
have [a0|a0] := eqVneq (v2 a) 0.
  have E : ph (c2x a) = 0 /\ ph (c2y a) = 0. by move: a0; rewrite v2E -mk2_0 => /mk2_inj.
  rewrite a0 invr0 v2E /gfP2_InvertStale /= !phmod !phM phN. case: E => -> ->.
  by rewrite oppr0 !mul0r mk2_0.
apply: (mulIf a0). rewrite mulVf //.
have n0 := nm2_neq0 a0. rewrite nm2_v2 in n0.
have E0 : ph (c2y a * c2y a + c2x a * c2x a) != 0 by rewrite Z.add_comm.
rewrite /gfP2_InvertStale. have [i -> Ei] := ph_ModInverse E0.
rewrite !v2E mk2M /= !phmod !phM phN Ei -mk2_1 !(phD, phM).
move: E0; rewrite !(phD, phM) => E0. by congr mk2; mcf K1; apply/eqP.
Qed.
Lemma v2_Invert a : v2 (gfP2_Invert a) = (v2 a)^-1. Proof. exact: v2_InvertStale. Qed.
Lemma big_Minimal_range z : (0 <= big_Minimal z < bn_P)%Z.
Proof.
rewrite /big_Minimal. case E: (_ || _); first by apply: Z.mod_pos_bound; exact: bnP_pos.
move/orb_false_iff: E => [/Z.ltb_ge A /Z.leb_gt B]. lia.
Qed.

Definition v2ops := (v2_Mul, v2_Square, v2_Add, v2_Sub, v2_Double, v2_Negative, v2_MulXi, v2_Zero, v2_One).

(** ** gfP6 *)
Lemma v6_Zero : v6 gfP6_Zero = 0. Proof. by rewrite v6E /= v2_Zero mk6_0. Qed.
Lemma v6_One : v6 gfP6_One = 1. Proof. by rewrite v6E /= v2_Zero v2_One mk6_1. Qed.
Lemma v6_Add a b : v6 (gfP6_Add a b) = v6 a + v6 b. Proof. by rewrite !v6E mk6D /= !v2ops. Qed.
Lemma v6_Negative a : v6 (gfP6_Negative a) = - v6 a. Proof. by rewrite !v6E mk6N /= !v2ops. Qed.
Lemma v6_Sub a b : v6 (gfP6_Sub a b) = v6 a - v6 b. Proof. by rewrite !v6E mk6N mk6D /= !v2ops. Qed.
Lemma v6_Double a : v6 (gfP6_Double a) = v6 a + v6 a. Proof. by rewrite !v6E mk6D /= !v2ops. Qed.
Lemma v6_Mul a b : v6 (gfP6_Mul a b) = v6 a * v6 b.
Proof. rewrite !v6E mk6M /gfP6_Mul /= !v2ops. by congr mk6; mcfr K2. Qed.
Lemma v6_Square a : v6 (gfP6_Square a) = v6 a * v6 a.
Proof. rewrite !v6E mk6M /gfP6_Square /= !v2ops. by congr mk6; mcfr K2. Qed.
Lemma v6_MulTau a : v6 (gfP6_MulTau a) = tau6 * v6 a.
Proof. rewrite tau6E !v6E mk6M /gfP6_MulTau /= !v2ops. by congr mk6; mcfr K2. Qed.
Lemma v6_MulScalar a k : v6 (gfP6_MulScalar a k) = v6 a * mk6 0 0 (v2 k).
Proof. rewrite !v6E mk6M /= !v2ops. by congr mk6; mcfr K2. Qed.
Lemma v6_MulGFP a k : v6 (gfP6_MulGFP a k) = v6 a * mk6 0 0 (mk2 0 (ph k)).
Proof. rewrite !v6E mk6M /= !v2_MulScalar. by congr mk6; mcfr K2. Qed.
Lemma v6_Minimal a : v6 (gfP6_Minimal a) = v6 a. Proof. by rewrite !v6E /= !v2_Minimal. Qed.
Lemma nm6_mk x y z : nm6 (mk6 x y z) = cnrm xi2 x y z. Proof. by []. Qed.
Lemma nm6_neq0 (x : K6) : x != 0 -> nm6 x != 0.
Proof. exact (@u_norm_neq0 b6 x). Qed.
Lemma v6_inj0 a : v6 a = 0 <-> [/\ v2 (c6x a) = 0, v2 (c6y a) = 0 & v2 (c6z a) = 0].
Proof. rewrite v6E -mk6_0. split; [exact: mk6_inj|by move=> [-> -> ->]]. Qed.
Lemma cnrm_F (a : gfP6) : let x := v2 (c6x a) in let y := v2 (c6y a) in let z := v2 (c6z a) in
  xi2 * ((y * y - x * z) * y) + (z * z - xi2 * (x * y)) * z + xi2 * ((xi2 * (x * x) - y * z) * x) = cnrm xi2 x y z.
Proof. rewrite /cnrm /=. by mcfr K2. Qed.
Lemma v6_Invert a : v6 (gfP6_Invert a) = (v6 a)^-1.
Proof.
have [a0|a0] := eqVneq (v6 a) 0.
  rewrite a0 invr0. move/v6_inj0: a0 => [x0 y0 z0].
  by rewrite v6E /gfP6_Invert /= !(v2ops, v2_Invert) x0 y0 z0 !(mulr0, mul0r, subr0) mk6_0.
apply: (mulIf a0). rewrite mulVf //. have n0 := nm6_neq0 a0. move: n0. rewrite v6E nm6_mk => n0.
rewrite v6E mk6M /gfP6_Invert /= !(v2ops, v2_Invert). rewrite cnrm_F.
have := cubic_inv n0 (erefl _). rewrite -mk6_1 => -[E2 E1 E0].
move: E2 E1 E0; rewrite /cC /cB /cA => E2 E1 E0.
congr mk6; [rewrite -E2|rewrite -E1|rewrite -E0]; by mcf K2; apply/eqP.
Qed.
Definition v6ops := (v6_Mul, v6_Square, v6_Add, v6_Sub, v6_Double, v6_Negative, v6_MulTau, v6_Zero, v6_One).

(** ** gfP12 *)
Lemma v12_Zero : v12 gfP12_Zero = 0. Proof. by rewrite v12E /= v6_Zero mk12_0. Qed.
Lemma v12_One : v12 gfP12_One = 1. Proof. by rewrite v12E /= v6_Zero v6_One mk12_1. Qed.
Lemma v12_Add a b : v12 (gfP12_Add a b) = v12 a + v12 b. Proof. by rewrite !v12E mk12D /= !v6ops. Qed.
Lemma v12_Sub a b : v12 (gfP12_Sub a b) = v12 a - v12 b. Proof. by rewrite !v12E mk12N mk12D /= !v6ops. Qed.
Lemma v12_Negative a : v12 (gfP12_Negative a) = - v12 a. Proof. by rewrite !v12E mk12N /= !v6ops. Qed.
Lemma v12_Mul a b : v12 (gfP12_Mul a b) = v12 a * v12 b.
Proof. rewrite !v12E mk12M /gfP12_Mul /= !v6ops. by congr mk12; mcfr K6. Qed.
Lemma v12_Square a : v12 (gfP12_Square a) = v12 a * v12 a.
Proof. rewrite !v12E mk12M /gfP12_Square /= !v6ops. by congr mk12; mcfr K6. Qed.
Lemma v12_MulScalar e a k : v12 (gfP12_MulScalar e a k) = v12 e * mk12 0 (v6 k).
Proof. rewrite !v12E mk12M /= !v6ops. by congr mk12; mcfr K6. Qed.
Lemma v12_Minimal a : v12 (gfP12_Minimal a) = v12 a. Proof. by rewrite !v12E /= !v6_Minimal. Qed.
Definition nm12 (x : K12) : K6 := q_norm x.
Lemma nm12_neq0 (x : K12) : x != 0 -> nm12 x != 0.
Proof. exact (@q_norm_neq0 b12 x). Qed.
Lemma nm12_mk x y : nm12 (mk12 x y) = y * y - tau6 * (x * x).
Proof. rewrite -[LHS]/(y ^+ 2 - tau6 * x ^+ 2). by mcfr K6. Qed.
Lemma v12_Invert a : v12 (gfP12_Invert a) = (v12 a)^-1.
Proof.
have [a0|a0] := eqVneq (v12 a) 0.
  have [x0 y0] : v6 (c12x a) = 0 /\ v6 (c12y a) = 0. by move: a0; rewrite v12E -mk12_0 => /mk12_inj.
  rewrite a0 invr0 v12E /gfP12_Invert /= !(v6ops, v6_Invert) x0 y0 !(mul0r, mulr0, oppr0). exact: mk12_0.
apply: (mulIf a0). rewrite mulVf //. have n0 := nm12_neq0 a0. move: n0. rewrite v12E nm12_mk => n0.
rewrite v12E mk12M /gfP12_Invert /= !(v6ops, v6_Invert) -mk12_1.
by congr mk12; mcf K6; apply/eqP.
Qed.
Lemma v12_inj a b : v12 a = v12 b <-> v6 (c12x a) = v6 (c12x b) /\ v6 (c12y a) = v6 (c12y b).
Proof. rewrite !v12E. split; [exact: mk12_inj|by move=> [-> ->]]. Qed.
Lemma v6_inj a b : v6 a = v6 b <-> [/\ v2 (c6x a) = v2 (c6x b), v2 (c6y a) = v2 (c6y b) & v2 (c6z a) = v2 (c6z b)].
Proof. rewrite !v6E. split; [exact: mk6_inj|by move=> [-> -> ->]]. Qed.
