(** * Negative scalars in G2: twistPoint.Negative with the receiver as its operand *)
From Coq Require Import ZArith Znumtheory Lia Bool List.
From mathcomp Require Import all_ssreflect all_algebra.
From Verif Require Import Base BaseFacts Fp ZMod SpecCurve ZField MCRing EC ECGroup PtGroup Jac FieldExt BB BN256 BNTower BNField SpecBN BNG1 BNGroup BNG2 BNGroup2 BNLaws.
Set Implicit Arguments.
Unset Strict Implicit.
Unset Printing Implicit Defensive.
Import GRing.Theory.
Delimit Scope Z_scope with Z.
Local Open Scope ring_scope.
Local Opaque bn_P bnOrder v2 ptmul.

Lemma ptmul_0 (F : fieldType) (q : pt F) : ptmul 0 q = Inf.
Proof. Local Transparent ptmul. by []. Local Opaque ptmul. Qed.
Lemma g2v_NegSelf a x y : g2v a = Aff x y -> g2v (tp_NegativeSelf a) = Aff x 0.
Proof.
rewrite !g2vE /jpt [tpx _]/= [tpy _]/= [tpz _]/= v2_Sub !v2_Zero subr0. case: eqP => // _ [<- _]. by rewrite mul0r.
Qed.
Lemma g2_smul_neg a k x y : g2_ok a -> (k < 0)%Z -> ptmul (- k) (g2v a) = Aff x y ->
  g2v (G2ScalarMult a k) = Aff x 0.
Proof.
move=> ok k0 E. have H : (0 <=? k)%Z = false by apply/Z.leb_gt.
rewrite /G2ScalarMult H. apply: (@g2v_NegSelf _ x y).
have A : (0 <= Z.abs k)%Z by lia. rewrite (proj2 (g2_mul_ok A ok)).
by have -> : Z.abs k = (- k)%Z by lia.
Qed.
Lemma on_y0 x y : on_curve g2_b (Aff x y : pt K2) -> on_curve g2_b (Aff x 0 : pt K2) -> y = 0.
Proof. rewrite /= => /eqP A /eqP B. move: A. rewrite -B expr0n /= => /eqP. by rewrite expf_eq0 /= => /eqP. Qed.
Lemma dbl_odd k : ((k + k) mod bnOrder = 0)%Z -> (k mod bnOrder = 0)%Z.
Proof.
have p := bnN_prime. have p2 := prime_ge_2 _ p. move=> H.
have D : (bnOrder | 2 * k)%Z by apply/Z.mod_divide; [lia|rewrite -Z.add_diag].
case: (prime_mult _ p _ _ D) => E; last by apply/Z.mod_divide; [lia|].
exfalso. have := Z.divide_pos_le _ _ Z.lt_0_2 E.
Local Transparent bnOrder.
rewrite /bnOrder. lia.
Local Opaque bnOrder.
Qed.
Lemma opp_mod0 k : ((- k) mod bnOrder = 0)%Z -> (k mod bnOrder = 0)%Z.
Proof.
have p2 := prime_ge_2 _ bnN_prime.
move=> /Z.mod_divide H. apply/Z.mod_divide; first by lia. apply/Z.divide_opp_r. apply: H. lia.
Qed.
(** a multiple of the generator that is not infinity is not a point of order 2 *)
Lemma g2_mul_y k x y : (k mod bnOrder <> 0)%Z -> ptmul k g2_gen = Aff x y -> y <> 0.
Proof.
move=> kn E y0. apply: kn. apply: dbl_odd. have H : ptmul (k + k) g2_gen = ptmul 0 g2_gen.
  rewrite (@ptmulD c2 _ _ _ g2_gen_on) E y0 ptmul_0 /= eqxx. by rewrite oppr0 eqxx.
have := proj1 (proj2 g2_scalars (k + k)%Z 0%Z) H. by rewrite Zmod_0_l.
Qed.
Lemma g2_mul_fin k : (k mod bnOrder <> 0)%Z -> exists x y, ptmul k g2_gen = Aff x y /\ y <> 0.
Proof.
move=> kn. case E : (ptmul k g2_gen) => [|x y]; last by exists x, y; split=> //; exact: (g2_mul_y kn E).
exfalso. apply: kn. have H : ptmul k g2_gen = ptmul 0 g2_gen by rewrite E ptmul_0.
have := proj1 (proj2 g2_scalars k 0%Z) H. by rewrite Zmod_0_l.
Qed.
Lemma g2_base_neg k : (k < 0)%Z -> (k mod bnOrder <> 0)%Z ->
  ~ on_curve g2_b (g2v (G2ScalarBaseMult k)) /\ g2v (G2ScalarBaseMult k) <> ptmul k g2_gen.
Proof.
move=> k0 kn. have kn' : ((- k) mod bnOrder <> 0)%Z by move=> /opp_mod0.
have [x [y [E y0]]] := g2_mul_fin kn'.
have o : on_curve g2_b (ptmul (- k) g2_gen) by exact: (@ptmul_on c2 _ _ g2_gen_on).
have V : g2v (G2ScalarBaseMult k) = Aff x 0 by exact: (g2_smul_neg g2_gen_ok k0 E).
have N : ~ on_curve g2_b (g2v (G2ScalarBaseMult k)).
  rewrite V => o0. apply: y0. rewrite E in o. exact: (on_y0 o o0).
split=> // H. apply: N. rewrite H. exact: (@ptmul_on c2 _ _ g2_gen_on).
Qed.
Lemma g2_neg_self a x y : g2_ok a -> g2v a = Aff x y -> y <> 0 ->
  g2v (G2NegSelf a) = Aff x 0 /\ ~ on_curve g2_b (g2v (G2NegSelf a)) /\ g2v (G2Neg a) = Aff x (- y).
Proof.
move=> ok E y0. have V := g2v_NegSelf E. split; first exact: V. split.
  rewrite V => o0. apply: y0. have [o _] := ok. rewrite E in o. exact: (on_y0 o o0).
by rewrite (proj2 (g2_neg_ok ok)) E.
Qed.
Lemma g2_base_neg_refuted : exists k, g2v (G2ScalarBaseMult k) <> ptmul k g2_gen /\ ~ g2_ok (G2ScalarBaseMult k).
Proof.
exists (-1)%Z. have H : ((-1) mod bnOrder <> 0)%Z.
Local Transparent bnOrder.
  by vm_compute.
Local Opaque bnOrder.
have [A B] := g2_base_neg (Pos2Z.neg_is_neg 1) H. split; first exact: B. by move=> [].
Qed.
(** the sum of k g and "-k g" *)
Local Opaque gfP2_Mul gfP2_Square gfP2_Add gfP2_Sub.
Lemma g2_neg_sum e k : (0 < k)%Z -> (k mod bnOrder <> 0)%Z ->
  g2v (G2Add e (G2ScalarBaseMult k) (G2ScalarBaseMult (- k))) = Inf.
Proof.
move=> k0 kn. have [x [y [E y0]]] := g2_mul_fin kn.
have [ok V] := g2_base_ok (Z.lt_le_incl _ _ k0). rewrite E in V.
have -> : G2ScalarBaseMult (- k) = tp_NegativeSelf (G2ScalarBaseMult k).
  rewrite /G2ScalarBaseMult. have -> : (0 <=? - k)%Z = false by apply/Z.leb_gt; lia.
  have -> : (0 <=? k)%Z = true by apply/Z.leb_le; lia. by have -> : Z.abs (- k) = k by lia.
move: ok V. set a := G2ScalarBaseMult k => [[_ za]] V.
have zb : tok (tpz (tp_NegativeSelf a)) by exact: za.
have Vb := g2v_NegSelf V.
have z1 : v2 (tpz a) != 0 by move: V; rewrite g2vE /jpt; case: (eqVneq (v2 (tpz a)) 0).
have ya : v2 (tpy a) != 0.
  move: V. rewrite g2vE /jpt (negbTE z1) => [[_ Ey]]. apply/eqP => H. apply: y0. by rewrite -Ey H mul0r.
rewrite /G2Add /tp_Add /tp_Add_with !isinf_g2 // V Vb. cbv zeta.
rewrite [tpz (tp_NegativeSelf a)]/= [tpx (tp_NegativeSelf a)]/= [tpy (tp_NegativeSelf a)]/=.
rewrite !tok_eq; try exact: Mul_sub_tok. rewrite !v2ops ?v2_Zero ?subrr !mul0r sub0r eqxx oppr_eq0 /=.
rewrite mulf_eq0 (negbTE ya) mulf_eq0 (negbTE z1) mulf_eq0 (negbTE z1) /=.
rewrite g2vE /= !v2ops !subrr !mulr0 jpt0. by [].
Qed.
