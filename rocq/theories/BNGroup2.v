(** * The generator g of G2 has order Order

    Let psi be the p-power Frobenius carried over to the twist.  With
    lam = 6u^2, Order = lam^2 + (6u+3) lam + 6u + 1.  The certificate shows
    psi(g) = [lam] g and psi([lam + 6u + 3] g) = - [6u + 1] g, whence
    [Order] g = O. *)
From Coq Require Import ZArith Znumtheory Lia Bool List.
From mathcomp Require Import all_ssreflect all_algebra.
From Verif Require Import Base ZMod MCRing EC PtGroup BB BN256 PrimesBN BNTower BNField BNFrob SpecBN BNG1 BNG2 BNOrder2 CertBN2 SpecPair PtMap.
Set Implicit Arguments.
Unset Strict Implicit.
Unset Printing Implicit Defensive.
Import GRing.Theory.
Delimit Scope Z_scope with Z.
Local Open Scope ring_scope.

Definition gxx := c2x (tpx twistGen). Definition gxy := c2y (tpx twistGen).
Definition gyx := c2x (tpy twistGen). Definition gyy := c2y (tpy twistGen).
Definition hxx := c2x (gfP2_Mul (gfP2_Conjugate (tpx twistGen)) xiToPMinus1Over3).
Definition hxy := c2y (gfP2_Mul (gfP2_Conjugate (tpx twistGen)) xiToPMinus1Over3).
Definition hyx := c2x (gfP2_Mul (gfP2_Conjugate (tpy twistGen)) xiToPMinus1Over2).
Definition hyy := c2y (gfP2_Mul (gfP2_Conjugate (tpy twistGen)) xiToPMinus1Over2).
Lemma bn2_chain_ok : crun2 bn_P gxx gxy gyx gyy bn2_chain (Cst 1 gxx gxy gyx gyy) = Some gw.
Proof. by vm_compute. Qed.
Lemma bn2_a_ok : crun2 bn_P gxx gxy gyx gyy bn2_a gw = Some ga. Proof. by vm_compute. Qed.
Lemma bn2_b_ok : crun2 bn_P gxx gxy gyx gyy bn2_b ga = Some gb. Proof. by vm_compute. Qed.
Lemma bn3_chain_ok : crun2 bn_P (cxx gw) (cxy gw) (cyx gw) (cyy gw) bn3_chain (Cst 1 (cxx gw) (cxy gw) (cyx gw) (cyy gw))
  = Some (Cst bn_u hxx hxy hyx hyy).
Proof. by vm_compute. Qed.
Lemma bn2_s_ok : bn2_s (caddg bn_P hxx hxy gb 0 hyx hyy) = Some gs. Proof. by vm_compute. Qed.
Lemma ck_ok : (ck gw = 6 * bn_u /\ ck ga = 6 * bn_u + 1 /\ ck gb = 6 * bn_u + 3)%Z. Proof. by vm_compute. Qed.
Lemma order_lam : (bnOrder = (6 * bn_u * bn_u) * (6 * bn_u * bn_u + (6 * bn_u + 3)) + (6 * bn_u + 1))%Z. Proof. by vm_compute. Qed.
Lemma six_u2 : ((6 * bn_u * bn_u) mod bnOrder = bn_P mod bnOrder)%Z. Proof. by vm_compute. Qed.
(** psi of the last point *)
Lemma gs_psi : gfP2_Minimal (gfP2_Mul (gfP2_Conjugate (GfP2 (cxx gs) (cxy gs))) xiToPMinus1Over3) = GfP2 (cxx ga) (cxy ga) /\
  gfP2_Minimal (gfP2_Mul (gfP2_Conjugate (GfP2 (cyx gs) (cyy gs))) xiToPMinus1Over2) =
  gfP2_Minimal (gfP2_Negative (GfP2 (cyx ga) (cyy ga))).
Proof. by vm_compute. Qed.
Lemma w_range : (0 <= cxx gw < bn_P)%Z /\ (0 <= cxy gw < bn_P)%Z. Proof. by vm_compute. Qed.
Lemma h_range : (0 <= hxx < bn_P)%Z /\ (0 <= hxy < bn_P)%Z. Proof. by vm_compute. Qed.
Lemma g_range : (0 <= gxx < bn_P)%Z /\ (0 <= gxy < bn_P)%Z.
Proof. by vm_compute. Qed.
Local Opaque bn_P bnOrder mk2 mk6 mk12 bn_u gw ga gb gs hxx hxy hyx hyy.
Lemma g2_genw : g2_gen = Aff (w gxx gxy) (w gyx gyy).
Proof. rewrite g2_genE. by []. Qed.
Lemma g2_gen_on : on_curve g2_b g2_gen. Proof. exact: (proj1 g2_gen_ok). Qed.
(** the twisted Frobenius on the twist *)
Definition tfr (q : pt K2) : pt K2 := pt_map (fun x => x ^+ pn) (v2 xiToPMinus1Over6) q.
Lemma frD2 (x y : K2) : (x + y) ^+ pn = x ^+ pn + y ^+ pn. Proof. exact: (frobD char2). Qed.
Lemma frM2 (x y : K2) : (x * y) ^+ pn = x ^+ pn * y ^+ pn. Proof. exact: exprMn. Qed.
Lemma fr1_2 : (1 : K2) ^+ pn = 1. Proof. exact: expr1n. Qed.
Lemma s6_neq0 : v2 xiToPMinus1Over6 != 0. Proof. by rewrite xi_c1 expf_neq0 // xi_neq0. Qed.
Lemma tfr_mul k q : tfr (ptmul k q) = ptmul k (tfr q).
Proof. exact: (pm_mul frD2 frM2 fr1_2 s6_neq0 k2_2). Qed.
Lemma tfr_neg q : tfr (pt_neg q) = pt_neg (tfr q).
Proof. exact: (pm_neg _ frD2). Qed.
Lemma tfrE x y : tfr (Aff x y) = Aff (x ^+ pn * v2 xiToPMinus1Over3) (y ^+ pn * v2 xiToPMinus1Over2).
Proof. by rewrite /tfr /= xi_c1 xi_c2 xi_c3 -!exprM ![(xn * _)%N]mulnC. Qed.
Lemma wv a b : w a b = v2 (GfP2 a b). Proof. by rewrite v2E. Qed.
Lemma tfr_gen_w : tfr g2_gen = Aff (w hxx hxy) (w hyx hyy).
Proof. rewrite g2_genE tfrE -!v2_Conjugate -!v2_Mul. by []. Qed.
Lemma gmul_w : ptmul (6 * bn_u) g2_gen = Aff (w (cxx gw) (cxy gw)) (w (cyx gw) (cyy gw)).
Proof.
have H := @crun2_ok gxx gxy gyx gyy. rewrite -g2_genw in H.
have V : cval gxx gxy gyx gyy (Cst 1 gxx gxy gyx gyy) by [].
have R := H g2_gen_on g_range _ _ _ V bn2_chain_ok. unfold cval in R. rewrite -g2_genw in R.
have [E _] := ck_ok. rewrite E in R. exact: R.
Qed.
Lemma gmul_ab : ptmul (6 * bn_u + 1) g2_gen = Aff (w (cxx ga) (cxy ga)) (w (cyx ga) (cyy ga)) /\
  ptmul (6 * bn_u + 3) g2_gen = Aff (w (cxx gb) (cxy gb)) (w (cyx gb) (cyy gb)).
Proof.
have H := @crun2_ok gxx gxy gyx gyy. rewrite -g2_genw in H.
have [E [Ea Eb]] := ck_ok.
have V : cval gxx gxy gyx gyy gw by unfold cval; rewrite -g2_genw E; exact: gmul_w.
have Va := H g2_gen_on g_range _ _ _ V bn2_a_ok. have Vb := H g2_gen_on g_range _ _ _ Va bn2_b_ok.
unfold cval in Va, Vb. rewrite -g2_genw Ea in Va. rewrite -g2_genw Eb in Vb. split; [exact: Va|exact: Vb].
Qed.
Lemma gw_on : on_curve g2_b (Aff (w (cxx gw) (cxy gw)) (w (cyx gw) (cyy gw))).
Proof. rewrite -gmul_w. exact: (@ptmul_on c2 _ _ g2_gen_on). Qed.
Lemma tfr_lam : tfr g2_gen = ptmul (6 * bn_u * bn_u) g2_gen.
Proof.
rewrite Z.mul_comm (@ptmulA c2) ?g2_gen_on // gmul_w tfr_gen_w.
have V : cval (cxx gw) (cxy gw) (cyx gw) (cyy gw) (Cst 1 (cxx gw) (cxy gw) (cyx gw) (cyy gw)) by [].
have R := crun2_ok gw_on w_range V bn3_chain_ok. unfold cval in R. symmetry. exact: R.
Qed.
Lemma gs_val : ptmul (6 * bn_u * bn_u + (6 * bn_u + 3)) g2_gen = Aff (w (cxx gs) (cxy gs)) (w (cyx gs) (cyy gs)).
Proof.
rewrite Z.add_comm (@ptmulD c2) ?g2_gen_on // -tfr_lam (proj2 gmul_ab) tfr_gen_w.
exact: (proj1 (cpadd_ok h_range bn2_s_ok)).
Qed.
Lemma gs_tfr : tfr (Aff (w (cxx gs) (cxy gs)) (w (cyx gs) (cyy gs))) = pt_neg (ptmul (6 * bn_u + 1) g2_gen).
Proof.
rewrite (proj1 gmul_ab) tfrE !wv -!v2_Conjugate -!v2_Mul -v2_Minimal (proj1 gs_psi).
rewrite -[v2 (gfP2_Mul _ xiToPMinus1Over2)]v2_Minimal (proj2 gs_psi) v2_Minimal v2_Negative. reflexivity.
Qed.
Lemma g2_gen_order : ptmul bnOrder g2_gen = Inf.
Proof.
have o := g2_gen_on.
rewrite order_lam (@ptmulD c2) // Z.mul_comm (@ptmulA c2) // -tfr_lam -tfr_mul gs_val gs_tfr.
have := @ptmul_on c2 (6 * bn_u + 1) _ o. set q := ptmul _ _ => oq.
by rewrite -[q]/(fpv (@FPoint c2 q oq)) -(fpv_opp (FPoint oq)) -fpv_add addNr.
Qed.
Lemma bnN_prime : Znumtheory.prime bnOrder. Proof. exact: bn_r_prime. Qed.

Lemma ptmul_modr (c : fcurve) (p : pt (fcF c)) k : on_curve (fcb c) p -> ptmul bnOrder p = Inf ->
  ptmul (k mod bnOrder) p = ptmul k p.
Proof.
move=> o pN. rewrite [in RHS](Z_div_mod_eq_full k bnOrder) Z.mul_comm (@ptmulD c) // (@ptmulA c) // pN.
have -> : ptmul (k / bnOrder) (Inf : pt (fcF c)) = Inf.
  have := fpv_mul (k / bnOrder) (0 : fpoint c). by rewrite smulr0 => <-.
by [].
Qed.
Lemma ptmul_inj (c : fcurve) (p : pt (fcF c)) k l : on_curve (fcb c) p -> p <> Inf -> ptmul bnOrder p = Inf ->
  (ptmul k p = ptmul l p <-> (k mod bnOrder = l mod bnOrder)%Z).
Proof.
move=> o p0 pN. split=> H; last by rewrite -(ptmul_modr k o pN) H ptmul_modr.
have E := fun k => fpv_mul k (FPoint o). rewrite /= in E.
have x0 : FPoint o <> 0 by move=> /(congr1 (@fpv c)) /=.
have xN : smul bnOrder (FPoint o) = 0 by apply: fpv_inj; rewrite E pN.
apply: (smul_inj bnN_prime xN x0). apply: fpv_inj. by rewrite !E.
Qed.
Lemma g2_gen_neq0 : g2_gen <> Inf. Proof. by rewrite g2_genw. Qed.
Lemma tfr_gen : tfr g2_gen = ptmul bn_P g2_gen.
Proof.
have o := g2_gen_on.
rewrite -(@ptmul_modr c2 _ bn_P o g2_gen_order) -six_u2 (@ptmul_modr c2 _ _ o g2_gen_order). exact: tfr_lam.
Qed.
