(** * G2: the Jacobian formulas of twist.go compute the group law of the twist *)
From Coq Require Import ZArith Znumtheory Lia Bool.
From mathcomp Require Import all_ssreflect all_algebra.
From Verif Require Import Base BaseFacts Fp ZMod SpecCurve ZField MCRing EC ECGroup PtGroup Jac FieldExt BB BN256 BNTower BNField ZExp BNFrob SpecBN BNG1.
Set Implicit Arguments.
Unset Strict Implicit.
Unset Printing Implicit Defensive.
Import GRing.Theory.
Delimit Scope Z_scope with Z.
Local Open Scope ring_scope.
Local Arguments Z.mul : simpl never.
Local Arguments Z.add : simpl never.
Local Arguments Z.sub : simpl never.
Local Arguments Z.modulo : simpl never.
Local Opaque bn_P ModInverse mk2 mk6 mk12.
Add Field K2G : (mc_field K2).

Lemma e2_eq0 x : e2 x = 0 -> x = 0. Proof. rewrite /e2 -mk2_0. by move/mk2_inj => []. Qed.
Lemma k2_2 : (2%:R : K2) != 0. Proof. rewrite -e2n. apply/eqP => /e2_eq0 /eqP. exact/negP/k1_2. Qed.
Lemma k2_3 : (3%:R : K2) != 0. Proof. rewrite -e2n. apply/eqP => /e2_eq0 /eqP. exact/negP/k1_3. Qed.
Lemma v2_eq0 a : v2 a = 0 <-> ((c2x a mod bn_P = 0)%Z /\ (c2y a mod bn_P = 0)%Z).
Proof.
rewrite v2E -mk2_0. split; last by move=> [/ph_eq0 -> /ph_eq0 ->].
by move/mk2_inj => [/ph_eq0 A /ph_eq0 B].
Qed.
Lemma v2_xi : v2 (GfP2 1 9) = xi2. Proof. by []. Qed.
Lemma xi_neq0 : xi2 != 0.
Proof. apply/eqP. rewrite -v2_xi => /v2_eq0 [] /=. by vm_compute. Qed.
Lemma v2_3 : v2 (GfP2 0 3) = 3%:R.
Proof. by rewrite -e2n -ph3E /e2 v2E /= ph0. Qed.
Lemma twistB_check : eq2b (gfP2_Mul twistB (GfP2 1 9)) (GfP2 0 3) = true. Proof. by vm_compute. Qed.
Lemma twistB_ok : v2 twistB = g2_b.
Proof.
have E : v2 (GfP2 0 3) = v2 twistB * xi2 by rewrite -v2_xi -v2_Mul; apply: esym; exact: eq2b_ok twistB_check.
by rewrite /g2_b v2_xi E mulfK // xi_neq0.
Qed.
Lemma g2b_neq0 : g2_b != 0.
Proof. rewrite /g2_b v2_xi v2_3 mulf_neq0 ?k2_3 //. by rewrite invr_eq0 xi_neq0. Qed.
Definition c2 : fcurve := @FCurve K2 g2_b k2_2 k2_3 g2b_neq0.

Lemma g2vE c : g2v c = jpt (v2 (tpx c)) (v2 (tpy c)) (v2 (tpz c)). Proof. by []. Qed.
Definition tok0 (z : gfP2) : Prop := v2 z = 0 -> z = GfP2 0 0.
Definition tok (z : gfP2) : Prop := (0 <= c2y z)%Z /\ tok0 z.
Lemma tok_eq z : tok0 z -> gfP2_IsZero z = (v2 z == 0).
Proof.
move=> T. apply/idP/idP.
  case: z T => x y T. rewrite /gfP2_IsZero /= => /andP [/Z.eqb_eq -> /Z.eqb_eq ->].
  by apply/eqP; apply/v2_eq0; rewrite Zmod_0_l.
by move/eqP/T => ->.
Qed.
Lemma tok_zz z : zz (c2x z) -> zz (c2y z) -> tok0 z.
Proof. case: z => x y /= A B /v2_eq0 /= [/A -> /B ->]. by []. Qed.
Lemma tok_zok z : zok (c2x z) -> zok (c2y z) -> tok z.
Proof. move=> [_ A] [B C]. split=> //. exact: tok_zz. Qed.
Lemma isinf_g2 c : tok (tpz c) -> tp_IsInfinity c = (g2v c == Inf).
Proof. move=> [_ H]. rewrite /tp_IsInfinity (tok_eq H) g2vE /jpt. by case: eqP. Qed.

(** reduced results *)
Lemma Mul_tok a b : tok (gfP2_Mul a b). Proof. apply: tok_zok; exact: bmod_zok. Qed.
Lemma Mul_dbl_tok a b : tok (gfP2_Add (gfP2_Mul a b) (gfP2_Mul a b)).
Proof. apply: tok_zok; exact: dbl_zok. Qed.
Lemma sub_zz u v : zz (bmod u bn_P - bmod v bn_P)%Z.
Proof. apply: small_zz. rewrite /bmod. have A := mod_range u. have B := mod_range v. lia. Qed.
Lemma Mul_sub_tok a b c d : tok0 (gfP2_Sub (gfP2_Mul a b) (gfP2_Mul c d)).
Proof. apply: tok_zz; exact: sub_zz. Qed.
Local Opaque gfP2_Mul gfP2_Square gfP2_Add gfP2_Sub.

(** ** doubling *)
Lemma tDouble_xy a : (v2 (tp_Double_xy a).1 = jdX (v2 (tpx a)) (v2 (tpy a))) *
  (v2 (tp_Double_xy a).2 = jdY (v2 (tpx a)) (v2 (tpy a))).
Proof. by rewrite /tp_Double_xy /= !v2ops. Qed.
Lemma g2v_Double c a : g2v (tp_Double c a) = pt_add (g2v a) (g2v a).
Proof.
rewrite !g2vE (jdbl k2_2) /tp_Double. case E : (tp_Double_xy a) => [cx cy] /=.
have [] := tDouble_xy a. rewrite E /= => -> ->. by rewrite !v2ops.
Qed.
Lemma tok_Double c a : tok (tpz (tp_Double c a)).
Proof. rewrite /tp_Double. case: (tp_Double_xy a) => cx cy /=. exact: Mul_dbl_tok. Qed.
Lemma tok_DoubleSelf a : tok (tpz (tp_DoubleSelf a)).
Proof. rewrite /tp_DoubleSelf. case: (tp_Double_xy a) => cx cy /=. exact: Mul_dbl_tok. Qed.

(** ** addition *)
Lemma g2v_Add_with dbl c a b : tok (tpz a) -> tok (tpz b) ->
  on_curve g2_b (g2v a) -> on_curve g2_b (g2v b) ->
  (g2v a = g2v b -> g2v a <> Inf -> g2v dbl = pt_add (g2v a) (g2v b)) ->
  g2v (tp_Add_with dbl c a b) = pt_add (g2v a) (g2v b).
Proof.
move=> za zb oa ob D. rewrite /tp_Add_with !isinf_g2 //.
case: eqP => [->|/eqP Ia] //. case: eqP => [->|/eqP Ib]; first by case: (g2v a).
have z1 : v2 (tpz a) != 0 by move: Ia; rewrite g2vE /jpt; case: (eqVneq (v2 (tpz a)) 0).
have z2 : v2 (tpz b) != 0 by move: Ib; rewrite g2vE /jpt; case: (eqVneq (v2 (tpz b)) 0).
cbv zeta. rewrite !tok_eq; try exact: Mul_sub_tok. rewrite !v2ops.
set hb := (_ == 0). set tb := (_ == 0).
have Eh : hb = (jH (v2 (tpx a)) (v2 (tpz a)) (v2 (tpx b)) (v2 (tpz b)) == 0) by [].
have Et : tb = (jS2 (v2 (tpz a)) (v2 (tpy b)) - jS1 (v2 (tpy a)) (v2 (tpz b)) == 0) by [].
case: ifP => B.
  apply: D; last by move/eqP: Ia. move/andP: B => [Bh Bt]. rewrite !g2vE /jpt (negbTE z1) (negbTE z2).
  congr Aff; apply/eqP; first by rewrite (jU_eq _ _ z1 z2) -Eh.
  by rewrite (jS_eq _ _ z1 z2) eq_sym -subr_eq0 -Et.
rewrite !g2vE (jadd k2_2 z1 z2 oa ob); last by rewrite -Eh -Et B.
rewrite /=. by rewrite !v2ops.
Qed.
Lemma tok_Add_with dbl c a b : tok (tpz a) -> tok (tpz b) -> tok (tpz dbl) -> tok (tpz (tp_Add_with dbl c a b)).
Proof.
move=> za zb zd. rewrite /tp_Add_with. case: ifP => // _. case: ifP => // _. cbv zeta. case: ifP => // _.
exact: Mul_tok.
Qed.
Lemma g2v_Add c a b : tok (tpz a) -> tok (tpz b) -> on_curve g2_b (g2v a) -> on_curve g2_b (g2v b) ->
  g2v (tp_Add c a b) = pt_add (g2v a) (g2v b).
Proof. move=> za zb oa ob. apply: g2v_Add_with => // E _. by rewrite g2v_Double -E. Qed.
Lemma g2v_AddTo a b : tok (tpz a) -> tok (tpz b) -> on_curve g2_b (g2v a) -> on_curve g2_b (g2v b) ->
  g2v a <> g2v b -> g2v (tp_AddTo a b) = pt_add (g2v a) (g2v b).
Proof. move=> za zb oa ob N. by apply: g2v_Add_with. Qed.
Lemma g2on_add p q : on_curve g2_b p -> on_curve g2_b q -> on_curve g2_b (pt_add p q).
Proof. exact: (@pt_add_on c2). Qed.

(** ** scalar multiplication *)
Lemma g2v_inf c : g2v (tp_SetInfinity c) = Inf.
Proof. by rewrite g2vE /= v2_Zero jpt0. Qed.
Lemma g2v_Mul a k : (0 <= k)%Z -> tok (tpz a) -> on_curve g2_b (g2v a) ->
  g2v (tp_Mul a k) = ptmul k (g2v a) /\ tok (tpz (tp_Mul a k)).
Proof.
move=> k0 za oa. rewrite /tp_Mul.
set st := fun _ _ => _.
pose I (s : twistPoint * twistPoint) (e : Z) := g2v s.1 = ptmul e (g2v a) /\ tok (tpz s.1).
have H := @bit_loop_inv _ I st k.
have [] := H _ (Z.to_nat (BitLen k + 1)) (tp_SetInfinity newTwistPoint, newTwistPoint) 0%Z; last by rewrite BitLen1_pow // Z.mul_0_l Z.add_0_l => ->.
- move=> [s t] e i i0 [E zs]. rewrite /= in E zs.
  have os : on_curve g2_b (g2v s) by rewrite E; exact: (@ptmul_on c2).
  have Ed : g2v (tp_Double t s) = ptmul (2 * e)%Z (g2v a).
    by rewrite g2v_Double E -(@ptmulD c2) // Z.add_diag.
  have zd := @tok_Double t s.
  have od : on_curve g2_b (g2v (tp_Double t s)) by rewrite Ed; exact: (@ptmul_on c2).
  rewrite /st /I /Bit. case: Z.testbit => /=; last by rewrite Z.add_0_r.
  split; first by rewrite g2v_Add // Ed (@ptmulD c2) // (@ptmul1 c2).
  by apply: tok_Add_with => //; exact: tok_Double.
- split; [by rewrite g2v_inf|by []].
Qed.

Lemma g2_add_ok c a b : g2_ok a -> g2_ok b ->
  g2_ok (tp_Add c a b) /\ g2v (tp_Add c a b) = pt_add (g2v a) (g2v b).
Proof.
move=> [oa za] [ob zb]. have E := g2v_Add c za zb oa ob. split=> //. split.
  rewrite E. exact: g2on_add.
apply: tok_Add_with => //. exact: tok_Double.
Qed.
Lemma g2_addto_ok a b : g2_ok a -> g2_ok b -> g2v a <> g2v b ->
  g2_ok (tp_AddTo a b) /\ g2v (tp_AddTo a b) = pt_add (g2v a) (g2v b).
Proof.
move=> [oa za] [ob zb] N. have E := g2v_AddTo za zb oa ob N. split=> //. split.
  rewrite E. exact: g2on_add.
apply: tok_Add_with => //. exact: tok_DoubleSelf.
Qed.
Lemma g2_neg_ok a : g2_ok a -> g2_ok (tp_Negative a) /\ g2v (tp_Negative a) = pt_neg (g2v a).
Proof.
move=> [oa za]. have E : g2v (tp_Negative a) = pt_neg (g2v a).
  by rewrite !g2vE /= v2_Sub v2_Zero sub0r jptN.
split=> //. split; first by rewrite E; exact: oc_neg. exact: za.
Qed.
Lemma g2_inf_ok c : g2_ok (tp_SetInfinity c) /\ g2v (tp_SetInfinity c) = Inf.
Proof. have E := g2v_inf c. split=> //. split; [by rewrite E|by []]. Qed.
Lemma g2_mul_ok a k : (0 <= k)%Z -> g2_ok a -> g2_ok (tp_Mul a k) /\ g2v (tp_Mul a k) = ptmul k (g2v a).
Proof.
move=> k0 [oa za]. have [E Z0] := g2v_Mul k0 za oa. split=> //. split=> //.
rewrite E. exact: (@ptmul_on c2).
Qed.
Lemma g2_smul_ok a k : g2_ok a -> (0 <= k)%Z ->
  g2_ok (G2ScalarMult a k) /\ g2v (G2ScalarMult a k) = ptmul k (g2v a).
Proof.
move=> ok H. rewrite /G2ScalarMult (proj2 (Z.leb_le 0 k) H). exact: g2_mul_ok.
Qed.
Lemma twist_on_check : eq2b (gfP2_Square (tpy twistGen))
  (gfP2_Add (gfP2_Mul (gfP2_Mul (tpx twistGen) (tpx twistGen)) (tpx twistGen)) twistB) = true.
Proof. by vm_compute. Qed.
Lemma g2_genE : g2_gen = Aff (v2 (tpx twistGen)) (v2 (tpy twistGen)).
Proof. by rewrite /g2_gen g2vE (_ : v2 (tpz twistGen) = 1) ?jpt1 //; exact: v2_One. Qed.
Lemma g2_gen_ok : g2_ok twistGen.
Proof.
split; last by split=> //; move/v2_eq0 => [] /=; rewrite Z.mod_small //; have := bnP_gt3; lia.
rewrite -/g2_gen g2_genE /=. have := eq2b_ok twist_on_check.
rewrite v2_Square v2_Add !v2_Mul twistB_ok => E. apply/eqP.
by rewrite !exprS !expr0 !mulr1 E mulrA.
Qed.
Lemma g2_base_ok k : (0 <= k)%Z ->
  g2_ok (G2ScalarBaseMult k) /\ g2v (G2ScalarBaseMult k) = ptmul k g2_gen.
Proof. exact: (g2_smul_ok g2_gen_ok). Qed.
