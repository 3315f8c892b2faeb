(** * In-place addition of equal points (e.Add(e, f) with f = e) *)
From Coq Require Import ZArith Znumtheory Lia Bool List Ring_theory Field_theory.
From mathcomp Require Import all_ssreflect all_algebra.
From Verif Require Import Base BaseFacts Fp ZMod SpecCurve ZField MCRing EC ECGroup PtGroup Jac FieldExt BB BN256 BNTower BNField ZExp BNFrob SpecBN BNG1 BNGroup BNG2 BNGroup2 BNEnc.
Set Implicit Arguments.
Unset Strict Implicit.
Unset Printing Implicit Defensive.
Import GRing.Theory.
Delimit Scope Z_scope with Z.
Local Open Scope ring_scope.
Local Arguments Z.mul : simpl never.
Local Arguments Z.add : simpl never.
Local Arguments Z.sub : simpl never.
Local Arguments Z.modulo : simpl never.
Local Arguments Z.pow : simpl never.

Section Self.
Variable F : fieldType.
Hypothesis h2 : (2%:R : F) != 0.
Add Field FF : (mc_field F).
Lemma jself (X Y Z x y x3 y3 : F) : jpt X Y Z = Aff x y -> pt_add (Aff x y) (Aff x y) = Aff x3 y3 ->
  jpt (jdX X Y) (jdY X Y) (jdZ (jdY X Y) Z) = jpt x3 y3 (8%:R * y3 * y ^+ 2 * Z ^+ 9).
Proof.
move=> E. rewrite -E (jdbl h2). move: E. rewrite {1}/jpt. case: eqP => // /eqP z0 [xE yE].
rewrite {1}/jpt. case: eqP => // /eqP d0 [x3E y3E].
have y0 : Y != 0 by apply/eqP => H; move: d0; rewrite /jdZ H mul0r addr0 eqxx.
have c8 : (8%:R : F) = (1 + 1) * (1 + 1) * (1 + 1) by rewrite -[X in X * _ * _]/(2%:R) -[X in _ * X * _]/(2%:R) -[X in _ * X]/(2%:R) -!natrM.
have h2' : (1 + 1 : F) != 0 by [].
have cE : 8%:R * y3 * y ^+ 2 * Z ^+ 9 = jdY X Y / Y.
  rewrite -y3E -yE c8. set J := jdY X Y. rewrite /jdZ !exprS !expr0 !mulr1. mcf F; repeat split; apply/eqP; rewrite ?mulf_neq0 //.
rewrite cE /jpt.
have -> : (jdZ (jdY X Y) Z == 0) = (jdY X Y / Y == 0).
  by rewrite /jdZ addxx !mulf_eq0 invr_eq0 (negbTE h2) (negbTE z0) (negbTE y0) !orbF.
case: eqP => // /eqP j0.
have j1 : jdY X Y != 0 by move: j0; rewrite mulf_eq0 negb_or => /andP [].
move: x3E y3E j1. set J := jdY X Y. set I := jdX X Y => <- <- j1. rewrite /jdZ !exprS !expr0 !mulr1.
congr Aff; mcf F; repeat split; apply/eqP; rewrite ?addxx ?mulf_neq0 //.
Qed.
Lemma jpt_one (x y c : F) : x != 0 -> y != 0 -> jpt x y c = Aff x y <-> c = 1.
Proof.
move=> x0 y0. split=> [|->]; last exact: jpt1.
rewrite /jpt. case: eqP => // /eqP c0 [A B].
have c2 : c ^+ 2 = 1.
  apply: (mulfI x0). by rewrite mulr1 -{1}A divfK // expf_neq0.
have c3 : c ^+ 3 = 1.
  apply: (mulfI y0). by rewrite mulr1 -{1}B divfK // expf_neq0.
by rewrite -c3 exprS c2 mulr1.
Qed.
End Self.

Lemma dbl_y0 (F : fieldType) (x : F) : pt_add (Aff x 0) (Aff x 0) = Inf.
Proof. by rewrite /= eqxx oppr0 eqxx. Qed.
(** a point of order bnOrder has non-zero coordinates *)
Lemma bnN_gt3 : (3 < bnOrder)%Z. Proof. by vm_compute. Qed.
Local Opaque bnOrder bn_P.
Lemma order_coord (c : fcurve) (x y : fcF c) : on_curve (fcb c) (Aff x y) -> ptmul bnOrder (Aff x y) = Inf ->
  x != 0 /\ y != 0.
Proof.
move=> o O. have N : Aff x y <> Inf by [].
have D : ptmul 2 (Aff x y) = pt_add (Aff x y) (Aff x y) by rewrite -[2%Z]/(1 + 1)%Z (@ptmulD c) // ptmul1.
have G := bnN_gt3.
split; apply/eqP => E.
- have A : pt_add (Aff x y) (Aff x y) = pt_neg (Aff x y) \/ y = 0.
    rewrite /= eqxx. case: eqP => H; [right|left].
      apply/eqP. have : (2%:R * y == 0) by rewrite -addxx {1}H addNr. by rewrite mulf_eq0 (negbTE (fc2 c)).
    by rewrite E expr0n /= mulr0 mul0r expr0n /= !subr0 mul0r sub0r.
  case: A => [A|y0].
    have : ptmul 2 (Aff x y) = ptmul (-1) (Aff x y) by rewrite D A -[(-1)%Z]/(- (1))%Z (@ptmulN c) // ptmul1.
    move/(@ptmul_inj c _ _ _ o N O). rewrite (Z.mod_small 2); last lia.
    have -> : ((-1) mod bnOrder = bnOrder - 1)%Z by rewrite -(Z.mod_add (-1) 1) ?Z.mod_small; lia.
    lia.
  have : ptmul 2 (Aff x y) = ptmul 0 (Aff x y).
    rewrite D y0 dbl_y0. reflexivity.
  move/(@ptmul_inj c _ _ _ o N O). rewrite (Z.mod_small 2) ?(Z.mod_small 0); lia.
- have : ptmul 2 (Aff x y) = ptmul 0 (Aff x y).
    rewrite D E dbl_y0. reflexivity.
  move/(@ptmul_inj c _ _ _ o N O). rewrite (Z.mod_small 2) ?(Z.mod_small 0); lia.
Qed.

(** ** G2 *)
Lemma g2v_DoubleSelf a : g2v (tp_DoubleSelf a) = jpt (jdX (v2 (tpx a)) (v2 (tpy a))) (jdY (v2 (tpx a)) (v2 (tpy a)))
  (jdZ (jdY (v2 (tpx a)) (v2 (tpy a))) (v2 (tpz a))).
Proof.
rewrite g2vE /tp_DoubleSelf. case E : (tp_Double_xy a) => [cx cy] /=. have [] := tDouble_xy a. rewrite E /= => Ex Ey.
by rewrite !v2ops Ex Ey.
Qed.
Lemma g2v_AddTo_eq a b : g2_ok a -> g2_ok b -> g2v a = g2v b -> g2v a <> Inf -> tp_AddTo a b = tp_DoubleSelf a.
Proof.
move=> [oa za] [ob zb] E N. rewrite /tp_AddTo /tp_Add_with !isinf_g2 // -E. case: eqP => // _.
have z1 : v2 (tpz a) != 0 by apply/eqP => H; apply: N; rewrite g2vE H jpt0.
have z2 : v2 (tpz b) != 0 by apply/eqP => H; apply: N; rewrite E g2vE H jpt0.
cbv zeta. rewrite !tok_eq; try exact: Mul_sub_tok. rewrite !v2ops.
move: E. rewrite !g2vE /jpt (negbTE z1) (negbTE z2) => /Aff_inj [/eqP A /eqP B].
rewrite (jU_eq _ _ z1 z2) in A. rewrite (jS_eq _ _ z1 z2) eq_sym -subr_eq0 in B.
rewrite /jH /jU1 /jU2 in A. rewrite /jS1 /jS2 in B. by rewrite A B.
Qed.
Lemma g2_alias a b x y x3 y3 : g2_ok a -> g2_ok b -> g2v a = g2v b -> g2v a = Aff x y ->
  pt_add (g2v a) (g2v a) = Aff x3 y3 ->
  g2v (tp_AddTo a b) = jacobian x3 y3 (8%:R * y3 * y ^+ 2 * v2 (tpz a) ^+ 9).
Proof.
move=> oa ob E V D. rewrite (g2v_AddTo_eq oa ob E) ?V // g2v_DoubleSelf.
rewrite V in D. exact: (jself k2_2 V D).
Qed.
Lemma g2_alias_iff a b x y x3 y3 : g2_ok a -> g2_ok b -> g2v a = g2v b -> g2v a = Aff x y ->
  ptmul bnOrder (g2v a) = Inf -> pt_add (g2v a) (g2v a) = Aff x3 y3 ->
  (g2v (tp_AddTo a b) = pt_add (g2v a) (g2v b) <-> 8%:R * y3 * y ^+ 2 * v2 (tpz a) ^+ 9 = 1).
Proof.
move=> oa ob E V O D. rewrite (g2_alias oa ob E V D) -E D.
have o3 : on_curve g2_b (Aff x3 y3) by rewrite -D; apply: g2on_add; case: oa.
have O3 : ptmul bnOrder (Aff x3 y3) = Inf.
  rewrite -D (@ptmulDr c2); try by case: oa. by rewrite O.
have [x0 y0] := @order_coord c2 _ _ o3 O3. exact: jpt_one.
Qed.

(** ** G1 *)
Lemma jv_DoubleSelf a : jv (cp_DoubleSelf a) = jpt (jdX (ph (cpx a)) (ph (cpy a))) (jdY (ph (cpx a)) (ph (cpy a)))
  (jdZ (jdY (ph (cpx a)) (ph (cpy a))) (ph (cpz a))).
Proof.
rewrite /jv /cp_DoubleSelf. case E : (cp_Double_xy a) => [cx cy] /=. have [] := Double_xy_ph a. rewrite E /= => Ex Ey.
by rewrite !phE Ex Ey.
Qed.
Lemma g1_AddTo_eq a b : g1_ok a -> g1_ok b -> g1v a = g1v b -> g1v a <> None -> cp_AddTo a b = cp_DoubleSelf a.
Proof.
move=> /g1_okE [oa za] /g1_okE [ob zb] E N.
have N' : jv a <> Inf by rewrite -em_g1v; move: N; case: (g1v a) => [[? ?]|].
have E' : jv a = jv b by rewrite -!em_g1v E.
rewrite /cp_AddTo /cp_Add_with !isinf_jv // -E'. case: eqP => // _.
have z1 : ph (cpz a) != 0 by apply/eqP => H; apply: N'; rewrite /jv H jpt0.
have z2 : ph (cpz b) != 0 by apply/eqP => H; apply: N'; rewrite E' /jv H jpt0.
cbv zeta. rewrite !sub_eq0 !phE.
move: E'. rewrite /jv /jpt (negbTE z1) (negbTE z2) => /Aff_inj [/eqP A /eqP B].
rewrite (jU_eq _ _ z1 z2) in A. rewrite (jS_eq _ _ z1 z2) eq_sym -subr_eq0 in B.
rewrite /jH /jU1 /jU2 in A. rewrite /jS1 /jS2 in B. by rewrite A B.
Qed.
Lemma phX9 z : ph (z ^ 9)%Z = ph z ^+ 9.
Proof. have -> : (z ^ 9 = z * (z * (z * (z * (z * (z * (z * (z * z))))))))%Z by ring. by rewrite !phM !exprS expr0 mulr1. Qed.
Lemma ph8 : ph 8 = 8%:R. Proof. exact: (zph_nat bnf 8). Qed.
Lemma em_Some q x y : em q = Aff x y -> exists u v, q = Some (u, v) /\ x = ph u /\ y = ph v.
Proof. case: q => [[u v]|] // [<- <-]. by exists u, v. Qed.
Lemma g1_alias a b x y x3 y3 : g1_ok a -> g1_ok b -> g1v a = g1v b -> g1v a = Some (x, y) ->
  zadd bn_P (g1v a) (g1v a) = Some (x3, y3) ->
  jv (cp_AddTo a b) = jpt (ph x3) (ph y3) (ph (8 * y3 * (y * y) * cpz a ^ 9)%Z).
Proof.
move=> oa ob E V D. rewrite (g1_AddTo_eq oa ob E) ?V // jv_DoubleSelf.
have R : zrange (g1v a) := g1v_range a.
have V' : jv a = Aff (ph x) (ph y) by rewrite -em_g1v V.
have D' : pt_add (Aff (ph x) (ph y)) (Aff (ph x) (ph y)) = Aff (ph x3) (ph y3).
  by rewrite -V' -em_g1v -em_add // D.
rewrite (jself k1_2 V' D') (phM _ (cpz a ^ 9)%Z) phX9 !phM ph8. by rewrite expr2.
Qed.
Lemma g1_order_em q : zon bn_P 3 q -> ptmul bnOrder (em q) = Inf.
Proof. move=> o. rewrite -em_mul; last exact: zon_range. by rewrite bn_order. Qed.
Lemma g1_coord x y : zon bn_P 3 (Some (x, y)) -> ph x != 0 /\ ph y != 0.
Proof. move=> o. apply: (@order_coord c1). exact/(em_on (zon_range o)). exact: (g1_order_em o). Qed.
Lemma g1_alias_iff a b x y x3 y3 : g1_ok a -> g1_ok b -> g1v a = g1v b -> g1v a = Some (x, y) ->
  zadd bn_P (g1v a) (g1v a) = Some (x3, y3) ->
  (g1v (cp_AddTo a b) = zadd bn_P (g1v a) (g1v b) <-> (8 * y3 * (y * y) * cpz a ^ 9) mod bn_P = 1)%Z.
Proof.
move=> oa ob E V D. have J := g1_alias oa ob E V D.
have o3 : zon bn_P 3 (Some (x3, y3)).
  rewrite -D. have [oo <-] := g1_add_ok newCurvePoint oa oa. by case: oo.
have [x0 y0] := g1_coord o3.
have -> : (g1v (cp_AddTo a b) = zadd bn_P (g1v a) (g1v b)) <-> jv (cp_AddTo a b) = Aff (ph x3) (ph y3).
  rewrite -em_g1v -E D. split=> [->|] //. apply: (@em_inj _ (Some (x3, y3))); [exact: g1v_range|exact: zon_range].
rewrite J (jpt_one _ x0 y0).
have P1 : (1 mod bn_P = 1)%Z by rewrite Z.mod_small //; have := bnP_gt3; lia.
split=> [H|H]; last by rewrite -phmodZ H ph1.
rewrite -P1. apply/ph_eq. by rewrite H ph1.
Qed.
