(** * The line functions of optate.go compute the lines of the Miller loop *)
From Coq Require Import ZArith Znumtheory Lia Bool List Ring_theory Field_theory.
From mathcomp Require Import all_ssreflect all_algebra.
From Verif Require Import Base BaseFacts Fp ZMod SpecCurve ZField MCRing EC ECGroup PtGroup Jac FieldExt BB BN256 BNTower BNField ZExp BNFrob SpecBN BNG1 BNG2 SpecPair PtMap.
Set Implicit Arguments.
Unset Strict Implicit.
Unset Printing Implicit Defensive.
Import GRing.Theory.
Delimit Scope Z_scope with Z.
Local Open Scope ring_scope.
Local Opaque bn_P mk2 mk6 mk12.
Add Field K2L : (mc_field K2).
Add Field K12L : (mc_field K12).

(** ** embeddings *)
Lemma i12D x y : in12_2 (x + y) = in12_2 x + in12_2 y. Proof. by rewrite /in12_2 e6D e12D. Qed.
Lemma i12M x y : in12_2 (x * y) = in12_2 x * in12_2 y. Proof. by rewrite /in12_2 e6M e12M. Qed.
Lemma i12_1 : in12_2 1 = 1. Proof. by rewrite /in12_2 e6_1 e12_1. Qed.
Lemma om_neq0 : om12 != 0.
Proof. apply/eqP => /eqP. by rewrite /om12 -mk12_0 => /eqP /mk12_inj [/eqP]; rewrite oner_eq0. Qed.
Lemma k12_2 : (2%:R : K12) != 0.
Proof.
rewrite -(fmn i12D i12_1) (fm_eq0 i12D i12M i12_1). exact: k2_2.
Qed.
Lemma untwistE q : untwist q = pt_map in12_2 om12 q. Proof. by case: q. Qed.
Lemma in12E x : in12 x = in12_2 (e2 x). Proof. by []. Qed.

(** the value of a line: c + (b + a tau) omega *)
Definition lv (l : line) : K12 := in12_2 (v2 (ln_c l)) + in12_2 (v2 (ln_b l)) * om12 + in12_2 (v2 (ln_a l)) * om12 ^+ 3.
Lemma om3 : om12 ^+ 3 = e12 tau6 * om12. Proof. by rewrite exprSr om_2. Qed.
Lemma lv_mk l : lv l = mk12 (mk6 0 (v2 (ln_a l)) (v2 (ln_b l))) (mk6 0 0 (v2 (ln_c l))).
Proof.
rewrite mk12_dec mk6_dec /lv om3 /in12_2 e6_0 mul0r add0r e12D e12M -[mk6 0 0 _]/(e6 _).
mcfr K12.
Qed.
Lemma lv_neq0 l : v2 (ln_c l) != 0 -> lv l != 0.
Proof.
move=> c0. apply/eqP. rewrite lv_mk -mk12_0 => /mk12_inj [_]. rewrite -mk6_0 => /mk6_inj [_ _ E].
by rewrite E eqxx in c0.
Qed.
Lemma v12_mulLine r l : v12 (mulLine r l) = v12 r * lv l.
Proof.
rewrite lv_mk !v12E mk12M /mulLine /=. rewrite !(v6_Sub, v6_Add, v6_Mul, v6_MulTau, v6_MulScalar).
rewrite ![v6 (GfP6 _ _ _)]v6E /= v2_Zero v2_Add.
have -> : mk6 0 (v2 (ln_a l)) (v2 (ln_b l) + v2 (ln_c l)) = mk6 0 (v2 (ln_a l)) (v2 (ln_b l)) + mk6 0 0 (v2 (ln_c l)).
  by rewrite mk6D !addr0.
congr mk12; mcfr K6.
Qed.
Lemma v2_Scal a k : v2 (gfP2_MulScalar a k) = v2 a * e2 (ph k). Proof. exact: v2_MulScalar. Qed.

Lemma lv_scale k l m xp yp : in12_2 k * (in12_2 yp - in12_2 l * in12_2 xp * om12 + in12_2 m * om12 ^+ 3) =
  in12_2 (k * yp) + in12_2 (- (k * l * xp)) * om12 + in12_2 (k * m) * om12 ^+ 3.
Proof.
rewrite (fmN i12D) !i12M. move: (in12_2 k) (in12_2 l) (in12_2 m) (in12_2 xp) (in12_2 yp) (om12 ^+ 3) => a b c d e f. mcfr K12.
Qed.

Lemma e2_neq0 (k : K1) : k != 0 -> e2 k != 0.
Proof. move=> k0. apply/eqP. rewrite -e2_0 => /mk2_inj [_ E]. by rewrite E eqxx in k0. Qed.

(** ** doubling *)
Section Lines.
Variables (r : twistPoint) (q : curvePoint).
Local Notation X := (v2 (tpx r)).
Local Notation Y := (v2 (tpy r)).
Local Notation Z := (v2 (tpz r)).
Hypothesis T : v2 (tpt r) = Z * Z.
Hypothesis z0 : Z != 0.
Local Notation x := (X / Z ^+ 2).
Local Notation y := (Y / Z ^+ 3).
Local Notation xP := (in12 (ph (cpx q))).
Local Notation yP := (in12 (ph (cpy q))).
Lemma g2v_r : g2v r = Aff x y. Proof. by rewrite g2vE /jpt (negbTE z0). Qed.
Lemma h2K : (1 + 1 : K2) != 0. Proof. exact: k2_2. Qed.

Lemma line_dbl_pt : let r' := snd (lineFunctionDouble r q) in
  g2v r' = pt_add (g2v r) (g2v r) /\ v2 (tpt r') = v2 (tpz r') * v2 (tpz r').
Proof.
rewrite /=. split; last by rewrite !v2ops.
rewrite [g2v r]g2vE (jdbl k2_2) g2vE /= !v2ops T. congr jpt.
- rewrite /jdX. mcfr K2.
- rewrite /jdY /jdX. mcfr K2.
- rewrite /jdZ. mcfr K2.
Qed.
Lemma line_dbl_val : Y != 0 ->
  exists k, k != 0 /\ lv (fst (lineFunctionDouble r q)) = in12_2 k * line_at (untwist (g2v r)) (untwist (g2v r)) (Aff xP yP).
Proof.
move=> y0. have h2 := h2K.
have yy0 : y != 0 by rewrite mulf_neq0 // invr_neq0 // expf_neq0.
exists (2%:R * (Y * Z + Y * Z) * (Z * Z)). split.
  by rewrite [Y * Z + _]addxx !mulf_neq0 // k2_2.
rewrite g2v_r untwistE (pm_line_t i12D i12M i12_1 om_neq0 k12_2) //; last first.
  apply/eqP => H. have E : 2%:R * y = 0 by rewrite -addxx {1}H addNr.
  move/eqP: E. by rewrite mulf_eq0 (negbTE k2_2) (negbTE yy0).
rewrite /lv /= !in12E. rewrite !(v2_Scal, v2ops) T.
set l := _ / _.
have lE : l = (X * X + X * X + X * X) / ((Y + Y) * Z).
  rewrite /l F3 F2 !exprS !expr0 !mulr1. mcf K2; repeat split; apply/eqP; rewrite ?addxx ?mulf_neq0 //.
rewrite lv_scale F2 lE. congr (_ + _ * _ + _ * _); congr in12_2.
- mcfr K2.
- mcf K2; repeat split; apply/eqP; rewrite ?addxx ?mulf_neq0 //.
- rewrite !exprS !expr0 !mulr1. mcf K2; repeat split; apply/eqP; rewrite ?addxx ?mulf_neq0 //.
Qed.
Lemma line_dbl_neq0 : Y != 0 -> ph (cpy q) != 0 -> lv (fst (lineFunctionDouble r q)) != 0.
Proof.
move=> y0 q0. apply: lv_neq0. rewrite /= !(v2_Scal, v2ops) T.
have -> : forall a : K2, (((Y + Z) * (Y + Z) - Y * Y - Z * Z) * (Z * Z) + ((Y + Z) * (Y + Z) - Y * Y - Z * Z) * (Z * Z)) * a
    = (1 + 1) * ((1 + 1) * (Y * Z * (Z * Z))) * a by move=> a; mcfr K2.
rewrite !mulf_neq0 //; try exact: h2K. exact: e2_neq0.
Qed.

(** ** addition of an affine point *)
Variables (p : twistPoint) (r2 : gfP2).
Hypothesis R2 : v2 r2 = v2 (tpy p) * v2 (tpy p).
Local Notation px := (v2 (tpx p)).
Local Notation py := (v2 (tpy p)).
Lemma line_add_pt : on_curve g2_b (g2v r) -> on_curve g2_b (Aff px py) -> px != x ->
  let r' := snd (lineFunctionAdd r p q r2) in
  g2v r' = pt_add (g2v r) (Aff px py) /\ v2 (tpt r') = v2 (tpz r') * v2 (tpz r').
Proof.
move=> o1 o2 N. rewrite /=. split; last by rewrite !v2ops.
have h2 := h2K. have zz := expf_neq0 2 z0.
have h0 : px * (Z * Z) - X != 0.
  apply/eqP => H. move/eqP: N. apply. apply: (mulIf zz). rewrite divfK // expr2.
  by apply/eqP; rewrite -subr_eq0; apply/eqP.
have d0 : px - x != 0 by rewrite subr_eq0.
rewrite g2v_r /pt_add. have -> : (x == px) = false by apply/negbTE; rewrite eq_sym.
rewrite g2vE /= !v2ops T R2 /jpt.
set A := px * (Z * Z) - X in h0 *.
have EZ : (Z + A) * (Z + A) - Z * Z - A * A = (Z + Z) * A by mcfr K2.
rewrite EZ addxx !mulf_eq0 (negbTE k2_2) (negbTE z0) (negbTE h0) /=.
have lE : (py - y) / (px - x) = (py * (Z * Z * Z) - Y) / (Z * A).
  rewrite /A !exprS !expr0 !mulr1. mcf K2; repeat split; apply/eqP; rewrite ?mulf_neq0 //.
have pE : px = (A + X) / (Z * Z) by rewrite /A subrK mulfK // mulf_neq0.
rewrite lE F2. clearbody A. rewrite {}pE.
congr Aff; rewrite !exprS !expr0 !mulr1; mcf K2; repeat split; apply/eqP; rewrite ?mulf_neq0 //.
Qed.
Lemma line_add_val : px != x ->
  exists k, k != 0 /\ lv (fst (lineFunctionAdd r p q r2)) = in12_2 k * line_at (untwist (g2v r)) (untwist (Aff px py)) (Aff xP yP).
Proof.
move=> N. have h2 := h2K. have zz := expf_neq0 2 z0.
have h0 : px * (Z * Z) - X != 0.
  apply/eqP => H. move/eqP: N. apply. apply: (mulIf zz). rewrite divfK // expr2.
  by apply/eqP; rewrite -subr_eq0; apply/eqP.
have d0 : px - x != 0 by rewrite subr_eq0.
set A := px * (Z * Z) - X in h0 *.
have lE : (py - y) / (px - x) = (py * (Z * Z * Z) - Y) / (Z * A).
  rewrite /A !exprS !expr0 !mulr1. mcf K2; repeat split; apply/eqP; rewrite ?mulf_neq0 //.
exists (2%:R * ((Z + Z) * A)). split; first by rewrite [Z + Z]addxx !mulf_neq0 // k2_2.
rewrite g2v_r !untwistE (pm_line_c i12D i12M i12_1 om_neq0 _ _ _ _) //.
rewrite /lv /= !in12E. rewrite !(v2_Scal, v2ops) T R2. rewrite lv_scale lE F2 -/A. clearbody A.
congr (_ + _ * _ + _ * _); congr in12_2; mcf K2; repeat split; apply/eqP; rewrite ?mulf_neq0 //.
Qed.
Lemma line_add_neq0 : px != x -> ph (cpy q) != 0 -> lv (fst (lineFunctionAdd r p q r2)) != 0.
Proof.
move=> N q0. have zz := expf_neq0 2 z0.
have h0 : px * (Z * Z) - X != 0.
  apply/eqP => H. move/eqP: N. apply. apply: (mulIf zz). rewrite divfK // expr2.
  by apply/eqP; rewrite -subr_eq0; apply/eqP.
apply: lv_neq0. rewrite /= !(v2_Scal, v2ops) T. set A := px * (Z * Z) - X in h0 *.
have -> : forall a : K2, ((Z + A) * (Z + A) - Z * Z - A * A) * a + ((Z + A) * (Z + A) - Z * Z - A * A) * a
    = (1 + 1) * ((1 + 1) * (Z * A)) * a by move=> a; mcfr K2.
rewrite !mulf_neq0 //; try exact: h2K. exact: e2_neq0.
Qed.
End Lines.
