(** * Exponentiation and the final exponentiation *)
From Coq Require Import ZArith Znumtheory Lia Bool.
From mathcomp Require Import all_ssreflect all_algebra.
From Verif Require Import Base BaseFacts Fp ZField MCRing FieldExt CertXi BB BN256 BNTower BNField ZExp BNFrob.
Set Implicit Arguments.
Unset Strict Implicit.
Unset Printing Implicit Defensive.
Import GRing.Theory.
Delimit Scope Z_scope with Z.
Local Open Scope ring_scope.
Local Arguments Z.mul : simpl never.
Local Arguments Z.add : simpl never.
Local Arguments Z.sub : simpl never.
Local Arguments Z.pow : simpl never.
Local Opaque bn_P bn_u bnOrder ModInverse mk2 mk6 mk12 gfP12_Invert gfP12_Mul gfP12_Square gfP12_FrobeniusP2 gfP12_Frobenius
  gfP12_Exp gfP12_Conjugate.

(** ** square and multiply *)
Definition two_len (k : Z) : Z := (2 ^ Z.of_nat (Z.to_nat (BitLen k)))%Z.
Lemma two_len_pos k : (0 < two_len k)%Z. Proof. rewrite /two_len. apply: Z.pow_pos_nonneg; lia. Qed.

Section EXP.
Variables (A : Type) (K : fieldType) (val : A -> K) (one : A) (sq : A -> A) (mul : A -> A -> A).
Hypotheses (Hone : val one = 1) (Hsq : forall a, val (sq a) = val a * val a)
  (Hmul : forall a b, val (mul a b) = val a * val b).
Lemma exp_loop a k n :
  val (bit_loop (fun sum i => let t := sq sum in if Bit k i then mul t a else t) n one)
  = val a ^+ Z.to_nat (k mod 2 ^ Z.of_nat n)%Z.
Proof.
set st := fun _ _ => _.
have H := @bit_loop_inv A (fun s e => (0 <= e)%Z /\ val s = val a ^+ Z.to_nat e) st k.
have [] := H _ n one 0%Z; last by move=> _ ->.
- move=> s e i i0 [e0 E]. rewrite /st /Bit. split; first by case: Z.testbit => /=; lia.
  have E2 : val (sq s) = val a ^+ Z.to_nat (2 * e)%Z.
    rewrite Hsq E -exprD. congr (_ ^+ _). rewrite -plusE. lia.
  case: Z.testbit => /=; last by rewrite Z.add_0_r.
  rewrite Hmul E2 -exprSr. congr (_ ^+ _). lia.
- split; [lia|by rewrite expr0].
Qed.
End EXP.

Lemma v12_Exp_mod a k : v12 (gfP12_Exp a k) = v12 a ^+ Z.to_nat (k mod two_len k)%Z.
Proof. exact: (exp_loop v12_One v12_Square v12_Mul). Qed.
Lemma v12_Exp a k : (0 <= k)%Z -> v12 (gfP12_Exp a k) = v12 a ^+ Z.to_nat k.
Proof. move=> k0. by rewrite v12_Exp_mod /two_len BitLen_pow. Qed.
Lemma v2_Exp_mod a k : v2 (gfP2_Exp a k) = v2 a ^+ Z.to_nat (k mod two_len k)%Z.
Proof. exact: (exp_loop v2_One v2_Square v2_Mul). Qed.
Lemma v2_Exp a k : (0 <= k)%Z -> v2 (gfP2_Exp a k) = v2 a ^+ Z.to_nat k.
Proof. move=> k0. by rewrite v2_Exp_mod /two_len BitLen_pow. Qed.

(** ** powers of a fixed element *)
Lemma zx_frob (x : K12) e : zx x e ^+ pn = zx x (e * bn_P)%Z.
Proof. by rewrite -(zx_nat (zx x e)) pnZ zxM. Qed.
Section POW.
Variable g : K12.
Hypothesis g0 : g != 0.
Definition pw (a : gfP12) (e : Z) : Prop := v12 a = zx g e.
Lemma pw_Mul a b e f : pw a e -> pw b f -> pw (gfP12_Mul a b) (e + f)%Z.
Proof. rewrite /pw v12_Mul => -> ->. by rewrite (zxD _ _ g0). Qed.
Lemma pw_Square a e : pw a e -> pw (gfP12_Square a) (2 * e)%Z.
Proof. rewrite /pw v12_Square => ->. by rewrite -(zxD _ _ g0) Z.add_diag. Qed.
Lemma pw_Frobenius a e : pw a e -> pw (gfP12_Frobenius a) (e * bn_P)%Z.
Proof. rewrite /pw v12_Frobenius => ->. exact: zx_frob. Qed.
Lemma pw_FrobeniusP2 a e : pw a e -> pw (gfP12_FrobeniusP2 a) (e * bn_P * bn_P)%Z.
Proof. rewrite /pw v12_FrobeniusP2 => ->. by rewrite !zx_frob. Qed.
Lemma pw_Exp a e k : (0 <= k)%Z -> pw a e -> pw (gfP12_Exp a k) (e * k)%Z.
Proof. rewrite /pw => k0 E. by rewrite v12_Exp // E zxM (zx_pos _ k0). Qed.
End POW.

Lemma fr2_zx (x : K12) e : fr2 (zx x e) = zx x (e * (bn_P * bn_P))%Z.
Proof. by rewrite /fr2 !zx_frob Z.mul_assoc. Qed.
Definition q6 : Z := (bn_P * bn_P * (bn_P * bn_P) * (bn_P * bn_P))%Z.
Lemma fr2_3 (x : K12) e : fr2 (fr2 (fr2 (zx x e))) = zx x (e * q6)%Z.
Proof. rewrite !fr2_zx /q6. congr (zx _ _). ring. Qed.
(** every non-zero element satisfies x^(p^12 - 1) = 1 *)
Lemma zx_p12 (x : K12) : x != 0 -> zx x (q6 * q6 - 1)%Z = 1.
Proof.
move=> x0. have E : zx x (q6 * q6)%Z = x.
  have H := etrans (congr1 (fun z => fr2 (fr2 (fr2 z))) (fr2_3 x 1)) (fr2_3 x (1 * q6)).
  have {H} H := etrans (esym H) (fr2_12 (zx x 1)). rewrite zx1 Z.mul_1_l in H. exact: H.
rewrite -Z.add_opp_r (zxD _ _ x0) E (zxN x 1) zx1. exact: mulfV.
Qed.
Lemma v12_Conjugate_zx (g : K12) a e : g != 0 -> zx g (q6 + 1)%Z = 1 -> pw g a e -> pw g (gfP12_Conjugate a) (- e)%Z.
Proof.
rewrite /pw => g0 G E. rewrite v12_Conjugate E fr2_3.
have -> : (e * q6 = (q6 + 1) * e + - e)%Z by ring.
by rewrite (zxD _ _ g0) (zxM g (q6 + 1) e) G zx_one mul1r.
Qed.

(** ** the final exponentiation *)
Definition easy_exp : Z := ((q6 - 1) * (bn_P * bn_P + 1))%Z.
Definition final_exp : Z := ((bn_P ^ 12 - 1) / bnOrder)%Z.
Section HARD.
Local Open Scope Z_scope.
(** the exponent of the second part, as the program builds it *)
Definition hard_exp (p u : Z) : Z :=
  let fp := p in let fp2 := p * p in let fp3 := p * p * p in
  let fu := u in let fu2 := u * u in let fu3 := u * u * u in
  let y3 := - (fu * p) in let y2 := fu2 * p * p in let y0 := fp + fp2 + fp3 in
  let y1 := -1 in let y5 := - fu2 in
  let y4 := - (fu + fu2 * p) in let y6 := - (fu3 + fu3 * p) in
  let t0 := 2 * y6 + y4 + y5 in
  let t1 := y3 + y5 + t0 in
  let t0 := t0 + y2 in
  let t1 := 2 * t1 + t0 in
  let t1 := 2 * t1 in
  let t0 := t1 + y1 in
  let t1 := t1 + y0 in
  2 * t0 + t1.
End HARD.
Lemma final_exp_ok : (easy_exp * hard_exp bn_P bn_u = final_exp)%Z.
Proof. by vm_compute. Qed.
Lemma final_exp_exact : (final_exp * bnOrder = q6 * q6 - 1)%Z.
Proof. by vm_compute. Qed.
Lemma final_exp_pos : (0 < final_exp)%Z. Proof. by vm_compute. Qed.
Lemma bn_u_pos : (0 < bn_u)%Z. Proof. by vm_compute. Qed.
Local Opaque final_exp q6 easy_exp.

Lemma easy_one (x : K12) : x != 0 -> zx (zx x easy_exp) (q6 + 1)%Z = 1.
Proof.
move=> x0. rewrite -zxM. have -> : (easy_exp * (q6 + 1) = (q6 * q6 - 1) * (bn_P * bn_P + 1))%Z.
  Transparent easy_exp. rewrite /easy_exp. ring.
by rewrite zxM zx_p12 // zx_one.
Qed.

Lemma FE_zx i : v12 i != 0 -> v12 (finalExponentiation i) = zx (v12 i) final_exp.
Proof.
move=> i0. rewrite /finalExponentiation.
set t1 := GfP12 _ _.
have P1 : pw (v12 i) t1 q6.
  have -> : t1 = gfP12_Conjugate i by [].
  by rewrite /pw v12_Conjugate -{1}(zx1 (v12 i)) fr2_3 Z.mul_1_l.
have P2 : pw (v12 i) (gfP12_Invert i) (-1)%Z by rewrite /pw v12_Invert (zxN _ 1) zx1.
have P3 := pw_Mul i0 P1 P2.
set t2 := gfP12_Mul t1 _ in P3 *.
have P4 := pw_Mul i0 P3 (pw_FrobeniusP2 P3).
set t3 := gfP12_Mul t2 _ in P4 *.
have E : v12 t3 = zx (v12 i) easy_exp.
  apply: (etrans P4). apply: congr1. rewrite /easy_exp. ring.
have g0 : zx (v12 i) easy_exp != 0 by apply: zx_neq0.
have G := easy_one i0.
have T : pw (zx (v12 i) easy_exp) t3 1 := etrans E (esym (zx1 _)).
rewrite -final_exp_ok zxM.
move: g0 G T. move: (zx (v12 i) easy_exp) => g g0 G T.
have u0 := Z.lt_le_incl _ _ bn_u_pos.
have M a b e f := @pw_Mul g g0 a b e f.
have S a e := @pw_Square g g0 a e.
have C a e := @v12_Conjugate_zx g a e g0 G.
have Ffp := pw_Frobenius T.
have Ffp2 := pw_FrobeniusP2 T.
have Ffp3 := pw_Frobenius Ffp2.
have Ffu := pw_Exp u0 T.
have Ffu2 := pw_Exp u0 Ffu.
have Ffu3 := pw_Exp u0 Ffu2.
have Fy3 := C _ _ (pw_Frobenius Ffu).
have Fy2 := pw_FrobeniusP2 Ffu2.
have Fy0 := M _ _ _ _ (M _ _ _ _ Ffp Ffp2) Ffp3.
have Fy1 := C _ _ T.
have Fy5 := C _ _ Ffu2.
have Fy4 := C _ _ (M _ _ _ _ Ffu (pw_Frobenius Ffu2)).
have Fy6 := C _ _ (M _ _ _ _ Ffu3 (pw_Frobenius Ffu3)).
have Ft0 := M _ _ _ _ (M _ _ _ _ (S _ _ Fy6) Fy4) Fy5.
have Ft1 := M _ _ _ _ (M _ _ _ _ Fy3 Fy5) Ft0.
have Ft0' := M _ _ _ _ Ft0 Fy2.
have Ft1' := S _ _ (M _ _ _ _ (S _ _ Ft1) Ft0').
have Ft0'' := S _ _ (M _ _ _ _ Ft1' Fy1).
have Ft1'' := M _ _ _ _ Ft1' Fy0.
have R := M _ _ _ _ Ft0'' Ft1''.
rewrite /pw in R. apply: (etrans R). apply: congr1. rewrite /hard_exp. ring.
Qed.

Lemma FE_zero i : v12 i = 0 -> v12 (finalExponentiation i) = 0.
Proof.
move=> i0. rewrite /finalExponentiation. set t1 := GfP12 _ _.
set t2 := gfP12_Mul t1 (gfP12_Invert i). set t3 := gfP12_Mul t2 (gfP12_FrobeniusP2 t2).
have Z0 : (0 : K12) ^+ pn = 0 by rewrite pn6 exprS mul0r.
have E : v12 (gfP12_Conjugate t3) = 0.
  by rewrite v12_Conjugate /t3 v12_Mul /t2 v12_Mul v12_Invert i0 invr0 mulr0 mul0r /fr2 !Z0.
rewrite v12_Mul v12_Square.
set A := gfP12_Square _. rewrite (v12_Mul A (gfP12_Conjugate t3)) E. by rewrite mulr0 !mul0r.
Qed.
Lemma zero_pow (K : fieldType) e : (0 < e)%Z -> (0 : K) ^+ Z.to_nat e = 0.
Proof. move=> e0. rewrite (_ : Z.to_nat e = (Z.to_nat (e - 1)).+1); first by rewrite exprS mul0r. lia. Qed.
Lemma FE_exp i : v12 (finalExponentiation i) = v12 i ^+ Z.to_nat final_exp.
Proof.
case: (eqVneq (v12 i) 0) => [E|N].
  rewrite (FE_zero E) E. apply: esym. exact: (zero_pow K12 final_exp_pos).
rewrite (FE_zx N). exact: (zx_pos _ (Z.lt_le_incl _ _ final_exp_pos)).
Qed.
Lemma bnOrder_pos : (0 < bnOrder)%Z. Proof. by vm_compute. Qed.
Lemma FE_order i : v12 i != 0 -> v12 (finalExponentiation i) ^+ Z.to_nat bnOrder = 1.
Proof.
move=> i0. rewrite (FE_zx i0) -(zx_pos _ (Z.lt_le_incl _ _ bnOrder_pos)).
rewrite -zxM final_exp_exact. exact: zx_p12.
Qed.
Lemma FE_mul i j : v12 (finalExponentiation (gfP12_Mul i j)) = v12 (finalExponentiation i) * v12 (finalExponentiation j).
Proof.
have G : exists n, forall k, v12 (finalExponentiation k) = v12 k ^+ n by exists (Z.to_nat final_exp) => k; exact: FE_exp.
move: G => [n G]. rewrite (G (gfP12_Mul i j)) (G i) (G j) v12_Mul. exact: exprMn.
Qed.
