(** * Property theorems about memory, aliasing and the scratch pool of bn256

    C40, C53, C63-C66.  The programs are those of BNHeap.v, the vocabulary is
    that of SpecHeap.v. *)
From Coq Require Import ZArith List Lia.
From mathcomp Require Import all_ssreflect all_algebra.
From Verif Require Import Base SpecCurve PtGroup BB BN256 BNTower BNField BNFrob SpecBN BNHeap SpecHeap.
From Verif Require BNHeapTheorems BNHeapMath BNHeapCount BNHeapExamples.
Import GRing.Theory.
Import BNHeapExamples.
Delimit Scope Z_scope with Z.
Local Open Scope ring_scope.

(** ** C40: GF(p^2), in memory: whatever the receiver shares with the operands,
    and whatever is in the pool *)
Theorem C40_gfP2_aliasing :
  computes2 kGF2 h2_Add (fun a b r => v2 r = v2 a + v2 b) /\ computes2 kGF2 h2_Sub (fun a b r => v2 r = v2 a - v2 b) /\
  computes1 kGF2 h2_Double (fun a r => v2 r = v2 a + v2 a) /\ computes1 kGF2 h2_Negative (fun a r => v2 r = - v2 a) /\
  computes2 kGF2 h2_Mul (fun a b r => v2 r = v2 a * v2 b) /\ computes1 kGF2 h2_Square (fun a r => v2 r = v2 a ^+ 2) /\
  computes1x kGF2 kBig h2_MulScalar (fun a k r => v2 r = v2 a * v2 (GfP2 0 k)) /\
  computes1 kGF2 h2_MulXi (fun a r => v2 r = v2 (GfP2 1 9) * v2 a) /\
  computes1 kGF2 h2_Conjugate (fun a r => v2 r = v2 a ^+ Z.to_nat bn_P) /\
  computes0 kGF2 h2_Minimal (fun a r => v2 r = v2 a) /\
  computes1 kGF2 h2_Invert (fun a r => v2 r = (v2 a)^-1) /\
  (forall n, (0 <= n)%Z -> computes1 kGF2 (fun e a => h2_Exp e a n) (fun a r => v2 r = v2 a ^+ Z.to_nat n)).
Proof. exact BNHeapMath.heap_gfP2_math. Qed.
Print Assumptions C40_gfP2_aliasing.

Example C40_gfP2_aliasing_example : good (demo dirty) /\ object kGF2 (demo dirty) (x2 25) /\ same_or_apart kGF2 (x2 25) (x2 25) /\
  val kGF2 (mem (demo dirty)) (x2 25) = GfP2 1 2 /\
  match h2_Mul (x2 25) (x2 25) (x2 25) (demo dirty) with Some (_, s') => val kGF2 (mem s') (x2 25) = GfP2 4 3 | None => False end.
Proof. exact ex_mul. Qed.
(** the integer operand of MulScalar may not be a coordinate of the receiver *)
Theorem C40_MulScalar_overlap_refuted :
  exists s e, good s /\ object kGF2 s e /\
  exists s', h2_MulScalar e e (p2x e) s = Some (tt, s') /\
    val kGF2 (mem s') e <> gfP2_MulScalar (val kGF2 (mem s) e) (mem s (p2x e)).
Proof. exact mulscalar_overlap. Qed.
Print Assumptions C40_MulScalar_overlap_refuted.

(** ** C53: the pool.  Get never hands out a live cell, nor an integer of the
    pool twice; Put of a live cell changes no content *)
Theorem C53_Get :
  forall s, good s ->
  exists l s', hGet s = Some (l, s') /\ ~ live_cell s l /\ live_cell s' l /\ (pool s = None \/ pool s = Some nil -> mem s' l = 0%Z) /\ changes_only nil s s'.
Proof. exact BNHeapTheorems.get_fresh. Qed.
Print Assumptions C53_Get.

Example C53_Get_example : good (demo dirty) /\ in_pool (demo dirty) 80%nat /\ ~ live_cell (demo dirty) 80%nat /\ (mem (demo dirty) 80%nat = 56)%Z /\
  match hGet (demo dirty) with Some (l, s') => l = 80%nat /\ (mem s' l = 56)%Z | None => False end.
Proof. exact ex_get. Qed.
Theorem C53_Put :
  forall s l, good s -> live_cell s l ->
  exists s', hPut l s = Some (tt, s') /\ good s' /\ mem s' = mem s /\
    (forall l', l' <> l -> (live_cell s' l' <-> live_cell s l')) /\ (pool s <> None -> ~ live_cell s' l).
Proof. exact BNHeapTheorems.put_ok. Qed.
Print Assumptions C53_Put.

Example C53_Put_example : good (demo dirty) /\ live_cell (demo dirty) 25%nat.
Proof. exact ex_put. Qed.
(** the field operations, as functions of the contents of the operands *)
Theorem C53_gfP2_model :
  computes1 kGF2 h2_Set (fun a r => r = a) /\ computes0 kGF2 h2_SetZero (fun _ r => r = gfP2_Zero) /\
  computes0 kGF2 h2_SetOne (fun _ r => r = gfP2_One) /\ computes0 kGF2 h2_Minimal (fun a r => r = gfP2_Minimal a) /\
  tests kGF2 h2_IsZero gfP2_IsZero /\ tests kGF2 h2_IsOne gfP2_IsOne /\
  computes1 kGF2 h2_Conjugate (fun a r => r = gfP2_Conjugate a) /\ computes1 kGF2 h2_Negative (fun a r => r = gfP2_Negative a) /\
  computes2 kGF2 h2_Add (fun a b r => r = gfP2_Add a b) /\ computes2 kGF2 h2_Sub (fun a b r => r = gfP2_Sub a b) /\
  computes1 kGF2 h2_Double (fun a r => r = gfP2_Double a) /\ computes2 kGF2 h2_Mul (fun a b r => r = gfP2_Mul a b) /\
  computes1x kGF2 kBig h2_MulScalar (fun a k r => r = gfP2_MulScalar a k) /\
  computes1 kGF2 h2_MulXi (fun a r => r = gfP2_MulXi a) /\ computes1 kGF2 h2_Square (fun a r => r = gfP2_Square a) /\
  computes1 kGF2 h2_Invert (fun a r => r = gfP2_Invert a) /\
  (forall n, computes1 kGF2 (fun e a => h2_Exp e a n) (fun a r => r = gfP2_Exp a n)).
Proof. exact BNHeapTheorems.heap_gfP2. Qed.
Print Assumptions C53_gfP2_model.

Theorem C53_gfP6_model :
  computes1 kGF6 h6_Set (fun a r => r = a) /\ computes0 kGF6 h6_SetZero (fun _ r => r = gfP6_Zero) /\
  computes0 kGF6 h6_SetOne (fun _ r => r = gfP6_One) /\ computes0 kGF6 h6_Minimal (fun a r => r = gfP6_Minimal a) /\
  tests kGF6 h6_IsZero gfP6_IsZero /\ tests kGF6 h6_IsOne gfP6_IsOne /\
  computes1 kGF6 h6_Negative (fun a r => r = gfP6_Negative a) /\
  computes1g kGF6 h6_Frobenius (fun a r => r = gfP6_Frobenius a) /\
  computes1g kGF6 h6_FrobeniusP2 (fun a r => r = gfP6_FrobeniusP2 a) /\
  computes2 kGF6 h6_Add (fun a b r => r = gfP6_Add a b) /\ computes2 kGF6 h6_Sub (fun a b r => r = gfP6_Sub a b) /\
  computes1 kGF6 h6_Double (fun a r => r = gfP6_Double a) /\ computes2 kGF6 h6_Mul (fun a b r => r = gfP6_Mul a b) /\
  computes1x kGF6 kGF2 h6_MulScalar (fun a k r => r = gfP6_MulScalar a k) /\
  computes1x kGF6 kBig h6_MulGFP (fun a k r => r = gfP6_MulGFP a k) /\
  computes1 kGF6 h6_MulTau (fun a r => r = gfP6_MulTau a) /\ computes1 kGF6 h6_Square (fun a r => r = gfP6_Square a) /\
  computes1 kGF6 h6_Invert (fun a r => r = gfP6_Invert a).
Proof. exact BNHeapTheorems.heap_gfP6. Qed.
Print Assumptions C53_gfP6_model.

Theorem C53_gfP12_model :
  computes1 kGF12 h12_Set (fun a r => r = a) /\ computes0 kGF12 h12_SetZero (fun _ r => r = gfP12_Zero) /\
  computes0 kGF12 h12_SetOne (fun _ r => r = gfP12_One) /\ computes0 kGF12 h12_Minimal (fun a r => r = gfP12_Minimal a) /\
  computes1 kGF12 h12_Negative (fun a r => r = gfP12_Negative a) /\
  computes1g kGF12 h12_Frobenius (fun a r => r = gfP12_Frobenius a) /\
  computes1g kGF12 h12_FrobeniusP2 (fun a r => r = gfP12_FrobeniusP2 a) /\
  computes2 kGF12 h12_Add (fun a b r => r = gfP12_Add a b) /\ computes2 kGF12 h12_Sub (fun a b r => r = gfP12_Sub a b) /\
  computes2 kGF12 h12_Mul (fun a b r => r = gfP12_Mul a b) /\
  computes1 kGF12 h12_Square (fun a r => r = gfP12_Square a) /\ computes1 kGF12 h12_Invert (fun a r => r = gfP12_Invert a) /\
  (forall n, computes1 kGF12 (fun e a => h12_Exp e a n) (fun a r => r = gfP12_Exp a n)).
Proof. exact BNHeapTheorems.heap_gfP12. Qed.
Print Assumptions C53_gfP12_model.

(** two runs with different pools *)
Theorem C53_pool_independent :
  (pool_independent2 kGF2 h2_Mul /\ pool_independent1 kGF2 h2_MulXi /\ pool_independent1 kGF2 h2_Square /\
   pool_independent1 kGF2 h2_Invert /\ forall n, pool_independent1 kGF2 (fun e a => h2_Exp e a n)) /\
  (pool_independent2 kGF6 h6_Mul /\ pool_independent1 kGF6 h6_MulTau /\ pool_independent1 kGF6 h6_Square /\
   pool_independent1 kGF6 h6_Invert) /\
  (pool_independent2 kGF12 h12_Mul /\ pool_independent1 kGF12 h12_Square /\ pool_independent1 kGF12 h12_Invert /\
   forall n, pool_independent1 kGF12 (fun e a => h12_Exp e a n)).
Proof. exact BNHeapMath.heap_independent. Qed.
Print Assumptions C53_pool_independent.

Example C53_pool_independent_example : good (demo dirty) /\ good (demo None) /\ object kGF12 (demo dirty) (x12 49) /\ object kGF12 (demo None) (x12 49) /\
  val kGF12 (mem (demo dirty)) (x12 49) = val kGF12 (mem (demo None)) (x12 49) /\ pool (demo dirty) <> pool (demo None).
Proof. exact ex_two. Qed.
(** Mul of curve.go and twist.go does not initialise its two scratch points; the
    result is still a representation of the right point, whatever they hold *)
Theorem C53_curve_Mul :
  forall n, (0 <= n)%Z ->
  computes1 kCurve (fun e a => hc_Mul e a n) (fun a r => g1_ok a -> g1_ok r /\ g1v r = zmul bn_P n (g1v a)).
Proof. exact BNHeapMath.heap_cMul_math. Qed.
Print Assumptions C53_curve_Mul.

Theorem C53_twist_Mul :
  forall n, (0 <= n)%Z ->
  computes1 kTwist (fun e a => ht_Mul e a n) (fun a r => g2_ok a -> g2_ok r /\ g2v r = ptmul n (g2v a)).
Proof. exact BNHeapMath.heap_tMul_math. Qed.
Print Assumptions C53_twist_Mul.

Example C53_Mul_example : good (demo dirty) /\ object kCurve (demo dirty) (xc 25) /\ object kCurve (demo dirty) gl_curveGen /\
  object kTwist (demo dirty) (xt 25) /\ object kTwist (demo dirty) gl_twistGen /\
  same_or_apart kCurve (xc 25) gl_curveGen /\ same_or_apart kTwist (xt 25) gl_twistGen /\
  val kCurve (mem (demo dirty)) gl_curveGen = curveGen /\ val kTwist (mem (demo dirty)) gl_twistGen = twistGen.
Proof. exact ex_scalar. Qed.
(** ** C63: GF(p^6) and GF(p^12) in memory *)
Theorem C63_gfP6_aliasing :
  computes2 kGF6 h6_Add (fun a b r => v6 r = v6 a + v6 b) /\ computes2 kGF6 h6_Sub (fun a b r => v6 r = v6 a - v6 b) /\
  computes1 kGF6 h6_Double (fun a r => v6 r = v6 a + v6 a) /\ computes1 kGF6 h6_Negative (fun a r => v6 r = - v6 a) /\
  computes2 kGF6 h6_Mul (fun a b r => v6 r = v6 a * v6 b) /\ computes1 kGF6 h6_Square (fun a r => v6 r = v6 a ^+ 2) /\
  computes1x kGF6 kGF2 h6_MulScalar (fun a k r => v6 r = v6 a * e6 (v2 k)) /\
  computes1x kGF6 kBig h6_MulGFP (fun a k r => v6 r = v6 a * e6 (v2 (GfP2 0 k))) /\
  computes1 kGF6 h6_MulTau (fun a r => v6 r = tau6 * v6 a) /\
  computes1 kGF6 h6_Invert (fun a r => v6 r = (v6 a)^-1).
Proof. exact BNHeapMath.heap_gfP6_math. Qed.
Print Assumptions C63_gfP6_aliasing.

Theorem C63_gfP12_aliasing :
  computes2 kGF12 h12_Add (fun a b r => v12 r = v12 a + v12 b) /\ computes2 kGF12 h12_Sub (fun a b r => v12 r = v12 a - v12 b) /\
  computes1 kGF12 h12_Negative (fun a r => v12 r = - v12 a) /\
  computes2 kGF12 h12_Mul (fun a b r => v12 r = v12 a * v12 b) /\ computes1 kGF12 h12_Square (fun a r => v12 r = v12 a ^+ 2) /\
  computes1 kGF12 h12_Invert (fun a r => v12 r = (v12 a)^-1) /\
  computes1g kGF12 h12_Frobenius (fun a r => v12 r = v12 a ^+ Z.to_nat bn_P) /\
  computes1g kGF12 h12_FrobeniusP2 (fun a r => v12 r = v12 a ^+ (Z.to_nat bn_P ^ 2)) /\
  (forall n, (0 <= n)%Z -> computes1 kGF12 (fun e a => h12_Exp e a n) (fun a r => v12 r = v12 a ^+ Z.to_nat n)).
Proof. exact BNHeapMath.heap_gfP12_math. Qed.
Print Assumptions C63_gfP12_aliasing.

Example C63_example : good (demo dirty) /\ package_variables (demo dirty) /\ object kGF6 (demo dirty) (x6 25) /\ object kGF6 (demo dirty) (x6 31) /\
  apart kGF6 (x6 25) kGF6 (x6 31) /\ object kGF12 (demo dirty) (x12 25) /\ object kGF12 (demo dirty) (x12 37) /\
  apart kGF12 (x12 25) kGF12 (x12 37) /\ not_package_variable kGF12 (x12 25).
Proof. exact ex_tower. Qed.
(** Conjugate of gfp12.go puts the conjugate into the receiver, and returns its
    argument *)
Theorem C63_gfP12_Conjugate :
  forall s e a, good s -> object kGF12 s e -> object kGF12 s a -> same_or_apart kGF12 e a ->
  exists s', h12_Conjugate e a s = Some (a, s') /\ val kGF12 (mem s') e = gfP12_Conjugate (val kGF12 (mem s) a) /\
    changes_only (locs kGF12 e) s s'.
Proof. exact BNHeapTheorems.heap_12Conjugate. Qed.
Print Assumptions C63_gfP12_Conjugate.

(** IsZero and IsOne of gfp12.go reduce the coordinates of the receiver *)
Theorem C63_gfP12_tests :
  forall s e, good s -> object kGF12 s e ->
  (exists s', h12_IsZero e s = Some (gfP12_IsZero (val kGF12 (mem s) e), s') /\
     val kGF12 (mem s') e = gfP12_Minimal (val kGF12 (mem s) e) /\ changes_only (locs kGF12 e) s s') /\
  (exists s', h12_IsOne e s = Some (gfP12_IsOne (val kGF12 (mem s) e), s') /\
     val kGF12 (mem s') e = gfP12_Minimal (val kGF12 (mem s) e) /\ changes_only (locs kGF12 e) s s').
Proof. exact BNHeapTheorems.heap_12tests. Qed.
Print Assumptions C63_gfP12_tests.

(** MulScalar of gfp12.go multiplies what the receiver holds *)
Theorem C63_gfP12_MulScalar :
  forall s e a b, good s -> object kGF12 s e -> object kGF12 s a -> object kGF6 s b -> apart kGF12 e kGF6 b ->
  exists s', h12_MulScalar e a b s = Some (tt, s') /\
    val kGF12 (mem s') e = gfP12_MulScalar (val kGF12 (mem s) e) (val kGF12 (mem s) a) (val kGF6 (mem s) b) /\ changes_only (locs kGF12 e) s s'.
Proof. exact BNHeapTheorems.heap_12MulScalar. Qed.
Print Assumptions C63_gfP12_MulScalar.

(** ** C64: points in memory *)
Theorem C64_curve :
  computes1 kCurve hc_Set (fun a r => r = a) /\ computes0 kCurve hc_SetInfinity (fun a r => r = cp_SetInfinity a) /\
  tests kCurve hc_IsInfinity cp_IsInfinity /\ computes1 kCurve hc_Negative (fun a r => r = cp_Negative a) /\
  computes1_apart kCurve hc_Double (fun e a r => r = cp_Double e a) /\
  computes0 kCurve (fun e => hc_Double e e) (fun a r => r = cp_DoubleSelf a) /\
  computes2_apart kCurve hc_Add (fun e a b r => r = cp_Add e a b) /\
  computes2_self kCurve hc_Add (fun a b r => r = cp_AddTo a b).
Proof. exact BNHeapTheorems.heap_curve. Qed.
Print Assumptions C64_curve.

Theorem C64_twist :
  computes1 kTwist ht_Set (fun a r => r = a) /\ computes0 kTwist ht_SetInfinity (fun a r => r = tp_SetInfinity a) /\
  tests kTwist ht_IsInfinity tp_IsInfinity /\
  computes1_apart kTwist ht_Negative (fun _ a r => r = tp_Negative a) /\
  computes0 kTwist (fun e => ht_Negative e e) (fun a r => r = tp_NegativeSelf a) /\
  computes1_apart kTwist ht_Double (fun e a r => r = tp_Double e a) /\
  computes0 kTwist (fun e => ht_Double e e) (fun a r => r = tp_DoubleSelf a) /\
  computes2_apart kTwist ht_Add (fun e a b r => r = tp_Add e a b) /\
  computes2_self kTwist ht_Add (fun a b r => r = tp_AddTo a b) /\
  computes0 kTwist ht_MakeAffine (fun a r => r = tp_MakeAffine a).
Proof. exact BNHeapTheorems.heap_twist. Qed.
Print Assumptions C64_twist.

Theorem C64_MakeAffine :
  forall s e, good s -> object kCurve s e ->
  match cp_MakeAffine (val kCurve (mem s) e) with
  | Some v => exists s', hc_MakeAffine e s = Some (tt, s') /\ val kCurve (mem s') e = v /\ changes_only (locs kCurve e) s s'
  | None => hc_MakeAffine e s = None
  end.
Proof. exact BNHeapTheorems.heap_cMakeAffine. Qed.
Print Assumptions C64_MakeAffine.

Example C64_example : good (demo None) /\ object kCurve (demo None) (xc 25) /\ object kCurve (demo None) (xc 29) /\
  apart kCurve (xc 25) kCurve (xc 29) /\ object kTwist (demo None) (xt 33) /\ object kTwist (demo None) (xt 41) /\
  apart kTwist (xt 33) kTwist (xt 41).
Proof. exact ex_points. Qed.
(** ** C65: the exported methods *)
Theorem C65_G1 :
  forall s e a b k, good s -> no_pool s -> receiver kCurve s e -> object kCurve s a -> object kCurve s b ->
  (receiver_same_or_apart kCurve e a ->
     returns kCurve (hG1_ScalarMult e a k) s e (G1ScalarMult (content kCurve s e newCurvePoint) (val kCurve (mem s) a) k) /\
     returns kCurve (hG1_Neg e a) s e (G1Neg (val kCurve (mem s) a))) /\
  (receiver_apart kCurve e a -> receiver_same_or_apart kCurve e b ->
     returns kCurve (hG1_Add e a b) s e (G1Add (content kCurve s e newCurvePoint) (val kCurve (mem s) a) (val kCurve (mem s) b))) /\
  (same_or_apart kCurve a b ->
     returns kCurve (hG1_Add (Some a) a b) s (Some a) (G1AddTo (val kCurve (mem s) a) (val kCurve (mem s) b))) /\
  returns kCurve hG1_SetInfinity s None G1SetInfinity.
Proof. exact BNHeapTheorems.heap_G1. Qed.
Print Assumptions C65_G1.

Theorem C65_G2 :
  forall s e a b k, good s -> no_pool s -> receiver kTwist s e -> object kTwist s a -> object kTwist s b ->
  (receiver_same_or_apart kTwist e a -> returns kTwist (hG2_ScalarMult e a k) s e (G2ScalarMult (val kTwist (mem s) a) k)) /\
  (receiver_apart kTwist e a -> returns kTwist (hG2_Neg e a) s e (G2Neg (val kTwist (mem s) a))) /\
  returns kTwist (hG2_Neg (Some a) a) s (Some a) (G2NegSelf (val kTwist (mem s) a)) /\
  (receiver_apart kTwist e a -> receiver_same_or_apart kTwist e b ->
     returns kTwist (hG2_Add e a b) s e (G2Add (content kTwist s e newTwistPoint) (val kTwist (mem s) a) (val kTwist (mem s) b))) /\
  (same_or_apart kTwist a b ->
     returns kTwist (hG2_Add (Some a) a b) s (Some a) (G2AddTo (val kTwist (mem s) a) (val kTwist (mem s) b))).
Proof. exact BNHeapTheorems.heap_G2. Qed.
Print Assumptions C65_G2.

Theorem C65_ScalarBaseMult :
  forall s e f k, good s -> no_pool s -> package_variables s ->
  (receiver kCurve s e -> match e with Some o => not_package_variable kCurve o | None => True end ->
     returns kCurve (hG1_ScalarBaseMult e k) s e (G1ScalarBaseMult (content kCurve s e newCurvePoint) k)) /\
  (receiver kTwist s f -> match f with Some o => not_package_variable kTwist o | None => True end ->
     returns kTwist (hG2_ScalarBaseMult f k) s f (G2ScalarBaseMult k)).
Proof. exact BNHeapTheorems.heap_base. Qed.
Print Assumptions C65_ScalarBaseMult.

Theorem C65_GT :
  forall s e a b k, good s -> no_pool s -> receiver kGF12 s e -> object kGF12 s a -> object kGF12 s b ->
  receiver_same_or_apart kGF12 e a ->
  returns kGF12 (hGT_ScalarMult e a k) s e (GTScalarMult (val kGF12 (mem s) a) k) /\
  returns kGF12 (hGT_Invert e a) s e (GTInvert (val kGF12 (mem s) a)) /\
  returns kGF12 (hGT_Neg e a) s e (GTNeg (val kGF12 (mem s) a)) /\
  (receiver_same_or_apart kGF12 e b -> returns kGF12 (hGT_Add e a b) s e (GTAdd (val kGF12 (mem s) a) (val kGF12 (mem s) b))) /\
  (forall w, returns kGF12 (hGT_Exp a k) s (Some a) (fst (GTExp w (val kGF12 (mem s) a) k))).
Proof. exact BNHeapTheorems.heap_GT. Qed.
Print Assumptions C65_GT.

Theorem C65_Marshal :
  forall s n q, good s -> no_pool s -> object kCurve s n -> object kTwist s q ->
  match G1Marshal (val kCurve (mem s) n) with
  | Some (bs, v) => exists s', hG1_Marshal n s = Some (bs, s') /\ val kCurve (mem s') n = v /\ no_pool s' /\ changes_only (locs kCurve n) s s'
  | None => hG1_Marshal n s = None
  end /\
  exists s', hG2_Marshal q s = Some (fst (G2Marshal (val kTwist (mem s) q)), s') /\
    val kTwist (mem s') q = snd (G2Marshal (val kTwist (mem s) q)) /\ no_pool s' /\ changes_only (locs kTwist q) s s'.
Proof. exact BNHeapTheorems.heap_Marshal. Qed.
Print Assumptions C65_Marshal.

Theorem C65_Pair :
  forall s p q, good s -> no_pool s -> package_variables s -> object kCurve s p -> object kTwist s q ->
  match PairBN (val kCurve (mem s) p) (val kTwist (mem s) q) with
  | Ok v => returns kGF12 (h_Pair p q) s None v
  | _ => h_Pair p q s = None
  end.
Proof. exact BNHeapTheorems.heap_Pair. Qed.
Print Assumptions C65_Pair.

Theorem C65_PairingCheck :
  forall s a b, good s -> no_pool s -> package_variables s -> Forall (object kCurve s) a -> Forall (object kTwist s) b ->
  match PairingCheck (map (val kCurve (mem s)) a) (map (val kTwist (mem s)) b) with
  | Ok v => exists s', h_PairingCheck a b s = Some (v, s') /\ no_pool s' /\ changes_only nil s s'
  | _ => h_PairingCheck a b s = None
  end.
Proof. exact BNHeapTheorems.heap_PairingCheck. Qed.
Print Assumptions C65_PairingCheck.

Example C65_example : good (demo None) /\ no_pool (demo None) /\ package_variables (demo None) /\
  receiver kCurve (demo None) (Some (xc 25)) /\ receiver_apart kCurve (Some (xc 25)) (xc 29) /\ object kCurve (demo None) (xc 29) /\
  receiver kTwist (demo None) (Some (xt 33)) /\ receiver_apart kTwist (Some (xt 33)) (xt 41) /\ object kTwist (demo None) (xt 41) /\
  receiver kGF12 (demo None) (Some (x12 49)) /\ receiver_same_or_apart kGF12 (Some (x12 49)) (x12 61) /\ object kGF12 (demo None) (x12 61) /\
  object kCurve (demo None) gl_curveGen /\ object kTwist (demo None) gl_twistGen.
Proof. exact ex_api. Qed.
(** ** C66: the integers that do not come back to the pool *)
(** the operations of the fields return what they take *)
Theorem C66_fields_balanced :
  (forall e a, balanced (h2_Set e a)) /\
  (forall e, balanced (h2_SetZero e)) /\
  (forall e, balanced (h2_SetOne e)) /\
  (forall e, balanced (h2_Minimal e)) /\
  (forall e, balanced (h2_IsZero e)) /\
  (forall e, balanced (h2_IsOne e)) /\
  (forall e a, balanced (h2_Conjugate e a)) /\
  (forall e a, balanced (h2_Negative e a)) /\
  (forall e a b, balanced (h2_Add e a b)) /\
  (forall e a b, balanced (h2_Sub e a b)) /\
  (forall e a, balanced (h2_Double e a)) /\
  (forall e a b, balanced (h2_Mul e a b)) /\
  (forall e a b, balanced (h2_MulScalar e a b)) /\
  (forall e a, balanced (h2_MulXi e a)) /\
  (forall e a, balanced (h2_Square e a)) /\
  (forall e a, balanced (h2_Invert e a)) /\
  (forall c a power, balanced (h2_Exp c a power)) /\
  (forall e a, balanced (h6_Set e a)) /\
  (forall e, balanced (h6_SetZero e)) /\
  (forall e, balanced (h6_SetOne e)) /\
  (forall e, balanced (h6_Minimal e)) /\
  (forall e, balanced (h6_IsZero e)) /\
  (forall e, balanced (h6_IsOne e)) /\
  (forall e a, balanced (h6_Negative e a)) /\
  (forall e a, balanced (h6_Frobenius e a)) /\
  (forall e a, balanced (h6_FrobeniusP2 e a)) /\
  (forall e a b, balanced (h6_Add e a b)) /\
  (forall e a b, balanced (h6_Sub e a b)) /\
  (forall e a, balanced (h6_Double e a)) /\
  (forall e a b, balanced (h6_Mul e a b)) /\
  (forall e a b, balanced (h6_MulScalar e a b)) /\
  (forall e a b, balanced (h6_MulGFP e a b)) /\
  (forall e a, balanced (h6_MulTau e a)) /\
  (forall e a, balanced (h6_Square e a)) /\
  (forall e a, balanced (h6_Invert e a)) /\
  (forall e a, balanced (h12_Set e a)) /\
  (forall e, balanced (h12_SetZero e)) /\
  (forall e, balanced (h12_SetOne e)) /\
  (forall e, balanced (h12_Minimal e)) /\
  (forall e, balanced (h12_IsZero e)) /\
  (forall e, balanced (h12_IsOne e)) /\
  (forall e a, balanced (h12_Conjugate e a)) /\
  (forall e a, balanced (h12_Negative e a)) /\
  (forall e a, balanced (h12_Frobenius e a)) /\
  (forall e a, balanced (h12_FrobeniusP2 e a)) /\
  (forall e a b, balanced (h12_Add e a b)) /\
  (forall e a b, balanced (h12_Sub e a b)) /\
  (forall e a b, balanced (h12_Mul e a b)) /\
  (forall e a b, balanced (h12_MulScalar e a b)) /\
  (forall e a, balanced (h12_Square e a)) /\
  (forall c a power, balanced (h12_Exp c a power)) /\
  (forall e a, balanced (h12_Invert e a)).
Proof. exact (conj BNHeapCount.k_h2_Set (conj BNHeapCount.k_h2_SetZero (conj BNHeapCount.k_h2_SetOne (conj BNHeapCount.k_h2_Minimal (conj BNHeapCount.k_h2_IsZero (conj BNHeapCount.k_h2_IsOne (conj BNHeapCount.k_h2_Conjugate (conj BNHeapCount.k_h2_Negative (conj BNHeapCount.k_h2_Add (conj BNHeapCount.k_h2_Sub (conj BNHeapCount.k_h2_Double (conj BNHeapCount.k_h2_Mul (conj BNHeapCount.k_h2_MulScalar (conj BNHeapCount.k_h2_MulXi (conj BNHeapCount.k_h2_Square (conj BNHeapCount.k_h2_Invert (conj BNHeapCount.k_h2_Exp (conj BNHeapCount.k_h6_Set (conj BNHeapCount.k_h6_SetZero (conj BNHeapCount.k_h6_SetOne (conj BNHeapCount.k_h6_Minimal (conj BNHeapCount.k_h6_IsZero (conj BNHeapCount.k_h6_IsOne (conj BNHeapCount.k_h6_Negative (conj BNHeapCount.k_h6_Frobenius (conj BNHeapCount.k_h6_FrobeniusP2 (conj BNHeapCount.k_h6_Add (conj BNHeapCount.k_h6_Sub (conj BNHeapCount.k_h6_Double (conj BNHeapCount.k_h6_Mul (conj BNHeapCount.k_h6_MulScalar (conj BNHeapCount.k_h6_MulGFP (conj BNHeapCount.k_h6_MulTau (conj BNHeapCount.k_h6_Square (conj BNHeapCount.k_h6_Invert (conj BNHeapCount.k_h12_Set (conj BNHeapCount.k_h12_SetZero (conj BNHeapCount.k_h12_SetOne (conj BNHeapCount.k_h12_Minimal (conj BNHeapCount.k_h12_IsZero (conj BNHeapCount.k_h12_IsOne (conj BNHeapCount.k_h12_Conjugate (conj BNHeapCount.k_h12_Negative (conj BNHeapCount.k_h12_Frobenius (conj BNHeapCount.k_h12_FrobeniusP2 (conj BNHeapCount.k_h12_Add (conj BNHeapCount.k_h12_Sub (conj BNHeapCount.k_h12_Mul (conj BNHeapCount.k_h12_MulScalar (conj BNHeapCount.k_h12_Square (conj BNHeapCount.k_h12_Exp BNHeapCount.k_h12_Invert))))))))))))))))))))))))))))))))))))))))))))))))))). Qed.
Print Assumptions C66_fields_balanced.

(** so do these operations on points *)
Theorem C66_points_balanced :
  (forall c a, balanced (hc_Set c a)) /\
  (forall c, balanced (hc_SetInfinity c)) /\
  (forall c, balanced (hc_IsInfinity c)) /\
  (forall c a, balanced (hc_Double c a)) /\
  (forall c, balanced (hc_MakeAffine c)) /\
  (forall c a, balanced (hc_Negative c a)) /\
  (forall c a, balanced (ht_Set c a)) /\
  (forall c, balanced (ht_SetInfinity c)) /\
  (forall c, balanced (ht_IsInfinity c)) /\
  (forall c a, balanced (ht_Double c a)) /\
  (forall c, balanced (ht_MakeAffine c)) /\
  (forall c a, balanced (ht_Negative c a)).
Proof. exact (conj BNHeapCount.k_hc_Set (conj BNHeapCount.k_hc_SetInfinity (conj BNHeapCount.k_hc_IsInfinity (conj BNHeapCount.k_hc_Double (conj BNHeapCount.k_hc_MakeAffine (conj BNHeapCount.k_hc_Negative (conj BNHeapCount.k_ht_Set (conj BNHeapCount.k_ht_SetInfinity (conj BNHeapCount.k_ht_IsInfinity (conj BNHeapCount.k_ht_Double (conj BNHeapCount.k_ht_MakeAffine BNHeapCount.k_ht_Negative))))))))))). Qed.
Print Assumptions C66_points_balanced.

(** Add returns early when it has to double, without returning its scratch integers *)
Theorem C66_Add :
  (forall c a b, counts (hc_Add c a b) (fun d => d = 0%Z \/ d = 10%Z)) /\
  (forall c a b, counts (ht_Add c a b) (fun d => d = 0%Z \/ d = 20%Z)).
Proof. exact (conj BNHeapCount.k_cAdd BNHeapCount.k_tAdd). Qed.
Print Assumptions C66_Add.

Theorem C66_Add_balanced_refuted :
  (exists s e s', good s /\ object kCurve s e /\ hc_Add e gl_curveGen gl_curveGen s = Some (tt, s') /\ (count s' - count s = 10)%Z) /\
  (exists s e s', good s /\ object kTwist s e /\ ht_Add e gl_twistGen gl_twistGen s = Some (tt, s') /\ (count s' - count s = 20)%Z).
Proof. exact (conj add_leak add_leak_twist). Qed.
Print Assumptions C66_Add_balanced_refuted.

Theorem C66_Mul :
  (forall c a n, counts (hc_Mul c a n) (fun d => exists j, 0 <= j /\ d = 10 * j)%Z) /\
  (forall c a n, counts (ht_Mul c a n) (fun d => exists j, 0 <= j /\ d = 20 * j)%Z).
Proof. exact (conj BNHeapCount.k_cMul BNHeapCount.k_tMul). Qed.
Print Assumptions C66_Mul.

(** the pairing: 12 for the result, and 16 for two points which optimalAte keeps *)
Theorem C66_pairing :
  (forall q p, counts (h_miller q p) (fun d => d = 28%Z)) /\
  (forall x, counts (h_finalExponentiation x) (fun d => d = 12%Z)) /\
  (forall a b, counts (h_optimalAte a b) (fun d => d = 28%Z)).
Proof. exact (conj BNHeapCount.k_miller (conj BNHeapCount.k_finalExponentiation BNHeapCount.k_optimalAte)). Qed.
Print Assumptions C66_pairing.

Example C66_example : pool (demo dirty) <> None /\ match h12_Mul (x12 25) (x12 25) (x12 37) (demo dirty) with
  | Some (_, s') => (count s' = 5)%Z /\ match pool s' with Some bs => (5 < length bs)%coq_nat | None => False end | None => False end.
Proof. exact ex_count. Qed.