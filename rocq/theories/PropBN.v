(** * Properties C39-C52, C59-C61: crypto/bn256 *)
From Coq Require Import ZArith Znumtheory List.
From mathcomp Require Import all_ssreflect all_algebra.
From Verif Require Import Base SpecCurve EC PtGroup BB SpecCodec BN256 BNTower BNField BNFrob SpecBN SpecPair BNPair BNLaws BNNeg BNBilin NonDegen BNExact.
Import GRing.Theory.
Delimit Scope Z_scope with Z.
Local Open Scope ring_scope.

(** ** C39: parameters *)
Theorem C39_bn_parameters :
  (Znumtheory.prime bn_P /\ Znumtheory.prime bnOrder /\
   bn_P = 36 * bn_u ^ 4 + 36 * bn_u ^ 3 + 24 * bn_u ^ 2 + 6 * bn_u + 1 /\
   bnOrder = 36 * bn_u ^ 4 + 36 * bn_u ^ 3 + 18 * bn_u ^ 2 + 6 * bn_u + 1)%Z.
Proof. exact bn_parameters. Qed.
Print Assumptions C39_bn_parameters.
(** the generators lie on y^2 = x^3 + 3 over Z/P and on y^2 = x^3 + 3/xi over
    GF(P^2), and have order exactly Order (a prime) *)
Theorem C39_bn_generators :
  g1v curveGen = g1_gen /\ zon bn_P 3 g1_gen /\ zmul bn_P bnOrder g1_gen = None /\ g1_gen <> None /\
  on_curve g2_b g2_gen /\ ptmul bnOrder g2_gen = Inf /\ g2_gen <> Inf.
Proof. exact bn_generators. Qed.
Print Assumptions C39_bn_generators.
(** constants.go: the powers of xi = i + 9 *)
Theorem C39_frobenius_constants :
  v2 xiToPMinus1Over6 = v2 (GfP2 1 9) ^+ Z.to_nat ((bn_P - 1) / 6) /\
  v2 xiToPMinus1Over3 = v2 (GfP2 1 9) ^+ Z.to_nat ((bn_P - 1) / 3) /\
  v2 xiToPMinus1Over2 = v2 (GfP2 1 9) ^+ Z.to_nat ((bn_P - 1) / 2) /\
  v2 xiTo2PMinus2Over3 = v2 (GfP2 1 9) ^+ Z.to_nat (2 * (bn_P - 1) / 3) /\
  v2 (GfP2 0 xiToPSquaredMinus1Over6) = v2 (GfP2 1 9) ^+ Z.to_nat ((bn_P ^ 2 - 1) / 6) /\
  v2 (GfP2 0 xiToPSquaredMinus1Over3) = v2 (GfP2 1 9) ^+ Z.to_nat ((bn_P ^ 2 - 1) / 3) /\
  v2 (GfP2 0 xiTo2PSquaredMinus2Over3) = v2 (GfP2 1 9) ^+ Z.to_nat (2 * (bn_P ^ 2 - 1) / 3).
Proof. exact frobenius_constants. Qed.
Print Assumptions C39_frobenius_constants.

(** ** C40: GF(p^2).  [K2] is a field (its type says so); the objects are
    its elements x i + y with i^2 = -1, coordinates modulo P; the arithmetic
    accepts unreduced coordinates. *)
Theorem C40_gfP2_field : (forall x : K2, exists a, v2 a = x /\ (0 <= c2x a < bn_P)%Z /\ (0 <= c2y a < bn_P)%Z) /\
  (forall a b, v2 a = v2 b <-> (c2x a mod bn_P = c2x b mod bn_P)%Z /\ (c2y a mod bn_P = c2y b mod bn_P)%Z) /\
  (forall x y, v2 (GfP2 x y) = v2 (GfP2 0 x) * v2 (GfP2 1 0) + v2 (GfP2 0 y)) /\
  v2 (GfP2 1 0) ^+ 2 = -1 /\ v2 (GfP2 0 1) = 1 /\
  (forall x y, v2 (GfP2 0 (x + y)%Z) = v2 (GfP2 0 x) + v2 (GfP2 0 y)) /\
  (forall x y, v2 (GfP2 0 (x * y)%Z) = v2 (GfP2 0 x) * v2 (GfP2 0 y)).
Proof. exact gfP2_field. Qed.
Print Assumptions C40_gfP2_field.
Theorem C40_gfP2_arithmetic : forall a b k, v2 (gfP2_Add a b) = v2 a + v2 b /\ v2 (gfP2_Sub a b) = v2 a - v2 b /\
  v2 (gfP2_Double a) = v2 a + v2 a /\ v2 (gfP2_Negative a) = - v2 a /\
  v2 (gfP2_Mul a b) = v2 a * v2 b /\ v2 (gfP2_Square a) = v2 a ^+ 2 /\
  v2 (gfP2_MulScalar a k) = v2 a * v2 (GfP2 0 k) /\ v2 (gfP2_MulXi a) = v2 (GfP2 1 9) * v2 a /\
  v2 (gfP2_Conjugate a) = v2 a ^+ Z.to_nat bn_P /\ v2 (gfP2_Minimal a) = v2 a.
Proof. exact gfP2_arith. Qed.
Print Assumptions C40_gfP2_arithmetic.
(** Invert, whatever the integer [s] left over in the scratch variable; the
    inverse of 0 is 0 *)
Theorem C40_gfP2_Invert : forall s a, v2 (gfP2_InvertStale s a) = (v2 a)^-1 /\ v2 (gfP2_Invert a) = (v2 a)^-1.
Proof. exact gfP2_inv. Qed.
Print Assumptions C40_gfP2_Invert.

(** ** C41: GF(p^6), GF(p^12) *)
Theorem C41_gfP6_field : (forall x : K6, exists a, v6 a = x) /\
  (forall a b, v6 a = v6 b <-> v2 (c6x a) = v2 (c6x b) /\ v2 (c6y a) = v2 (c6y b) /\ v2 (c6z a) = v2 (c6z b)) /\
  (forall a, v6 a = e6 (v2 (c6x a)) * tau6 ^+ 2 + e6 (v2 (c6y a)) * tau6 + e6 (v2 (c6z a))) /\
  tau6 ^+ 3 = e6 (v2 (GfP2 1 9)) /\ e6 1 = 1 /\
  (forall x y, e6 (x + y) = e6 x + e6 y) /\ (forall x y, e6 (x * y) = e6 x * e6 y).
Proof. exact gfP6_field. Qed.
Print Assumptions C41_gfP6_field.
Theorem C41_gfP12_field : (forall x : K12, exists a, v12 a = x) /\
  (forall a b, v12 a = v12 b <-> v6 (c12x a) = v6 (c12x b) /\ v6 (c12y a) = v6 (c12y b)) /\
  (forall a, v12 a = e12 (v6 (c12x a)) * om12 + e12 (v6 (c12y a))) /\
  om12 ^+ 2 = e12 tau6 /\ e12 1 = 1 /\
  (forall x y, e12 (x + y) = e12 x + e12 y) /\ (forall x y, e12 (x * y) = e12 x * e12 y).
Proof. exact gfP12_field. Qed.
Print Assumptions C41_gfP12_field.
Theorem C41_gfP6_arithmetic : forall a b k s, v6 (gfP6_Add a b) = v6 a + v6 b /\ v6 (gfP6_Sub a b) = v6 a - v6 b /\
  v6 (gfP6_Double a) = v6 a + v6 a /\ v6 (gfP6_Negative a) = - v6 a /\
  v6 (gfP6_Mul a b) = v6 a * v6 b /\ v6 (gfP6_Square a) = v6 a ^+ 2 /\
  v6 (gfP6_MulScalar a k) = v6 a * e6 (v2 k) /\ v6 (gfP6_MulGFP a s) = v6 a * e6 (v2 (GfP2 0 s)) /\
  v6 (gfP6_MulTau a) = tau6 * v6 a /\ v6 (gfP6_Invert a) = (v6 a)^-1.
Proof. exact gfP6_arith. Qed.
Print Assumptions C41_gfP6_arithmetic.
Theorem C41_gfP12_arithmetic : forall a b, v12 (gfP12_Add a b) = v12 a + v12 b /\ v12 (gfP12_Sub a b) = v12 a - v12 b /\
  v12 (gfP12_Negative a) = - v12 a /\
  v12 (gfP12_Mul a b) = v12 a * v12 b /\ v12 (gfP12_Square a) = v12 a ^+ 2 /\
  v12 (gfP12_Invert a) = (v12 a)^-1.
Proof. exact gfP12_arith. Qed.
Print Assumptions C41_gfP12_arithmetic.
Theorem C41_Exp : forall a b k, (0 <= k)%Z ->
  v2 (gfP2_Exp a k) = v2 a ^+ Z.to_nat k /\ v12 (gfP12_Exp b k) = v12 b ^+ Z.to_nat k.
Proof. exact gf_exp. Qed.
Print Assumptions C41_Exp.

(** ** C42: Frobenius *)
Theorem C42_frobenius : forall a, v12 (gfP12_Frobenius a) = v12 a ^+ Z.to_nat bn_P /\
  v12 (gfP12_FrobeniusP2 a) = v12 a ^+ (Z.to_nat bn_P ^ 2) /\
  v12 (gfP12_Conjugate a) = v12 a ^+ (Z.to_nat bn_P ^ 6).
Proof. exact frobenius_maps. Qed.
Print Assumptions C42_frobenius.

(** ** C43: final exponentiation *)
Theorem C43_finalExponentiation : forall f,
  v12 (finalExponentiation f) = v12 f ^+ Z.to_nat ((bn_P ^ 12 - 1) / bnOrder) /\
  (v12 f <> 0 -> v12 (finalExponentiation f) ^+ Z.to_nat bnOrder = 1).
Proof. exact final_exponentiation. Qed.
Print Assumptions C43_finalExponentiation.
Theorem C43_multiplicative : forall f g,
  v12 (finalExponentiation (gfP12_Mul f g)) = v12 (finalExponentiation f) * v12 (finalExponentiation g).
Proof. exact final_mul. Qed.
Print Assumptions C43_multiplicative.
(** Pair succeeds and returns an Order-th root of unity, for every point of G1
    and every multiple of the generator of G2 whose t coordinate is not stale *)
Theorem C43_Pair_order : forall p q k, g1_ok p -> g2_ok q -> g2v q = ptmul k g2_gen ->
  (tpz q = gfP2_One -> v2 (tpt q) = 1) ->
  exists e, PairBN p q = Ok e /\ v12 e ^+ Z.to_nat bnOrder = 1.
Proof. exact pair_order. Qed.
Print Assumptions C43_Pair_order.
Example C43_nonvacuous : g1_ok curveGen /\ g2_ok twistGen /\ g2v twistGen = ptmul 1 g2_gen /\
  (tpz twistGen = gfP2_One -> v2 (tpt twistGen) = 1).
Proof. exact pair_gen_hyps. Qed.

(** ** C44: the group G1 *)
Theorem C44_G1_Add : forall e a b, g1_ok a -> g1_ok b ->
  g1_ok (G1Add e a b) /\ g1v (G1Add e a b) = zadd bn_P (g1v a) (g1v b).
Proof. exact BNG1.g1_add_ok. Qed.
Print Assumptions C44_G1_Add.
(** the receiver may also be the first operand if the operands differ *)
Theorem C44_G1_Add_in_place : forall a b, g1_ok a -> g1_ok b -> g1v a <> g1v b ->
  g1_ok (G1AddTo a b) /\ g1v (G1AddTo a b) = zadd bn_P (g1v a) (g1v b).
Proof. exact BNG1.g1_addto_ok. Qed.
Print Assumptions C44_G1_Add_in_place.
Theorem C44_G1_Neg : forall a, g1_ok a -> g1_ok (G1Neg a) /\ g1v (G1Neg a) = zneg bn_P (g1v a).
Proof. exact BNG1.g1_neg_ok. Qed.
Print Assumptions C44_G1_Neg.
Theorem C44_G1_ScalarMult : forall e a k, g1_ok a ->
  g1_ok (G1ScalarMult e a k) /\ g1v (G1ScalarMult e a k) = zmul bn_P k (g1v a).
Proof. exact BNG1.g1_smul_ok. Qed.
Print Assumptions C44_G1_ScalarMult.
Theorem C44_G1_ScalarBaseMult : forall e k,
  g1_ok (G1ScalarBaseMult e k) /\ g1v (G1ScalarBaseMult e k) = zmul bn_P k g1_gen.
Proof. exact BNG1.g1_base_ok. Qed.
Print Assumptions C44_G1_ScalarBaseMult.
Theorem C44_G1_SetInfinity_IsZero : g1_ok G1SetInfinity /\ g1v G1SetInfinity = None /\
  forall a, g1_ok a -> (G1IsZero a = true <-> g1v a = None).
Proof. exact g1_infinity. Qed.
Print Assumptions C44_G1_SetInfinity_IsZero.
(** the group is cyclic of order Order, generated by the base point *)
Theorem C44_G1_order : forall a, g1_ok a -> zmul bn_P bnOrder (g1v a) = None /\
  exists k, (0 <= k < bnOrder)%Z /\ g1v a = zmul bn_P k g1_gen.
Proof. exact g1_cyclic. Qed.
Print Assumptions C44_G1_order.
Theorem C44_G1_scalars : forall k l, zmul bn_P k g1_gen = zmul bn_P l g1_gen <-> (k mod bnOrder = l mod bnOrder)%Z.
Proof. exact g1_scalars. Qed.
Print Assumptions C44_G1_scalars.
Example C44_nonvacuous : g1_ok curveGen /\ g1_ok (G1Neg curveGen) /\ g1v curveGen <> g1v (G1Neg curveGen).
Proof. exact g1_two. Qed.

(** ** C45: in-place doubling.  [G1AddTo a b] is e.Add(e, b) with e = a. *)
Theorem C45_G1_double_in_place : forall a b x y x3 y3, g1_ok a -> g1_ok b -> g1v a = g1v b -> g1v a = Some (x, y) ->
  zadd bn_P (g1v a) (g1v a) = Some (x3, y3) ->
  (g1v (G1AddTo a b) = zadd bn_P (g1v a) (g1v b) <-> (8 * y3 * (y * y) * cpz a ^ 9) mod bn_P = 1)%Z.
Proof. exact BNAlias.g1_alias_iff. Qed.
Print Assumptions C45_G1_double_in_place.
Theorem C45_G1_double_in_place_refuted :
  exists a, g1_ok a /\ g1v (G1AddTo a a) <> zadd bn_P (g1v a) (g1v a).
Proof. exact g1_alias_refuted. Qed.
Print Assumptions C45_G1_double_in_place_refuted.
Theorem C45_G2_double_in_place : forall a b x y x3 y3, g2_ok a -> g2_ok b -> g2v a = g2v b -> g2v a = Aff x y ->
  ptmul bnOrder (g2v a) = Inf -> pt_add (g2v a) (g2v a) = Aff x3 y3 ->
  (g2v (G2AddTo a b) = pt_add (g2v a) (g2v b) <-> 8%:R * y3 * y ^+ 2 * v2 (tpz a) ^+ 9 = 1).
Proof. exact BNAlias.g2_alias_iff. Qed.
Print Assumptions C45_G2_double_in_place.
Theorem C45_G2_double_in_place_refuted :
  exists a, g2_ok a /\ g2v (G2AddTo a a) <> pt_add (g2v a) (g2v a).
Proof. exact g2_alias_refuted. Qed.
Print Assumptions C45_G2_double_in_place_refuted.

(** ** C46: the group G2 *)
Theorem C46_G2_Add : forall e a b, g2_ok a -> g2_ok b ->
  g2_ok (G2Add e a b) /\ g2v (G2Add e a b) = pt_add (g2v a) (g2v b).
Proof. exact BNG2.g2_add_ok. Qed.
Print Assumptions C46_G2_Add.
Theorem C46_G2_Add_in_place : forall a b, g2_ok a -> g2_ok b -> g2v a <> g2v b ->
  g2_ok (G2AddTo a b) /\ g2v (G2AddTo a b) = pt_add (g2v a) (g2v b).
Proof. exact BNG2.g2_addto_ok. Qed.
Print Assumptions C46_G2_Add_in_place.
Theorem C46_G2_Neg : forall a, g2_ok a -> g2_ok (G2Neg a) /\ g2v (G2Neg a) = pt_neg (g2v a).
Proof. exact BNG2.g2_neg_ok. Qed.
Print Assumptions C46_G2_Neg.
Theorem C46_G2_ScalarMult : forall a k, g2_ok a -> (0 <= k)%Z ->
  g2_ok (G2ScalarMult a k) /\ g2v (G2ScalarMult a k) = ptmul k (g2v a).
Proof. exact BNG2.g2_smul_ok. Qed.
Print Assumptions C46_G2_ScalarMult.
Theorem C46_G2_ScalarBaseMult : forall k, (0 <= k)%Z ->
  g2_ok (G2ScalarBaseMult k) /\ g2v (G2ScalarBaseMult k) = ptmul k g2_gen.
Proof. exact BNG2.g2_base_ok. Qed.
Print Assumptions C46_G2_ScalarBaseMult.
(** A negative scalar and a negation in place lose the ordinate: the result is
    (x, 0), which is on the twist for no multiple of the generator but infinity. *)
Theorem C46_G2_ScalarMult_negative : forall a k x y, g2_ok a -> (k < 0)%Z -> ptmul (- k) (g2v a) = Aff x y ->
  g2v (G2ScalarMult a k) = Aff x 0.
Proof. exact BNNeg.g2_smul_neg. Qed.
Print Assumptions C46_G2_ScalarMult_negative.
Theorem C46_G2_ScalarBaseMult_negative : forall k, (k < 0)%Z -> (k mod bnOrder <> 0)%Z ->
  ~ on_curve g2_b (g2v (G2ScalarBaseMult k)) /\ g2v (G2ScalarBaseMult k) <> ptmul k g2_gen.
Proof. exact BNNeg.g2_base_neg. Qed.
Print Assumptions C46_G2_ScalarBaseMult_negative.
Theorem C46_G2_ScalarBaseMult_refuted :
  exists k, g2v (G2ScalarBaseMult k) <> ptmul k g2_gen /\ ~ g2_ok (G2ScalarBaseMult k).
Proof. exact BNNeg.g2_base_neg_refuted. Qed.
Print Assumptions C46_G2_ScalarBaseMult_refuted.
Theorem C46_G2_Neg_in_place_refuted : forall a x y, g2_ok a -> g2v a = Aff x y -> y <> 0 ->
  g2v (G2NegSelf a) = Aff x 0 /\ ~ on_curve g2_b (g2v (G2NegSelf a)) /\ g2v (G2Neg a) = Aff x (- y).
Proof. exact BNNeg.g2_neg_self. Qed.
Print Assumptions C46_G2_Neg_in_place_refuted.
(** What the package's test looks at is nevertheless right: adding k g and the
    wrong -k g gives infinity. *)
Theorem C46_G2_negative_sum : forall e k, (0 < k)%Z -> (k mod bnOrder <> 0)%Z ->
  g2v (G2Add e (G2ScalarBaseMult k) (G2ScalarBaseMult (- k))) = Inf.
Proof. exact BNNeg.g2_neg_sum. Qed.
Print Assumptions C46_G2_negative_sum.
Theorem C46_G2_SetInfinity_IsZero : g2_ok G2SetInfinity /\ g2v G2SetInfinity = Inf /\
  forall a, g2_ok a -> (G2IsZero a = true <-> g2v a = Inf).
Proof. exact g2_infinity. Qed.
Print Assumptions C46_G2_SetInfinity_IsZero.
Theorem C46_G2_scalars : ptmul bnOrder g2_gen = Inf /\
  forall k l, ptmul k g2_gen = ptmul l g2_gen <-> (k mod bnOrder = l mod bnOrder)%Z.
Proof. exact g2_scalars. Qed.
Print Assumptions C46_G2_scalars.
Example C46_nonvacuous : g2_ok twistGen /\ g2_ok (G2ScalarBaseMult 5) /\ g2v twistGen <> g2v (G2ScalarBaseMult 5).
Proof. exact g2_two. Qed.

(** ** C47: encoding of G1 *)
Theorem C47_G1_Marshal : forall c, g1_ok c -> exists n, G1Marshal c = Some (g1_bytes (g1v c), n) /\ g1_ok n /\ g1v n = g1v c.
Proof. exact BNEnc.g1_marshal. Qed.
Print Assumptions C47_G1_Marshal.
Theorem C47_G1_roundtrip : forall c, g1_ok c ->
  exists c', G1Unmarshal (g1_bytes (g1v c)) = Some c' /\ g1_ok c' /\ g1v c' = g1v c.
Proof. exact BNEnc.g1_roundtrip. Qed.
Print Assumptions C47_G1_roundtrip.
Theorem C47_G1_canonical : forall c d, g1_ok c -> g1_ok d -> (g1_bytes (g1v c) = g1_bytes (g1v d) <-> g1v c = g1v d).
Proof. exact BNEnc.g1_marshal_eq. Qed.
Print Assumptions C47_G1_canonical.
(** every 64-byte string is be32 x ++ be32 y for two numbers below 2^256 ... *)
Theorem C47_G1_strings : forall m, Forall byte m -> length m = 64%nat ->
  exists x y, (0 <= x < 2 ^ 256)%Z /\ (0 <= y < 2 ^ 256)%Z /\ m = List.app (be32 x) (be32 y).
Proof. exact split64. Qed.
Print Assumptions C47_G1_strings.
(** ... and is accepted iff (x, y) satisfies the equation modulo P, reduced or
    not, or is (0, 0) or (0, 1), which mean infinity *)
Theorem C47_G1_Unmarshal : forall x y, (0 <= x < 2 ^ 256)%Z -> (0 <= y < 2 ^ 256)%Z ->
  match G1Unmarshal (List.app (be32 x) (be32 y)) with
  | Some c => g1_ok c /\ (if ((x =? 0) && ((y =? 0) || (y =? 1)))%Z then g1v c = None
              else ((y * y) mod bn_P = (x * x * x + 3) mod bn_P)%Z /\ g1v c = Some (x mod bn_P, y mod bn_P)%Z)
  | None => ((y * y) mod bn_P <> (x * x * x + 3) mod bn_P)%Z /\ ~ (x = 0 /\ (y = 0 \/ y = 1))%Z
  end.
Proof. exact g1_string. Qed.
Print Assumptions C47_G1_Unmarshal.
Theorem C47_G1_length : forall m, length m <> 64%nat -> G1Unmarshal m = None.
Proof. exact g1_len. Qed.
Print Assumptions C47_G1_length.
(** two different accepted strings can denote the same point *)
Theorem C47_G1_unreduced_refuted : exists m m' c c', m <> m' /\ G1Unmarshal m = Some c /\ G1Unmarshal m' = Some c' /\
  g1v c = g1v c' /\ g1v c <> None.
Proof. exact g1_unreduced. Qed.
Print Assumptions C47_G1_unreduced_refuted.

(** ** C48: encoding of G2 *)
Theorem C48_G2_Marshal : forall c, g2_ok c -> g2v c <> Inf -> exists n xx xy yx yy,
  [/\ (0 <= xx < bn_P)%Z, (0 <= xy < bn_P)%Z, (0 <= yx < bn_P)%Z & (0 <= yy < bn_P)%Z] /\
  g2v c = Aff (v2 (GfP2 xx xy)) (v2 (GfP2 yx yy)) /\
  G2Marshal c = (g2_bytes_of xx xy yx yy, n) /\ g2_ok n /\ g2v n = g2v c.
Proof. exact BNEnc.g2_marshal. Qed.
Print Assumptions C48_G2_Marshal.
(** the bytes of infinity are zeros; the object stops being infinity, and is
    not even on the curve *)
Theorem C48_G2_Marshal_infinity : forall c, g2_ok c -> g2v c = Inf ->
  fst (G2Marshal c) = g2_bytes_of 0 0 0 0 /\ g2v (snd (G2Marshal c)) <> Inf /\ ~ on_curve g2_b (g2v (snd (G2Marshal c))).
Proof. exact g2_marshal_infinity. Qed.
Print Assumptions C48_G2_Marshal_infinity.
Theorem C48_G2_roundtrip : forall c, g2_ok c ->
  exists c', G2Unmarshal (fst (G2Marshal c)) = Some c' /\ g2_ok c' /\ g2v c' = g2v c.
Proof. exact BNEnc.g2_roundtrip. Qed.
Print Assumptions C48_G2_roundtrip.
Theorem C48_G2_canonical : forall c d, g2_ok c -> g2_ok d ->
  (fst (G2Marshal c) = fst (G2Marshal d) <-> g2v c = g2v d).
Proof. exact BNEnc.g2_marshal_eq. Qed.
Print Assumptions C48_G2_canonical.
Theorem C48_G2_strings : forall m, Forall byte m -> length m = 128%nat -> exists a b c d,
  [/\ (0 <= a < 2 ^ 256)%Z, (0 <= b < 2 ^ 256)%Z, (0 <= c < 2 ^ 256)%Z & (0 <= d < 2 ^ 256)%Z] /\ m = g2_bytes_of a b c d.
Proof. exact split128. Qed.
Print Assumptions C48_G2_strings.
Theorem C48_G2_Unmarshal : forall a b c d,
  (0 <= a < 2 ^ 256)%Z -> (0 <= b < 2 ^ 256)%Z -> (0 <= c < 2 ^ 256)%Z -> (0 <= d < 2 ^ 256)%Z ->
  let x := v2 (GfP2 a b) in let y := v2 (GfP2 c d) in
  match G2Unmarshal (g2_bytes_of a b c d) with
  | Some q => g2_ok q /\ (if ((a =? 0) && (b =? 0) && (c =? 0) && (d =? 0))%Z then g2v q = Inf
              else y ^+ 2 = x ^+ 3 + g2_b /\ g2v q = Aff x y)
  | None => y ^+ 2 <> x ^+ 3 + g2_b /\ ~ (a = 0 /\ b = 0 /\ c = 0 /\ d = 0)%Z
  end.
Proof. exact g2_string. Qed.
Print Assumptions C48_G2_Unmarshal.
Theorem C48_G2_length : forall m, length m <> 128%nat -> G2Unmarshal m = None.
Proof. exact g2_len. Qed.
Print Assumptions C48_G2_length.

(** there is no subgroup check: a point of order 10069 is accepted *)
Theorem C48_G2_Unmarshal_subgroup_refuted : exists m c, G2Unmarshal m = Some c /\ g2_ok c /\ g2v c <> Inf /\
  ptmul 10069 (g2v c) = Inf /\ forall k, g2v c <> ptmul k g2_gen.
Proof. exact small_outside. Qed.
Print Assumptions C48_G2_Unmarshal_subgroup_refuted.

(** ** C49: encoding and exponentiation of GT *)
Theorem C49_GT_roundtrip : forall n, length (GTMarshal n) = 384%nat /\
  exists n', GTUnmarshal (GTMarshal n) = Some n' /\ v12 n' = v12 n.
Proof. exact gt_round. Qed.
Print Assumptions C49_GT_roundtrip.
Theorem C49_GT_canonical : forall a b, GTMarshal a = GTMarshal b <-> v12 a = v12 b.
Proof. exact BNEnc.gt_marshal_eq. Qed.
Print Assumptions C49_GT_canonical.
(** every string of 384 bytes is accepted, also those of no pairing value *)
Theorem C49_GT_Unmarshal_any : forall m, (exists e, GTUnmarshal m = Some e) <-> length m = 384%nat.
Proof. exact gt_any. Qed.
Print Assumptions C49_GT_Unmarshal_any.
Theorem C49_GT_IsZero_IsOne : forall a, GTIsZero a = (v12 a == 0) /\ GTIsOne a = (v12 a == 1).
Proof. exact gt_tests. Qed.
Print Assumptions C49_GT_IsZero_IsOne.
Theorem C49_GT_group : forall a b, v12 (GTAdd a b) = v12 a * v12 b /\ v12 (GTNeg a) = (v12 a)^-1 /\
  v12 (GTInvert a) = (v12 a)^-1.
Proof. exact gt_group. Qed.
Print Assumptions C49_GT_group.
Theorem C49_GT_ScalarMult : forall a k, ((0 <= k)%Z -> v12 (GTScalarMult a k) = v12 a ^+ Z.to_nat k) /\
  ((k < 0)%Z -> v12 (GTScalarMult a k) = v12 a ^+ Z.to_nat (2 ^ (Z.log2 (Z.abs k) + 1) + k)).
Proof. exact gt_smul. Qed.
Print Assumptions C49_GT_ScalarMult.
(** in particular the (-1)-st power is the identity map, not the inverse *)
Theorem C49_GT_ScalarMult_negative_refuted :
  (forall a, v12 (GTScalarMult a (-1)) = v12 a) /\ exists a, v12 (GTScalarMult a (-1)) <> (v12 a)^-1.
Proof. exact gt_smul_neg. Qed.
Print Assumptions C49_GT_ScalarMult_negative_refuted.
(** Exp returns the power (for negative k as well), written over its argument
    (first component); the receiver (second) is not assigned *)
Theorem C49_GT_Exp : forall e a k, snd (GTExp e a k) = e /\
  v12 (fst (GTExp e a k)) = (if (0 <=? k)%Z then v12 a ^+ Z.to_nat k else (v12 a ^+ Z.to_nat (- k))^-1).
Proof. exact gt_exp. Qed.
Print Assumptions C49_GT_Exp.

(** ** C50: infinity, PairingCheck *)
Theorem C50_Pair_infinity : forall p q, g1_ok p -> g2_ok q -> g1v p = None \/ g2v q = Inf ->
  PairBN p q = Ok gfP12_One.
Proof. exact pair_inf. Qed.
Print Assumptions C50_Pair_infinity.
Theorem C50_PairingCheck : forall a b, Forall g1_ok a -> Forall g2_ok b -> (length a <= length b)%coq_nat ->
  PairingCheck a b = Ok (fold_right (fun pq r => gt_val (PairBN (fst pq) (snd pq)) * r) 1 (combine a b) == 1).
Proof. exact pairing_check. Qed.
Print Assumptions C50_PairingCheck.
Theorem C50_PairingCheck_short_panics : forall a b, Forall g1_ok a -> Forall g2_ok b ->
  Exists (fun p => g1v p <> None) (skipn (length b) a) -> PairingCheck a b = Panic.
Proof. exact pairing_check_short. Qed.
Print Assumptions C50_PairingCheck_short_panics.
(** marshalling infinity changes what Pair returns for it, from 1 to 0 *)
Theorem C50_Pair_after_Marshal_refuted : forall p q, g1_ok p -> g1v p <> None -> g2_ok q -> g2v q = Inf ->
  PairBN p q = Ok gfP12_One /\ exists e, PairBN p (snd (G2Marshal q)) = Ok e /\ v12 e = 0.
Proof. exact pair_after_marshal. Qed.
Print Assumptions C50_Pair_after_Marshal_refuted.
Example C50_nonvacuous : g1_ok curveGen /\ g1v curveGen <> None /\ g2_ok G2SetInfinity /\ g2v G2SetInfinity = Inf /\
  Forall g1_ok [:: curveGen] /\ Forall g2_ok [:: twistGen] /\
  Exists (fun p => g1v p <> None) (skipn 0 [:: curveGen]).
Proof. exact pair_inf_hyps. Qed.

(** ** C51: the Miller loop *)
Theorem C51_digits : fold_right (fun d n => (d + 2 * n)%Z) 0%Z sixuPlus2NAF = (6 * bn_u + 2)%Z /\
  sixuPlus2NAF = List.app (rev miller_digits) [:: 1%Z] /\ digits_value miller_digits = (6 * bn_u + 2)%Z.
Proof. exact miller_scalar. Qed.
Print Assumptions C51_digits.
(** after the digits ds the running point is digits_value ds times Q *)
Theorem C51_running_point : forall q b ds tl, miller_digits = List.app ds tl ->
  g2_ok q -> tpz q = gfP2_One -> v2 (tpt q) = 1 -> ptmul bnOrder (g2v q) = Inf ->
  g2v (snd (miller_loop q (tp_Negative q) b (gfP2_Square (tpy q)) true ds (gfP12_One, q))) = ptmul (digits_value ds) (g2v q).
Proof. exact miller_run. Qed.
Print Assumptions C51_running_point.
Example C51_nonvacuous : g2_ok twistGen /\ tpz twistGen = gfP2_One /\ v2 (tpt twistGen) = 1 /\
  ptmul bnOrder (g2v twistGen) = Inf /\ (length miller_digits = 64)%nat.
Proof. exact miller_hyps. Qed.

(** ** C52: pairing with a negated G2 point *)
(** Neg leaves t = 0, and Pair uses t when z = 1: on the generator of G2 the
    result is not the inverse... *)
Theorem C52_Pair_Neg_refuted : exists p q e e', g1_ok p /\ g2_ok q /\ g2v q = g2_gen /\
  PairBN p q = Ok e /\ PairBN p (G2Neg q) = Ok e' /\ v12 e' <> (v12 e)^-1.
Proof. exact pair_neg_wrong. Qed.
Print Assumptions C52_Pair_Neg_refuted.
(** ... it is when the point is not affine, or after a round trip *)
Theorem C52_Pair_Neg_projective : forall p q k, g1_ok p -> g2_ok q -> g2v q = ptmul k g2_gen -> tpz q <> gfP2_One ->
  exists e e', PairBN p q = Ok e /\ PairBN p (G2Neg q) = Ok e' /\ v12 e' = (v12 e)^-1.
Proof. exact pair_neg_proj. Qed.
Print Assumptions C52_Pair_Neg_projective.
Theorem C52_Pair_Neg_after_encoding : forall p q k, g1_ok p -> g2_ok q -> g2v q = ptmul k g2_gen ->
  (tpz q = gfP2_One -> v2 (tpt q) = 1) ->
  exists q' e e', G2Unmarshal (fst (G2Marshal (G2Neg q))) = Some q' /\
  PairBN p q = Ok e /\ PairBN p q' = Ok e' /\ v12 e' = (v12 e)^-1.
Proof. exact pair_neg_enc. Qed.
Print Assumptions C52_Pair_Neg_after_encoding.
Example C52_nonvacuous : g1_ok curveGen /\ g2_ok (G2ScalarBaseMult 5) /\ g2v (G2ScalarBaseMult 5) = ptmul 5 g2_gen /\
  tpz (G2ScalarBaseMult 5) <> gfP2_One.
Proof. exact neg_hyps. Qed.

(** ** C59: Pair is the optimal ate pairing *)
Theorem C59_Pair_is_optimal_ate : forall p q k x y, g1_ok p -> g1v p = Some (x, y) -> g2_ok q ->
  g2v q = ptmul k g2_gen -> (k mod bnOrder <> 0)%Z -> (tpz q = gfP2_One -> v2 (tpt q) = 1) ->
  exists e, PairBN p q = Ok e /\ v12 e = optimal_ate miller_digits (lift1 x y) (untwist (g2v q)) /\
    v12 e ^+ Z.to_nat bnOrder = 1.
Proof. exact pair_optate. Qed.
Print Assumptions C59_Pair_is_optimal_ate.
(** in particular it does not depend on the representation of its arguments *)
Theorem C59_Pair_representation : forall p q p' q' k, g1_ok p -> g1_ok p' -> g2_ok q -> g2_ok q' ->
  g1v p = g1v p' -> g2v q = g2v q' -> g2v q = ptmul k g2_gen ->
  (tpz q = gfP2_One -> v2 (tpt q) = 1) -> (tpz q' = gfP2_One -> v2 (tpt q') = 1) ->
  exists e e', PairBN p q = Ok e /\ PairBN p' q' = Ok e' /\ v12 e = v12 e'.
Proof. exact pair_rep. Qed.
Print Assumptions C59_Pair_representation.

(** ** C60: Pair is bilinear *)
Theorem C60_Pair_additive_G1 : forall p1 p2 p3 q k, g1_ok p1 -> g1_ok p2 -> g1_ok p3 ->
  g1v p3 = zadd bn_P (g1v p1) (g1v p2) ->
  g2_ok q -> g2v q = ptmul k g2_gen -> (tpz q = gfP2_One -> v2 (tpt q) = 1) ->
  exists e1 e2 e3, PairBN p1 q = Ok e1 /\ PairBN p2 q = Ok e2 /\ PairBN p3 q = Ok e3 /\ v12 e3 = v12 e1 * v12 e2.
Proof. exact pair_add_G1. Qed.
Print Assumptions C60_Pair_additive_G1.
Theorem C60_Pair_additive_G2 : forall p q1 q2 q3 k1 k2, g1_ok p -> g2_ok q1 -> g2_ok q2 -> g2_ok q3 ->
  g2v q1 = ptmul k1 g2_gen -> g2v q2 = ptmul k2 g2_gen -> g2v q3 = pt_add (g2v q1) (g2v q2) ->
  (tpz q1 = gfP2_One -> v2 (tpt q1) = 1) -> (tpz q2 = gfP2_One -> v2 (tpt q2) = 1) ->
  (tpz q3 = gfP2_One -> v2 (tpt q3) = 1) ->
  exists e1 e2 e3, PairBN p q1 = Ok e1 /\ PairBN p q2 = Ok e2 /\ PairBN p q3 = Ok e3 /\ v12 e3 = v12 e1 * v12 e2.
Proof. exact pair_add_G2. Qed.
Print Assumptions C60_Pair_additive_G2.
Theorem C60_Pair_scalars : forall p q p' q' a b k, g1_ok p -> g1_ok p' -> g2_ok q -> g2_ok q' ->
  g1v p' = zmul bn_P a (g1v p) -> g2v q = ptmul k g2_gen -> g2v q' = ptmul b (g2v q) ->
  (tpz q = gfP2_One -> v2 (tpt q) = 1) -> (tpz q' = gfP2_One -> v2 (tpt q') = 1) ->
  exists e e', PairBN p q = Ok e /\ PairBN p' q' = Ok e' /\ v12 e' = v12 e ^+ Z.to_nat ((a * b) mod bnOrder).
Proof. exact pair_scal. Qed.
Print Assumptions C60_Pair_scalars.
(** the multiples of the generators, the second one after a round trip through
    its encoding *)
Theorem C60_Pair_base : forall e a b, (0 <= b)%Z -> exists q e0 e1, G2Unmarshal (fst (G2Marshal (G2ScalarBaseMult b))) = Some q /\
  PairBN curveGen twistGen = Ok e0 /\ PairBN (G1ScalarBaseMult e a) q = Ok e1 /\
  v12 e1 = v12 e0 ^+ Z.to_nat ((a * b) mod bnOrder).
Proof. exact pair_api. Qed.
Print Assumptions C60_Pair_base.
Example C60_nonvacuous : g1_ok curveGen /\ g2_ok twistGen /\ g2v twistGen = ptmul 1 g2_gen /\
  (tpz twistGen = gfP2_One -> v2 (tpt twistGen) = 1) /\ tpz twistGen = gfP2_One /\
  g1_ok (G1ScalarMult newCurvePoint curveGen 5) /\ g1v (G1ScalarMult newCurvePoint curveGen 5) = zmul bn_P 5 (g1v curveGen).
Proof. exact pair_bilin_hyps. Qed.

(** ** C61: Pair is not degenerate; the exact meaning of PairingCheck *)
Theorem C61_Pair_nondegenerate : forall p q k, g1_ok p -> g2_ok q -> g2v q = ptmul k g2_gen ->
  (tpz q = gfP2_One -> v2 (tpt q) = 1) ->
  exists e, PairBN p q = Ok e /\ (GTIsOne e = true <-> g1v p = None \/ g2v q = Inf).
Proof. exact pair_nondegenerate. Qed.
Print Assumptions C61_Pair_nondegenerate.
Theorem C61_Pair_equal : forall p q p' q' x y x' y',
  g1_ok p -> g1v p = zmul bn_P x g1_gen -> g1_ok p' -> g1v p' = zmul bn_P x' g1_gen ->
  g2_ok q -> g2v q = ptmul y g2_gen -> (tpz q = gfP2_One -> v2 (tpt q) = 1) ->
  g2_ok q' -> g2v q' = ptmul y' g2_gen -> (tpz q' = gfP2_One -> v2 (tpt q') = 1) ->
  exists e e', PairBN p q = Ok e /\ PairBN p' q' = Ok e' /\
    (GTMarshal e = GTMarshal e' <-> ((x * y) mod bnOrder = (x' * y') mod bnOrder)%Z).
Proof. exact pair_same. Qed.
Print Assumptions C61_Pair_equal.
(** PairingCheck([x1 G1, ...], [y1 G2, ...]) is true exactly if x1 y1 + ... = 0 *)
Theorem C61_PairingCheck : forall ps qs xs ys,
  Forall2 (fun p x => g1_ok p /\ g1v p = zmul bn_P x g1_gen) ps xs ->
  Forall2 (fun q y => g2_ok q /\ g2v q = ptmul y g2_gen /\ (tpz q = gfP2_One -> v2 (tpt q) = 1)) qs ys ->
  (length ps <= length qs)%coq_nat ->
  PairingCheck ps qs = Ok ((fold_right Z.add 0 (List.map (fun xy => fst xy * snd xy) (combine xs ys))) mod bnOrder =? 0)%Z.
Proof. exact pairing_check_exact. Qed.
Print Assumptions C61_PairingCheck.
(** 6 * 1 + (-2) * 3 = 0 and 6 * 1 + 1 * 3 <> 0 *)
Example C61_nonvacuous : forall e, exists q1 q3, G2Unmarshal (fst (G2Marshal (G2ScalarBaseMult 1))) = Some q1 /\
  G2Unmarshal (fst (G2Marshal (G2ScalarBaseMult 3))) = Some q3 /\
  PairingCheck [:: G1ScalarBaseMult e 6; G1ScalarBaseMult e (-2)] [:: q1; q3] = Ok true /\
  PairingCheck [:: G1ScalarBaseMult e 6; G1ScalarBaseMult e 1] [:: q1; q3] = Ok false.
Proof. exact check_example. Qed.
