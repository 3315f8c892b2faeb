(** * The statements of [PropBN], assembled from the lemmas of the BN files *)
From Coq Require Import ZArith Znumtheory Lia Bool List Ring_theory Field_theory.
From mathcomp Require Import all_ssreflect all_algebra.
From Verif Require Import Base BaseFacts Fp ZMod SpecCurve ZField MCRing EC ECGroup PtGroup Jac FieldExt BB BN256 BNTower BNField ZExp BNFrob BNFinal SpecBN BNG1 BNGroup BNG2 BNGroup2 BNBytes BNEnc BNAlias SpecPair PtMap BNLine BNEigen BNMiller BNPair PrimesBN CertXi BNOrder2 CertSmall.
Set Implicit Arguments.
Unset Strict Implicit.
Unset Printing Implicit Defensive.
Import GRing.Theory.
Delimit Scope Z_scope with Z.
Local Open Scope ring_scope.

(** ** C39 *)
Lemma bn_parameters :
  (Znumtheory.prime bn_P /\ Znumtheory.prime bnOrder /\
   bn_P = 36 * bn_u ^ 4 + 36 * bn_u ^ 3 + 24 * bn_u ^ 2 + 6 * bn_u + 1 /\
   bnOrder = 36 * bn_u ^ 4 + 36 * bn_u ^ 3 + 18 * bn_u ^ 2 + 6 * bn_u + 1)%Z.
Proof. split; first exact: bnP_prime. split; first exact: bnN_prime. by split; vm_compute. Qed.
Lemma g1_on_gen : zon bn_P 3 g1_gen.
Proof. have [[o _] E] := g1_gen_ok. by rewrite -E. Qed.
Lemma bn_generators :
  g1v curveGen = g1_gen /\ zon bn_P 3 g1_gen /\ zmul bn_P bnOrder g1_gen = None /\ g1_gen <> None /\
  on_curve g2_b g2_gen /\ ptmul bnOrder g2_gen = Inf /\ g2_gen <> Inf.
Proof.
split; first exact: (proj2 g1_gen_ok). split; first exact: g1_on_gen. split; first exact: bn_order g1_on_gen.
split; first by []. split; first exact: g2_gen_on. split; first exact: g2_gen_order. exact: g2_gen_neq0.
Qed.
Definition x6 : Z := Zpos xi_exp.
Lemma x6_pos : (0 <= x6)%Z. Proof. by []. Qed.
Lemma x6_1 : ((bn_P - 1) / 6 = x6)%Z. Proof. by vm_compute. Qed.
Lemma x6_2 : ((bn_P - 1) / 3 = 2 * x6)%Z. Proof. by vm_compute. Qed.
Lemma x6_3 : ((bn_P - 1) / 2 = 3 * x6)%Z. Proof. by vm_compute. Qed.
Lemma x6_4 : (2 * (bn_P - 1) / 3 = 4 * x6)%Z. Proof. by vm_compute. Qed.
Lemma x6_p1 : ((bn_P ^ 2 - 1) / 6 = x6 * bn_P + x6)%Z. Proof. by vm_compute. Qed.
Lemma x6_p2 : ((bn_P ^ 2 - 1) / 3 = 2 * x6 * bn_P + 2 * x6)%Z. Proof. by vm_compute. Qed.
Lemma x6_p4 : (2 * (bn_P ^ 2 - 1) / 3 = 4 * x6 * bn_P + 4 * x6)%Z. Proof. by vm_compute. Qed.
Lemma pos_nat p : Z.to_nat (Zpos p) = Pos.to_nat p. Proof. reflexivity. Qed.
Local Opaque xi_exp Pos.to_nat.
Lemma x6_n : Z.to_nat x6 = xn. Proof. unfold x6. rewrite xn_def. unfold xe. rewrite pos_nat. reflexivity. Qed.
Local Opaque x6 bn_P bnOrder mk2 mk6 mk12.
Lemma x6_kn k : (0 <= k)%Z -> Z.to_nat (k * x6) = (Z.to_nat k * xn)%N.
Proof. move=> k0. by rewrite Z2Nat.inj_mul ?x6_n. Qed.
Lemma x6_pn k : (0 <= k)%Z -> Z.to_nat (k * x6 * bn_P + k * x6) = (Z.to_nat k * xn * pn + Z.to_nat k * xn)%N.
Proof.
move=> k0. have A := x6_pos. have B := Z.lt_le_incl _ _ bnP_pos. have C := Z.mul_nonneg_nonneg _ _ k0 A.
rewrite (Z2Nat.inj_add _ _ (Z.mul_nonneg_nonneg _ _ C B) C) (Z2Nat.inj_mul _ _ C B) (x6_kn k0) -pn_def. reflexivity.
Qed.
Lemma frobenius_constants :
  v2 xiToPMinus1Over6 = v2 (GfP2 1 9) ^+ Z.to_nat ((bn_P - 1) / 6) /\
  v2 xiToPMinus1Over3 = v2 (GfP2 1 9) ^+ Z.to_nat ((bn_P - 1) / 3) /\
  v2 xiToPMinus1Over2 = v2 (GfP2 1 9) ^+ Z.to_nat ((bn_P - 1) / 2) /\
  v2 xiTo2PMinus2Over3 = v2 (GfP2 1 9) ^+ Z.to_nat (2 * (bn_P - 1) / 3) /\
  v2 (GfP2 0 xiToPSquaredMinus1Over6) = v2 (GfP2 1 9) ^+ Z.to_nat ((bn_P ^ 2 - 1) / 6) /\
  v2 (GfP2 0 xiToPSquaredMinus1Over3) = v2 (GfP2 1 9) ^+ Z.to_nat ((bn_P ^ 2 - 1) / 3) /\
  v2 (GfP2 0 xiTo2PSquaredMinus2Over3) = v2 (GfP2 1 9) ^+ Z.to_nat (2 * (bn_P ^ 2 - 1) / 3).
Proof.
rewrite -/xi2 x6_1 x6_2 x6_3 x6_4 x6_p1 x6_p2 x6_p4.
have -> : (x6 * bn_P + x6 = 1 * x6 * bn_P + 1 * x6)%Z by rewrite Z.mul_1_l.
rewrite !x6_kn; try (apply/Z.leb_le; reflexivity). rewrite !x6_pn; try (apply/Z.leb_le; reflexivity).
rewrite x6_n xi_c1 xi_c2 xi_c3 xi_c4.
have V k : v2 (GfP2 0 k) = e2 (ph k) by rewrite v2E /= ph0.
have X n : xi2 ^+ (n * xn * pn + n * xn) = e2 (ph n6 ^+ n) by rewrite exprD exprM xi_pp_n.
have X1 := X 1%N. rewrite expr1 in X1.
rewrite !V s6_n6 s3_n6 s4_n6.
split; first reflexivity. split; first reflexivity. split; first reflexivity. split; first reflexivity.
split; first exact: esym X1. split; first exact: (esym (X 2%N)). exact: (esym (X 4%N)).
Qed.

(** ** C40, C41 *)
Lemma v2_scalar k : v2 (GfP2 0 k) = e2 (ph k). Proof. by rewrite v2E /= ph0. Qed.
Lemma v2_imag : v2 (GfP2 1 0) = i2. Proof. by rewrite v2E /= ph0 ph1. Qed.
Lemma gfP2_field : (forall x : K2, exists a, v2 a = x /\ (0 <= c2x a < bn_P)%Z /\ (0 <= c2y a < bn_P)%Z) /\
  (forall a b, v2 a = v2 b <-> (c2x a mod bn_P = c2x b mod bn_P)%Z /\ (c2y a mod bn_P = c2y b mod bn_P)%Z) /\
  (forall x y, v2 (GfP2 x y) = v2 (GfP2 0 x) * v2 (GfP2 1 0) + v2 (GfP2 0 y)) /\
  v2 (GfP2 1 0) ^+ 2 = -1 /\ v2 (GfP2 0 1) = 1 /\
  (forall x y, v2 (GfP2 0 (x + y)%Z) = v2 (GfP2 0 x) + v2 (GfP2 0 y)) /\
  (forall x y, v2 (GfP2 0 (x * y)%Z) = v2 (GfP2 0 x) * v2 (GfP2 0 y)).
Proof.
split; first exact: v2_surj. split; first exact: v2_inj.
split; first by move=> x y; rewrite !v2_scalar v2_imag v2E mk2_dec.
split; first by rewrite v2_imag i2_2. split; first exact: v2_One.
split; first by move=> x y; rewrite !v2_scalar phD e2D.
by move=> x y; rewrite !v2_scalar phM e2M.
Qed.
Lemma gfP2_arith a b k : v2 (gfP2_Add a b) = v2 a + v2 b /\ v2 (gfP2_Sub a b) = v2 a - v2 b /\
  v2 (gfP2_Double a) = v2 a + v2 a /\ v2 (gfP2_Negative a) = - v2 a /\
  v2 (gfP2_Mul a b) = v2 a * v2 b /\ v2 (gfP2_Square a) = v2 a ^+ 2 /\
  v2 (gfP2_MulScalar a k) = v2 a * v2 (GfP2 0 k) /\ v2 (gfP2_MulXi a) = v2 (GfP2 1 9) * v2 a /\
  v2 (gfP2_Conjugate a) = v2 a ^+ Z.to_nat bn_P /\ v2 (gfP2_Minimal a) = v2 a.
Proof.
rewrite v2_Add v2_Sub v2_Double v2_Negative v2_Mul v2_Square v2_Scal v2_MulXi v2_Conjugate v2_Minimal v2_scalar expr2 pn_def.
do !(split; first reflexivity). reflexivity.
Qed.
Lemma gfP2_inv s a : v2 (gfP2_InvertStale s a) = (v2 a)^-1 /\ v2 (gfP2_Invert a) = (v2 a)^-1.
Proof. split; [exact: v2_InvertStale|exact: v2_Invert]. Qed.
Lemma v6_surj (x : K6) : exists a, v6 a = x.
Proof.
have [a [b [c ->]]] := mk6_eta x. have [a' [Ea _]] := v2_surj a. have [b' [Eb _]] := v2_surj b. have [c' [Ec _]] := v2_surj c.
exists (GfP6 a' b' c'). by rewrite v6E /= Ea Eb Ec.
Qed.
Lemma v12_surj (x : K12) : exists a, v12 a = x.
Proof.
have [a [b ->]] := mk12_eta x. have [a' Ea] := v6_surj a. have [b' Eb] := v6_surj b.
exists (GfP12 a' b'). by rewrite v12E /= Ea Eb.
Qed.
Lemma gfP6_field : (forall x : K6, exists a, v6 a = x) /\
  (forall a b, v6 a = v6 b <-> v2 (c6x a) = v2 (c6x b) /\ v2 (c6y a) = v2 (c6y b) /\ v2 (c6z a) = v2 (c6z b)) /\
  (forall a, v6 a = e6 (v2 (c6x a)) * tau6 ^+ 2 + e6 (v2 (c6y a)) * tau6 + e6 (v2 (c6z a))) /\
  tau6 ^+ 3 = e6 (v2 (GfP2 1 9)) /\ e6 1 = 1 /\
  (forall x y, e6 (x + y) = e6 x + e6 y) /\ (forall x y, e6 (x * y) = e6 x * e6 y).
Proof.
split; first exact: v6_surj.
split; first by move=> a b; split=> [/v6_inj [] //|[H1 [H2 H3]]]; apply/v6_inj.
split; first by move=> a; rewrite v6E mk6_dec.
split; first exact: tau_3. split; first exact: e6_1. split; [exact: e6D|exact: e6M].
Qed.
Lemma gfP12_field : (forall x : K12, exists a, v12 a = x) /\
  (forall a b, v12 a = v12 b <-> v6 (c12x a) = v6 (c12x b) /\ v6 (c12y a) = v6 (c12y b)) /\
  (forall a, v12 a = e12 (v6 (c12x a)) * om12 + e12 (v6 (c12y a))) /\
  om12 ^+ 2 = e12 tau6 /\ e12 1 = 1 /\
  (forall x y, e12 (x + y) = e12 x + e12 y) /\ (forall x y, e12 (x * y) = e12 x * e12 y).
Proof.
split; first exact: v12_surj. split; first exact: v12_inj.
split; first by move=> a; rewrite v12E mk12_dec.
split; first exact: om_2. split; first exact: e12_1. split; [exact: e12D|exact: e12M].
Qed.
Lemma gfP6_arith a b k s : v6 (gfP6_Add a b) = v6 a + v6 b /\ v6 (gfP6_Sub a b) = v6 a - v6 b /\
  v6 (gfP6_Double a) = v6 a + v6 a /\ v6 (gfP6_Negative a) = - v6 a /\
  v6 (gfP6_Mul a b) = v6 a * v6 b /\ v6 (gfP6_Square a) = v6 a ^+ 2 /\
  v6 (gfP6_MulScalar a k) = v6 a * e6 (v2 k) /\ v6 (gfP6_MulGFP a s) = v6 a * e6 (v2 (GfP2 0 s)) /\
  v6 (gfP6_MulTau a) = tau6 * v6 a /\ v6 (gfP6_Invert a) = (v6 a)^-1.
Proof.
rewrite v6_Add v6_Sub v6_Double v6_Negative v6_Mul v6_Square v6_MulScalar v6_MulGFP v6_MulTau v6_Invert v2_scalar expr2.
do !(split; first reflexivity). reflexivity.
Qed.
Lemma gfP12_arith a b : v12 (gfP12_Add a b) = v12 a + v12 b /\ v12 (gfP12_Sub a b) = v12 a - v12 b /\
  v12 (gfP12_Negative a) = - v12 a /\
  v12 (gfP12_Mul a b) = v12 a * v12 b /\ v12 (gfP12_Square a) = v12 a ^+ 2 /\
  v12 (gfP12_Invert a) = (v12 a)^-1.
Proof.
rewrite v12_Add v12_Sub v12_Negative v12_Mul v12_Square v12_Invert expr2.
do !(split; first reflexivity). reflexivity.
Qed.
Lemma gf_exp a b k : (0 <= k)%Z -> v2 (gfP2_Exp a k) = v2 a ^+ Z.to_nat k /\ v12 (gfP12_Exp b k) = v12 b ^+ Z.to_nat k.
Proof. move=> k0. split; [exact: v2_Exp|exact: v12_Exp]. Qed.
(** ** C42 *)
Lemma frobenius_maps a : v12 (gfP12_Frobenius a) = v12 a ^+ Z.to_nat bn_P /\
  v12 (gfP12_FrobeniusP2 a) = v12 a ^+ (Z.to_nat bn_P ^ 2) /\
  v12 (gfP12_Conjugate a) = v12 a ^+ (Z.to_nat bn_P ^ 6).
Proof.
rewrite -pn_def !expnS expn0 muln1 !exprM. split; first exact: v12_Frobenius. split; first exact: v12_FrobeniusP2.
exact: v12_Conjugate.
Qed.
(** ** C43 *)
Local Opaque v2 v6 v12 final_exp ptmul.
Lemma fe_def' : final_exp = ((bn_P ^ 12 - 1) / bnOrder)%Z. Proof. exact: fe_def. Qed.
Lemma final_exponentiation f : v12 (finalExponentiation f) = v12 f ^+ Z.to_nat ((bn_P ^ 12 - 1) / bnOrder) /\
  (v12 f <> 0 -> v12 (finalExponentiation f) ^+ Z.to_nat bnOrder = 1).
Proof.
split; first by rewrite -fe_def'; exact: FE_exp. move=> /eqP. exact: FE_order.
Qed.
Lemma final_mul f g : v12 (finalExponentiation (gfP12_Mul f g)) = v12 (finalExponentiation f) * v12 (finalExponentiation g).
Proof. exact: FE_mul. Qed.
Lemma pair_order p q k : g1_ok p -> g2_ok q -> g2v q = ptmul k g2_gen -> (tpz q = gfP2_One -> v2 (tpt q) = 1) ->
  exists e, PairBN p q = Ok e /\ v12 e ^+ Z.to_nat bnOrder = 1.
Proof.
move=> okp okq Ek T. case P : (g1v p) => [[x y]|]; last first.
  exists gfP12_One. split; first by apply: pair_inf => //; left. rewrite v12_One expr1n. reflexivity.
case: (Z.eq_dec (k mod bnOrder) 0) => K.
  have I : g2v q = Inf.
    rewrite Ek -(@ptmul_modr c2 _ k g2_gen_on g2_gen_order) K. reflexivity.
  exists gfP12_One. split; first by apply: pair_inf => //; right. rewrite v12_One expr1n. reflexivity.
have [e [E1 [_ E3]]] := pair_optate okp P okq Ek K T. exists e. split; [exact: E1|exact: E3].
Qed.
(** ** C45 *)
Lemma g1_alias_gen : g1v (G1AddTo curveGen curveGen) <> zadd bn_P (g1v curveGen) (g1v curveGen).
Proof. by vm_compute. Qed.
Lemma aff_val c : gfP2_IsOne (tpz c) = false -> v2 (tpz c) != 0 ->
  g2v (tp_MakeAffine c) = g2v c /\ tpz (tp_MakeAffine c) = gfP2_One.
Proof.
move=> I z1. rewrite /tp_MakeAffine I. split; last reflexivity.
rewrite g2v_one g2vE /jpt (negbTE z1) !v2ops v2_Invert. congr Aff; rewrite !exprS expr0 mulr1 !invfM.
  reflexivity. by rewrite !mulrA.
Qed.
Lemma off_curve c : gfP2_IsOne (tpz c) = false -> gfP2_IsZero (gfP2_Minimal (tpz c)) = false ->
  tp_IsOnCurve (tp_MakeAffine c) = false -> ~ on_curve g2_b (g2v c).
Proof.
move=> I. rewrite min2_zero => /negbT Z0 O. have [E Z1] := aff_val I Z0.
rewrite tIsOnCurve_ok in O. rewrite -E => H. move: Z1 O H. case: (tp_MakeAffine c) => x y z t /= -> O.
rewrite g2v_one /on_curve. by rewrite O.
Qed.
Lemma g2_alias_chk : gfP2_IsOne (tpz (tp_AddTo twistGen twistGen)) = false /\
  gfP2_IsZero (gfP2_Minimal (tpz (tp_AddTo twistGen twistGen))) = false /\
  tp_IsOnCurve (tp_MakeAffine (tp_AddTo twistGen twistGen)) = false.
Proof. by vm_compute. Qed.
Lemma g2_alias_gen : g2v (G2AddTo twistGen twistGen) <> pt_add (g2v twistGen) (g2v twistGen).
Proof.
have [A [B C]] := g2_alias_chk. have := off_curve A B C. rewrite /G2AddTo. set u := tp_AddTo _ _ => N E.
apply: N. rewrite E. exact: g2on_add g2_gen_on g2_gen_on.
Qed.
(** ** C47 *)
Lemma two_be x y : (0 <= x < 2 ^ 256)%Z -> (0 <= y < 2 ^ 256)%Z ->
    let m := List.app (be32 x) (be32 y) in
    [/\ length m = 64%nat, bytes_ok m, SetBytes (slice32 0 m) = x & SetBytes (slice32 1 m) = y].
Proof.
  move=> Rx Ry. have F : Forall (fun b : list Z => length b = 32%nat) [:: be 32 x; be 32 y].
    by do !constructor; rewrite be_length.
  move=> m.
  have C : m = concat [:: be 32 x; be 32 y] by rewrite /m !be32E /concat List.app_nil_r.
  split; first by rewrite C concat_len.
  - rewrite /m !be32E. apply/Forall_app; split; exact: be_ok.
  - rewrite C slice_app; [exact: be32_val|exact: F|rewrite /length; lia].
  - rewrite C slice_app; [exact: be32_val|exact: F|rewrite /length; lia].
Qed.
Lemma g1_string x y : (0 <= x < 2 ^ 256)%Z -> (0 <= y < 2 ^ 256)%Z ->
  match G1Unmarshal (List.app (be32 x) (be32 y)) with
  | Some c => g1_ok c /\ (if ((x =? 0) && ((y =? 0) || (y =? 1)))%Z then g1v c = None
              else ((y * y) mod bn_P = (x * x * x + 3) mod bn_P)%Z /\ g1v c = Some (x mod bn_P, y mod bn_P)%Z)
  | None => ((y * y) mod bn_P <> (x * x * x + 3) mod bn_P)%Z /\ ~ (x = 0 /\ (y = 0 \/ y = 1))%Z
  end.
Proof.
move=> Rx Ry. have [L B X Y] := two_be Rx Ry. move: (g1_unmarshal B). rewrite X Y.
case: G1Unmarshal => [c|].
  by move=> [_ [O V]]; split.
move=> [//|[I N]]. split; first exact: N. move=> [x0 y0]. move: I. rewrite /g1_inf_enc x0. by case: y0 => ->.
Qed.
Lemma bytes32 l : bytes_ok l -> length l = 32%nat -> (0 <= SetBytes l < 2 ^ 256)%Z /\ l = be32 (SetBytes l).
Proof.
move=> B L. have R := val_bound 256 l ltac:(lia) B. rewrite L pow256_32 in R. split; first exact: R.
rewrite be32E. apply: (val_inj 256); [lia|exact: B|exact: be_ok|by rewrite be_length|].
rewrite be_val; last (case: R => R _; exact: R). rewrite pow256_32 Z.mod_small; [reflexivity|exact: R].
Qed.
Lemma cut32 n m : bytes_ok m -> length m = Nat.add 32 n -> exists x m', (0 <= x < 2 ^ 256)%Z /\ m = List.app (be32 x) m' /\ bytes_ok m' /\ length m' = n.
Proof.
move=> B L. have E := firstn_skipn 32 m. exists (SetBytes (firstn 32 m)), (skipn 32 m).
have Bf : bytes_ok (firstn 32 m) by apply/Forall_forall => x Hx; move/Forall_forall: B; apply; exact: in_firstn Hx.
have Bs : bytes_ok (skipn 32 m) by apply/Forall_forall => x Hx; move/Forall_forall: B; apply; exact: in_skipn Hx.
have Lf : length (firstn 32 m) = 32%nat by rewrite List.firstn_length L; lia.
have [R F] := bytes32 Bf Lf. split; first exact: R. split; first by rewrite -F E.
split; first exact: Bs. rewrite List.skipn_length L. lia.
Qed.
Lemma split64 m : bytes_ok m -> length m = 64%nat ->
  exists x y, (0 <= x < 2 ^ 256)%Z /\ (0 <= y < 2 ^ 256)%Z /\ m = List.app (be32 x) (be32 y).
Proof.
move=> B L. have [x [m1 [Rx [-> [B1 L1]]]]] := @cut32 32 m B L.
have [y [m2 [Ry [-> [_ L2]]]]] := @cut32 0 m1 B1 L1. case: m2 L2 => // _. exists x, y. by rewrite List.app_nil_r.
Qed.
Lemma split128 m : bytes_ok m -> length m = 128%nat ->
  exists a b c d, [/\ (0 <= a < 2 ^ 256)%Z, (0 <= b < 2 ^ 256)%Z, (0 <= c < 2 ^ 256)%Z & (0 <= d < 2 ^ 256)%Z] /\ m = g2_bytes_of a b c d.
Proof.
move=> B L. have [x [m1 [Rx [-> [B1 L1]]]]] := @cut32 96 m B L.
have [y [m2 [Ry [-> [B2 L2]]]]] := @cut32 64 m1 B1 L1.
have [z [m3 [Rz [-> [B3 L3]]]]] := @cut32 32 m2 B2 L2.
have [w [m4 [Rw [-> [_ L4]]]]] := @cut32 0 m3 B3 L3. case: m4 L4 => // _. exists x, y, z, w.
split; first by split. by rewrite List.app_nil_r /g2_bytes_of.
Qed.
Lemma g1_len m : length m <> 64%nat -> G1Unmarshal m = None.
Proof. rewrite /G1Unmarshal. by case: Nat.eqb_spec. Qed.
(** ** C48 *)
Lemma g2_len m : length m <> 128%nat -> G2Unmarshal m = None.
Proof. rewrite /G2Unmarshal. by case: Nat.eqb_spec. Qed.
Lemma g2_string a b c d : (0 <= a < 2 ^ 256)%Z -> (0 <= b < 2 ^ 256)%Z -> (0 <= c < 2 ^ 256)%Z -> (0 <= d < 2 ^ 256)%Z ->
  let x := v2 (GfP2 a b) in let y := v2 (GfP2 c d) in
  match G2Unmarshal (g2_bytes_of a b c d) with
  | Some q => g2_ok q /\ (if ((a =? 0) && (b =? 0) && (c =? 0) && (d =? 0))%Z then g2v q = Inf
              else y ^+ 2 = x ^+ 3 + g2_b /\ g2v q = Aff x y)
  | None => y ^+ 2 <> x ^+ 3 + g2_b /\ ~ (a = 0 /\ b = 0 /\ c = 0 /\ d = 0)%Z
  end.
Proof.
move=> A B C D. have [L [X0 X1 X2 X3]] := g2_bytes_co A B C D.
have := g2_unmarshal (g2_bytes_of a b c d). cbv zeta. rewrite /zero4 X0 X1 X2 X3.
case: G2Unmarshal => [q|].
  by move=> [_ [O V]]; split.
move=> [//|[I N]]. split; first exact: N. move=> [a0 [b0 [c0 d0]]]. move: I. by rewrite a0 b0 c0 d0.
Qed.
(** ** C49 *)
Lemma two_lenE k : (k <> 0)%Z -> two_len k = (2 ^ (Z.log2 (Z.abs k) + 1))%Z.
Proof.
move=> k0. rewrite /two_len Z2Nat.id; last first.
  rewrite /BitLen. case: Z.eqb_spec => // _. have := Z.log2_nonneg (Z.abs k). lia.
rewrite /BitLen. by case: Z.eqb_spec.
Qed.
Lemma gt_smul a k : ((0 <= k)%Z -> v12 (GTScalarMult a k) = v12 a ^+ Z.to_nat k) /\
  ((k < 0)%Z -> v12 (GTScalarMult a k) = v12 a ^+ Z.to_nat (2 ^ (Z.log2 (Z.abs k) + 1) + k)).
Proof.
split=> H; first exact: v12_Exp.
rewrite /GTScalarMult v12_Exp_mod two_lenE; last lia. congr (_ ^+ _). congr Z.to_nat.
have [L1 L2] := Z.log2_spec (Z.abs k) ltac:(lia).
rewrite -Z.add_1_r in L2. rewrite -(Z_mod_plus_full k 1) Z.mod_small.
  lia.
lia.
Qed.
Lemma gt_exp e a k : snd (GTExp e a k) = e /\
  v12 (fst (GTExp e a k)) = (if (0 <=? k)%Z then v12 a ^+ Z.to_nat k else (v12 a ^+ Z.to_nat (- k))^-1).
Proof.
rewrite /GTExp. case: Z.leb_spec => H; (split; first reflexivity); cbn [fst].
  exact: v12_Exp.
rewrite /GTInvert v12_Invert /GTScalarMult v12_Exp; last lia.
have -> : Z.abs k = (- k)%Z by lia. reflexivity.
Qed.
(** ** C51 *)
Lemma snd_dbl r b b' : snd (lineFunctionDouble r b) = snd (lineFunctionDouble r b'). Proof. reflexivity. Qed.
Lemma snd_add r p b b' r2 : snd (lineFunctionAdd r p b r2) = snd (lineFunctionAdd r p b' r2). Proof. reflexivity. Qed.
Lemma snd_loop a m b b' r2 ds : forall f f' st st', snd st = snd st' ->
  snd (miller_loop a m b r2 f ds st) = snd (miller_loop a m b' r2 f' ds st').
Proof.
elim: ds => [|d ds IH] f f' [e r] [e' r']; cbn [snd] => ->; first reflexivity.
unfold miller_loop; fold miller_loop. have := snd_dbl r' b b'. case: (lineFunctionDouble r' b) => l n. case: (lineFunctionDouble r' b') => l' n'. cbn [snd] => ->.
apply: IH. rewrite /miller_add. case: (d =? 1)%Z.
  have := snd_add n' a b b' r2. case: (lineFunctionAdd n' a b r2) => ? ?. by case: (lineFunctionAdd n' a b' r2).
case: (d =? -1)%Z; last reflexivity.
have := snd_add n' m b b' r2. case: (lineFunctionAdd n' m b r2) => ? ?. by case: (lineFunctionAdd n' m b' r2).
Qed.
Lemma digits_ok_app ds tl : forall n, digits_ok n (List.app ds tl) = true -> digits_ok n ds = true.
Proof.
elim: ds => [//|d ds IH] n /= /andP [A B]. by rewrite A IH.
Qed.
Local Opaque miller_digits in12_2 om12 untwist.
Lemma miller_run q b ds tl : miller_digits = List.app ds tl -> g2_ok q -> tpz q = gfP2_One -> v2 (tpt q) = 1 ->
  ptmul bnOrder (g2v q) = Inf ->
  g2v (snd (miller_loop q (tp_Negative q) b (gfP2_Square (tpy q)) true ds (gfP12_One, q))) = ptmul (digits_value ds) (g2v q).
Proof.
move=> E ok Z1 T1 O. pose b1 := CurvePoint 0 1 1 1.
have QA : Aff (v2 (tpx q)) (v2 (tpy q)) = g2v q.
  case: (q) Z1 => a1 a2 a3 a4 /= ->. rewrite g2v_one. reflexivity.
have oQ : on_curve g2_b (Aff (v2 (tpx q)) (v2 (tpy q))) by rewrite QA; exact: (proj1 ok).
have rQ : ptmul bnOrder (Aff (v2 (tpx q)) (v2 (tpy q))) = Inf by rewrite QA.
have yb : ph (cpy b1) != 0 by rewrite /= ph1 oner_eq0.
have D : digits_ok 1 ds = true by apply: (@digits_ok_app ds tl); rewrite -E; exact: miller_digits_ok.
have N1 : (1 mod bnOrder <> 0)%Z by [].
have I0 : minv q 1 (gfP12_One, q) (1, untwist (Aff (v2 (tpx q)) (v2 (tpy q)))).
  have zA : v2 (tpz q) = 1 by rewrite Z1 v2_One.
  split.
  - rewrite (@ptmul1 c2) QA. reflexivity.
  - cbn [snd]. rewrite zA T1 mulr1. reflexivity.
  - rewrite (@ptmul1 c2). reflexivity.
  - exact: N1.
  exists 1. split; first exact: oner_neq0. cbn [fst]. rewrite v12_One i12_1 mulr1. split; [reflexivity|exact: oner_neq0].
rewrite (@snd_loop _ _ b b1 _ _ true true (gfP12_One, q) (gfP12_One, q) erefl).
have M := @run_loop q b1 oQ rQ yb ds 1%Z true gfP12_One q _ D I0 (fun _ => erefl).
destruct M as [H _ _ _ _]. rewrite -QA. exact: H.
Qed.
Local Transparent bnOrder bn_P.
Lemma miller_scalar : fold_right (fun d n => (d + 2 * n)%Z) 0%Z sixuPlus2NAF = (6 * bn_u + 2)%Z /\
  sixuPlus2NAF = List.app (rev miller_digits) [:: 1%Z] /\ digits_value miller_digits = (6 * bn_u + 2)%Z.
Proof. by vm_compute. Qed.
(** ** remaining statements and examples *)
Local Opaque bnOrder bn_P.
Lemma pair_gen_hyps : g1_ok curveGen /\ g2_ok twistGen /\ g2v twistGen = ptmul 1 g2_gen /\
  (tpz twistGen = gfP2_One -> v2 (tpt twistGen) = 1).
Proof.
split; first exact: (proj1 g1_gen_ok). split; first exact: g2_gen_ok. split; first by rewrite (@ptmul1 c2).
move=> _. exact: v2_One.
Qed.
Lemma g1_infinity : g1_ok G1SetInfinity /\ g1v G1SetInfinity = None /\
  forall a, g1_ok a -> (G1IsZero a = true <-> g1v a = None).
Proof.
have [A B] := g1_inf_ok newCurvePoint. split; first exact: A. split; first exact: B. move=> a ok.
have [I _] := @fin_inf a twistGen ok g2_gen_ok. rewrite /G1IsZero I. by case: (g1v a).
Qed.
Lemma g1_cyclic a : g1_ok a -> zmul bn_P bnOrder (g1v a) = None /\
  exists k, (0 <= k < bnOrder)%Z /\ g1v a = zmul bn_P k g1_gen.
Proof. move=> [o _]. split; [exact: bn_order|exact: bn_gen]. Qed.
Lemma g1_scalars k l : zmul bn_P k g1_gen = zmul bn_P l g1_gen <-> (k mod bnOrder = l mod bnOrder)%Z.
Proof. exact: bn_inj. Qed.
Local Transparent bn_P.
Lemma g1_two_chk : g1v curveGen <> g1v (G1Neg curveGen). Proof. by vm_compute. Qed.
Lemma g1_two : g1_ok curveGen /\ g1_ok (G1Neg curveGen) /\ g1v curveGen <> g1v (G1Neg curveGen).
Proof.
split; first exact: (proj1 g1_gen_ok). split; first exact: (proj1 (g1_neg_ok (proj1 g1_gen_ok))). exact: g1_two_chk.
Qed.
Lemma g1_alias_refuted : exists a, g1_ok a /\ g1v (G1AddTo a a) <> zadd bn_P (g1v a) (g1v a).
Proof. exists curveGen. split; [exact: (proj1 g1_gen_ok)|exact: g1_alias_gen]. Qed.
Lemma g2_alias_refuted : exists a, g2_ok a /\ g2v (G2AddTo a a) <> pt_add (g2v a) (g2v a).
Proof. exists twistGen. split; [exact: g2_gen_ok|exact: g2_alias_gen]. Qed.
Local Opaque bn_P.
Lemma g2_infinity : g2_ok G2SetInfinity /\ g2v G2SetInfinity = Inf /\
  forall a, g2_ok a -> (G2IsZero a = true <-> g2v a = Inf).
Proof.
have [A B] := g2_inf_ok newTwistPoint. split; first exact: A. split; first exact: B. move=> a ok.
have [_ I] := @fin_inf curveGen a (proj1 g1_gen_ok) ok. rewrite /G2IsZero I. split=> [/eqP //|->]. exact: eqxx.
Qed.
Lemma g2_scalars : ptmul bnOrder g2_gen = Inf /\
  forall k l, ptmul k g2_gen = ptmul l g2_gen <-> (k mod bnOrder = l mod bnOrder)%Z.
Proof. split; first exact: g2_gen_order. move=> k l. exact: (@ptmul_inj c2 _ k l g2_gen_on g2_gen_neq0 g2_gen_order). Qed.
Local Transparent bnOrder.
Lemma mod15 : (1 mod bnOrder <> 5 mod bnOrder)%Z. Proof. by []. Qed.
Local Opaque bnOrder.
Lemma g2_two : g2_ok twistGen /\ g2_ok (G2ScalarBaseMult 5) /\ g2v twistGen <> g2v (G2ScalarBaseMult 5).
Proof.
split; first exact: g2_gen_ok. have [A B] := g2_base_ok (Pos2Z.is_nonneg 5). split; first exact: A. rewrite B => E.
apply: mod15. apply/(@ptmul_inj c2 _ 1 5 g2_gen_on g2_gen_neq0 g2_gen_order). rewrite -E (@ptmul1 c2). reflexivity.
Qed.
Lemma g1_unreduced : exists m m' c c', m <> m' /\ G1Unmarshal m = Some c /\ G1Unmarshal m' = Some c' /\
  g1v c = g1v c' /\ g1v c <> None.
Proof.
exists (List.app (be32 1) (be32 2)), (List.app (be32 (bn_P + 1)) (be32 2)).
Local Transparent bn_P.
exists (CurvePoint 1 2 1 1), (CurvePoint (bn_P + 1) 2 1 1). by vm_compute.
Local Opaque bn_P.
Qed.
Lemma g2_marshal_infinity c : g2_ok c -> g2v c = Inf ->
  fst (G2Marshal c) = g2_bytes_of 0 0 0 0 /\ g2v (snd (G2Marshal c)) <> Inf /\ ~ on_curve g2_b (g2v (snd (G2Marshal c))).
Proof.
move=> ok I. rewrite (g2_marshal_inf ok I). split; first reflexivity. cbn [snd].
split; last exact: zero_not_on. rewrite g2v_one. discriminate.
Qed.
Lemma gt_round n : length (GTMarshal n) = 384%nat /\ exists n', GTUnmarshal (GTMarshal n) = Some n' /\ v12 n' = v12 n.
Proof. split; [exact: gt_len|exact: gt_roundtrip]. Qed.
Lemma gt_any m : (exists e, GTUnmarshal m = Some e) <-> length m = 384%nat.
Proof.
rewrite gt_unmarshal. case: Nat.eqb_spec => H; split=> //.
- move=> _. by eexists.
- by move=> [].
Qed.
Lemma gt_tests a : GTIsZero a = (v12 a == 0) /\ GTIsOne a = (v12 a == 1).
Proof. split; [exact: gt_iszero|exact: gt_isone]. Qed.
Lemma gt_group a b : v12 (GTAdd a b) = v12 a * v12 b /\ v12 (GTNeg a) = (v12 a)^-1 /\ v12 (GTInvert a) = (v12 a)^-1.
Proof. split; first exact: v12_Mul. split; exact: v12_Invert. Qed.
Local Transparent om12.
Lemma gt_smul_neg : (forall a, v12 (GTScalarMult a (-1)) = v12 a) /\ exists a, v12 (GTScalarMult a (-1)) <> (v12 a)^-1.
Proof.
have H a : v12 (GTScalarMult a (-1)) = v12 a.
  rewrite (proj2 (gt_smul a (-1)%Z) erefl). exact: expr1.
split; first exact: H. have [a E] := v12_surj om12. exists a. rewrite H E => X.
have N : om12 != 0 by rewrite /om12 -mk12_0; apply/eqP => /mk12_inj [/eqP]; rewrite oner_eq0.
have : om12 ^+ 2 = 1 by rewrite expr2 {2}X divff.
rewrite om_2 -e12_1 /e12 => /mk12_inj [_]. rewrite /tau6 -mk6_1 => /mk6_inj [_ /eqP]. by rewrite oner_eq0.
Qed.
Lemma pair_inf_hyps : g1_ok curveGen /\ g1v curveGen <> None /\ g2_ok G2SetInfinity /\ g2v G2SetInfinity = Inf /\
  Forall g1_ok [:: curveGen] /\ Forall g2_ok [:: twistGen] /\
  Exists (fun p => g1v p <> None) (skipn 0 [:: curveGen]).
Proof.
have G := proj1 g1_gen_ok. have N : g1v curveGen <> None by rewrite (proj2 g1_gen_ok).
have [A [B _]] := g2_infinity.
split; first exact: G. split; first exact: N. split; first exact: A. split; first exact: B.
split; first exact: (Forall_cons _ G (Forall_nil _)). split; first exact: (Forall_cons _ g2_gen_ok (Forall_nil _)). cbn [skipn]. apply: Exists_cons_hd. exact: N.
Qed.
Local Transparent miller_digits.
Lemma miller_len : (length miller_digits = 64)%nat. Proof. by vm_compute. Qed.
Local Opaque miller_digits.
Lemma miller_hyps : g2_ok twistGen /\ tpz twistGen = gfP2_One /\ v2 (tpt twistGen) = 1 /\
  ptmul bnOrder (g2v twistGen) = Inf /\ (length miller_digits = 64)%nat.
Proof.
split; first exact: g2_gen_ok. split; first reflexivity. split; first exact: v2_One.
split; first exact: g2_gen_order. exact: miller_len.
Qed.
(** ** a point outside the subgroup *)
Local Transparent bn_P.
Lemma small_chain_ok : crun2 bn_P small_xx small_xy small_yx small_yy small_chain (Cst 1 small_xx small_xy small_yx small_yy)
  = Some (Cst (10069 - 1) small_xx small_xy (bn_P - small_yx) (bn_P - small_yy)).
Proof. by vm_compute. Qed.
Lemma small_range : (0 <= small_xx < bn_P)%Z /\ (0 <= small_xy < bn_P)%Z. Proof. by vm_compute. Qed.
Lemma small_unm : G2Unmarshal (g2_bytes_of small_xx small_xy small_yx small_yy) =
  Some (TwistPoint (GfP2 small_xx small_xy) (GfP2 small_yx small_yy) gfP2_One gfP2_One).
Proof. by vm_compute. Qed.
Lemma small_on_chk : tp_IsOnCurve (TwistPoint (GfP2 small_xx small_xy) (GfP2 small_yx small_yy) gfP2_One gfP2_One) = true.
Proof. by vm_compute. Qed.
Local Transparent bnOrder.
Lemma small_gcd : exists a, (10069 * a mod bnOrder = 1 mod bnOrder)%Z.
Proof. by exists (inv_mod bnOrder 10069); vm_compute. Qed.
Local Opaque bn_P bnOrder small_xx small_xy small_yx small_yy.
Lemma small_outside : exists m c, G2Unmarshal m = Some c /\ g2_ok c /\ g2v c <> Inf /\ ptmul 10069 (g2v c) = Inf /\
  forall k, g2v c <> ptmul k g2_gen.
Proof.
exists (g2_bytes_of small_xx small_xy small_yx small_yy).
set c := TwistPoint (GfP2 small_xx small_xy) (GfP2 small_yx small_yy) gfP2_One gfP2_One.
exists c. split; first exact: small_unm.
have V : g2v c = Aff (v2 (GfP2 small_xx small_xy)) (v2 (GfP2 small_yx small_yy)) by exact: g2v_one.
have o : on_curve g2_b (g2v c).
  rewrite V /on_curve. have := small_on_chk. rewrite tIsOnCurve_ok. exact.
split; first by split; [exact: o|exact: One_tok].
have V' : g2v c = Aff (w small_xx small_xy) (w small_yx small_yy) by rewrite V !wv.
have S : ptmul 10069 (g2v c) = Inf.
  rewrite V'. rewrite V' in o. exact: (order_cert2 o small_range small_chain_ok).
have N : g2v c <> Inf by rewrite V; discriminate.
split; first exact: N. split; first exact: S. move=> k E. apply: N.
have [a A] := small_gcd. rewrite E in S.
have on := g2_gen_on. have K : ((10069 * k) mod bnOrder = 0 mod bnOrder)%Z.
  apply/(@ptmul_inj c2 _ (10069 * k) 0 on g2_gen_neq0 g2_gen_order). rewrite (@ptmulA c2) //.
rewrite E -(@ptmul_modr c2 _ k on g2_gen_order).
have -> : (k mod bnOrder = 0)%Z.
  have -> : (k mod bnOrder = (a * (10069 * k)) mod bnOrder)%Z.
    have -> : (a * (10069 * k) = (10069 * a) * k)%Z by ring.
    by rewrite -Zmult_mod_idemp_l A Zmult_mod_idemp_l Z.mul_1_l.
  by rewrite -Zmult_mod_idemp_r K Zmult_mod_idemp_r Z.mul_0_r Zmod_0_l.
reflexivity.
Qed.
