(** * Pair (g1, g2) is not one, computed inside the kernel *)
From Coq Require Import ZArith Lia Bool List PrimInt63 Uint63.
From mathcomp Require Import all_ssreflect all_algebra.
From Verif Require Import Limb Base BaseFacts SpecCurve ZField FieldExt BB BN256 BNTower BNField SpecPair FastFp FastTower.
Set Implicit Arguments.
Unset Strict Implicit.
Unset Printing Implicit Defensive.
Import GRing.Theory.
Delimit Scope Z_scope with Z.
Local Open Scope ring_scope.

Definition of2 (a : gfP2) : F2 T := (tof (c2x a), tof (c2y a)).
Definition of6 (a : gfP6) : F6 T := MkF6 (of2 (c6x a)) (of2 (c6y a)) (of2 (c6z a)).
Definition of12 (a : gfP12) : F12 T := MkF12 (of6 (c12x a)) (of6 (c12y a)).
Definition ofP (p : twistPoint) : FP T := MkFP (of2 (tpx p)) (of2 (tpy p)) (of2 (tpz p)) (of2 (tpt p)).
Definition zout (a : T) : Z := ((lval a * bn_rr) mod bn_P)%Z.
Definition out2 (a : F2 T) : gfP2 := GfP2 (zout a.1) (zout a.2).
Definition out6 (a : F6 T) : gfP6 := GfP6 (out2 (d6x a)) (out2 (d6y a)) (out2 (d6z a)).
Definition out12 (a : F12 T) : gfP12 := GfP12 (out6 (d12x a)) (out6 (d12y a)).
Definition c_x2p3 : F2 T := Eval vm_compute in of2 xiTo2PMinus2Over3.
Definition c_xp3 : F2 T := Eval vm_compute in of2 xiToPMinus1Over3.
Definition c_xp2 : F2 T := Eval vm_compute in of2 xiToPMinus1Over2.
Definition c_xp6 : F2 T := Eval vm_compute in of2 xiToPMinus1Over6.
Definition c_s2 : T := Eval vm_compute in tof xiTo2PSquaredMinus2Over3.
Definition c_s1 : T := Eval vm_compute in tof xiToPSquaredMinus1Over3.
Definition c_s6 : T := Eval vm_compute in tof xiToPSquaredMinus1Over6.
Lemma c_x2p3E : c_x2p3 = of2 xiTo2PMinus2Over3. Proof. by vm_compute. Qed.
Lemma c_xp3E : c_xp3 = of2 xiToPMinus1Over3. Proof. by vm_compute. Qed.
Lemma c_xp2E : c_xp2 = of2 xiToPMinus1Over2. Proof. by vm_compute. Qed.
Lemma c_xp6E : c_xp6 = of2 xiToPMinus1Over6. Proof. by vm_compute. Qed.
Lemma c_s2E : c_s2 = tof xiTo2PSquaredMinus2Over3. Proof. by vm_compute. Qed.
Lemma c_s1E : c_s1 = tof xiToPSquaredMinus1Over3. Proof. by vm_compute. Qed.
Lemma c_s6E : c_s6 = tof xiToPSquaredMinus1Over6. Proof. by vm_compute. Qed.

Definition mil (a : twistPoint) (q : curvePoint) : F12 T :=
  f_miller tm ta ts tsm tsb t0 t1 c_xp3 c_xp2 c_s1 (ofP a) (ofP (tp_Negative a)) (tof (cpx q)) (tof (cpy q)).
Definition fin (i inv : F12 T) : F12 T := f_final tm ta ts tsm tsb t0 t1 c_x2p3 c_xp3 c_xp6 c_s2 c_s1 c_s6 i inv.
Definition mul (a b : F12 T) : F12 T := f12mul tm ta ts tsm tsb a b.
Definition iszero (a : T) : bool := ((lval a mod bn_P) =? 0)%Z.
Definition isone (a : T) : bool := ((lval a mod bn_P) =? (lval t1 mod bn_P))%Z.
Definition z2 (a : F2 T) : bool := iszero a.1 && iszero a.2.
Definition z6 (a : F6 T) : bool := z2 (d6x a) && z2 (d6y a) && z2 (d6z a).
Definition o12 (a : F12 T) : bool :=
  z6 (d12x a) && z2 (d6x (d12y a)) && z2 (d6y (d12y a)) && iszero (d6z (d12y a)).1 && isone (d6z (d12y a)).2.

(** Pair (g1, g2) *)
Definition m1 : F12 T := Eval vm_compute in mil twistGen curveGen.
Definition i1 : F12 T := Eval vm_compute in of12 (gfP12_Minimal (gfP12_Invert (out12 m1))).
Definition e1 : F12 T := Eval vm_compute in fin m1 i1.
(** Pair (g1, - g2) after G2.Neg *)
Definition m2 : F12 T := Eval vm_compute in mil (tp_Negative twistGen) curveGen.
Definition i2 : F12 T := Eval vm_compute in of12 (gfP12_Minimal (gfP12_Invert (out12 m2))).
Definition e2 : F12 T := Eval vm_compute in fin m2 i2.

Lemma m1E : mil twistGen curveGen = m1. Proof. vm_cast_no_check (erefl m1). Qed.
Lemma m2E : mil (tp_Negative twistGen) curveGen = m2. Proof. vm_cast_no_check (erefl m2). Qed.
Lemma i1E : o12 (mul m1 i1) = true. Proof. vm_cast_no_check (erefl true). Qed.
Lemma i2E : o12 (mul m2 i2) = true. Proof. vm_cast_no_check (erefl true). Qed.
Lemma e1E : fin m1 i1 = e1. Proof. vm_cast_no_check (erefl e1). Qed.
Lemma e2E : fin m2 i2 = e2. Proof. vm_cast_no_check (erefl e2). Qed.
Lemma e1_not1 : o12 e1 = false. Proof. vm_cast_no_check (erefl false). Qed.
Lemma e12_not1 : o12 (mul e1 e2) = false. Proof. vm_cast_no_check (erefl false). Qed.

(** ** what was computed *)
Local Opaque bn_P lval bn_rr tm ta ts tsm tsb t0 t1 tof tv m1 m2 i1 i2 e1 e2 mk2 mk6 mk12.
Notation W2 := (w2 tv).
Notation W6 := (w6 tv).
Notation W12 := (w12 tv).
Lemma of2E a : W2 (of2 a) = v2 a. Proof. by rewrite /w2 v2E /= !tv_of. Qed.
Lemma ofPE p : relP tv (ofP p) p. Proof. by split; rewrite /ofP /= of2E. Qed.
Lemma isz a : iszero a = true <-> tv a = 0.
Proof.
rewrite -tv_0. split.
  move/Z.eqb_spec => E. apply: tv_eq. by rewrite E.
move=> E. apply/Z.eqb_spec. case: (Z.eq_dec (lval a mod bn_P) (lval t0 mod bn_P)) => [->|N]; first by vm_compute.
by case: (tv_neq N E).
Qed.
Lemma iso a : isone a = true <-> tv a = 1.
Proof.
rewrite -tv_1. split; first by move/Z.eqb_spec => E; exact: tv_eq.
move=> E. apply/Z.eqb_spec. case: (Z.eq_dec (lval a mod bn_P) (lval t1 mod bn_P)) => // N.
by case: (tv_neq N E).
Qed.
Lemma z2E a : z2 a = true <-> W2 a = 0.
Proof.
rewrite /z2 /w2 -mk2_0. split.
  by case/andP => /isz -> /isz ->.
by case/mk2_inj => /isz -> /isz ->.
Qed.
Lemma z6E a : z6 a = true <-> W6 a = 0.
Proof.
rewrite /z6 /w6 -mk6_0. split.
  by case/andP => /andP [/z2E -> /z2E ->] /z2E ->.
by case/mk6_inj => /z2E -> /z2E -> /z2E ->.
Qed.
Lemma o12E a : o12 a = true <-> W12 a = 1.
Proof.
rewrite /o12 /w12 -mk12_1 -mk6_1 -mk2_1. split.
  move/andP => [/andP [/andP [/andP [/z6E -> /z2E X] /z2E Y] /isz Z] /iso O].
  by rewrite /w6 X Y /w2 Z O.
case/mk12_inj => /z6E ->. rewrite {1}/w6 => /mk6_inj [/z2E -> /z2E ->]. by rewrite {1}/w2 => /mk2_inj [/isz -> /iso ->].
Qed.
Lemma o12N a : o12 a = false -> W12 a <> 1. Proof. by move=> E /o12E; rewrite E. Qed.
Lemma mulE a b : W12 (mul a b) = W12 a * W12 b.
Proof. exact: (w12_mul tv_m tv_a tv_s tv_sm tv_sb). Qed.
Lemma milE a q : W12 (mil a q) = v12 (miller_affine a q).1.
Proof.
rewrite /mil. apply: (rel_miller tv_m tv_a tv_s tv_sm tv_sb tv_0 tv_1).
- by rewrite c_xp3E of2E.
- by rewrite c_xp2E of2E.
- by rewrite c_s1E tv_of.
- exact: ofPE.
- exact: ofPE.
- exact: tv_of.
- exact: tv_of.
Qed.
Lemma finE i inv i' : W12 i = v12 i' -> W12 inv = v12 (gfP12_Invert i') -> W12 (fin i inv) = v12 (finalExponentiation i').
Proof.
rewrite /fin. apply: (rel_final tv_m tv_a tv_s tv_sm tv_sb tv_0 tv_1).
- by rewrite c_x2p3E of2E.
- by rewrite c_xp3E of2E.
- by rewrite c_xp6E of2E.
- by rewrite c_s2E tv_of.
- by rewrite c_s1E tv_of.
- by rewrite c_s6E tv_of.
Qed.
Lemma inv_of (F : fieldType) (a b : F) : a * b = 1 -> b = a^-1.
Proof. move=> E. have a0 : a != 0 by apply/eqP => Z; move: E; rewrite Z mul0r => /eqP; rewrite eq_sym oner_eq0. by rewrite -[b]mul1r -(mulVf a0) -mulrA E mulr1. Qed.
Lemma run a q m i e : mil a q = m -> o12 (mul m i) = true -> fin m i = e ->
  W12 e = v12 (finalExponentiation (miller_affine a q).1).
Proof.
move=> M I <-. have E : W12 m = v12 (miller_affine a q).1 by rewrite -M milE.
apply: finE; first exact: E. rewrite v12_Invert. apply: inv_of. rewrite -E -mulE. by apply/o12E.
Qed.
Definition fe1 : gfP12 := finalExponentiation (miller_affine twistGen curveGen).1.
Definition fe2 : gfP12 := finalExponentiation (miller_affine (G2Neg twistGen) curveGen).1.
Lemma fe1E : W12 e1 = v12 fe1. Proof. exact: (run m1E i1E e1E). Qed.
Lemma fe2E : W12 e2 = v12 fe2. Proof. exact: (run m2E i2E e2E). Qed.
Lemma fe1_not1 : v12 fe1 <> 1. Proof. rewrite -fe1E. exact: (o12N e1_not1). Qed.
Lemma fe12_not1 : v12 fe1 * v12 fe2 <> 1. 
Proof.
have H (a b x y z : K12) : z = x * y -> x = a -> y = b -> z <> 1 -> a * b <> 1 by move=> -> -> ->.
exact: (H _ _ _ _ _ (mulE e1 e2) fe1E fe2E (o12N e12_not1)).
Qed.
Lemma pair_calc p q : tp_MakeAffine q = q -> cp_MakeAffine p = Some p -> tp_IsInfinity q || cp_IsInfinity p = false ->
  PairBN p q = Ok (finalExponentiation (miller_affine q p).1).
Proof. move=> A B C. by rewrite /PairBN /optimalAte /miller A B C. Qed.
Lemma pair1 : PairBN curveGen twistGen = Ok fe1.
Proof. apply: pair_calc; vm_compute; reflexivity. Qed.
Lemma pair2 : PairBN curveGen (G2Neg twistGen) = Ok fe2.
Proof. apply: pair_calc; vm_compute; reflexivity. Qed.
