(** * Programs of BNHeap.v: fields and groups *)
From Coq Require Import ZArith Znumtheory List Lia.
From mathcomp Require Import all_ssreflect all_algebra.
From Verif Require Import Base SpecCurve EC PtGroup BB BN256 BNTower BNField BNFrob SpecBN BNLaws BNNeg BNExact BNG1 BNG2 BNStale BNHeap SpecHeap BNHeapCurve BNMulStale.
From Verif Require BNHeapTheorems.
Import BNHeapTheorems.
Import GRing.Theory.
Delimit Scope Z_scope with Z.
Local Open Scope ring_scope.

Lemma weak0 O V (K : kind O V) m (R R' : V -> V -> Prop) : computes0 K m R -> (forall v r, R v r -> R' v r) -> computes0 K m R'.
Proof. move=> H I s e G Ho; have [s' [E [X F]]] := H s e G Ho. by exists s'; split=> //; split=> //; apply: I. Qed.
Lemma weak1 O V (K : kind O V) m (R R' : V -> V -> Prop) : computes1 K m R -> (forall v r, R v r -> R' v r) -> computes1 K m R'.
Proof. move=> H I s e a G Ho Ha Hs; have [s' [E [X F]]] := H s e a G Ho Ha Hs. by exists s'; split=> //; split=> //; apply: I. Qed.
Lemma weak1g O V (K : kind O V) m (R R' : V -> V -> Prop) : computes1g K m R -> (forall v r, R v r -> R' v r) -> computes1g K m R'.
Proof. move=> H I s e a G P N Ho Ha Hs; have [s' [E [X F]]] := H s e a G P N Ho Ha Hs. by exists s'; split=> //; split=> //; apply: I. Qed.
Lemma weak2 O V (K : kind O V) m (R R' : V -> V -> V -> Prop) : computes2 K m R -> (forall v w r, R v w r -> R' v w r) -> computes2 K m R'.
Proof. move=> H I s e a b G Ho Ha Hb Hs Ht; have [s' [E [X F]]] := H s e a b G Ho Ha Hb Hs Ht. by exists s'; split=> //; split=> //; apply: I. Qed.
Lemma weak1x O V O' V' (K : kind O V) (K' : kind O' V') m (R R' : V -> V' -> V -> Prop) : computes1x K K' m R -> (forall v w r, R v w r -> R' v w r) -> computes1x K K' m R'.
Proof. move=> H I s e a b G Ho Ha Hb Hs Ht; have [s' [E [X F]]] := H s e a b G Ho Ha Hb Hs Ht. by exists s'; split=> //; split=> //; apply: I. Qed.

Lemma heap_gfP2_math :
  computes2 kGF2 h2_Add (fun a b r => v2 r = v2 a + v2 b) /\ computes2 kGF2 h2_Sub (fun a b r => v2 r = v2 a - v2 b) /\
  computes1 kGF2 h2_Double (fun a r => v2 r = v2 a + v2 a) /\ computes1 kGF2 h2_Negative (fun a r => v2 r = - v2 a) /\
  computes2 kGF2 h2_Mul (fun a b r => v2 r = v2 a * v2 b) /\ computes1 kGF2 h2_Square (fun a r => v2 r = v2 a ^+ 2) /\
  computes1x kGF2 kBig h2_MulScalar (fun a k r => v2 r = v2 a * v2 (GfP2 0 k)) /\
  computes1 kGF2 h2_MulXi (fun a r => v2 r = v2 (GfP2 1 9) * v2 a) /\
  computes1 kGF2 h2_Conjugate (fun a r => v2 r = v2 a ^+ Z.to_nat bn_P) /\
  computes0 kGF2 h2_Minimal (fun a r => v2 r = v2 a) /\
  computes1 kGF2 h2_Invert (fun a r => v2 r = (v2 a)^-1) /\
  (forall n, (0 <= n)%Z -> computes1 kGF2 (fun e a => h2_Exp e a n) (fun a r => v2 r = v2 a ^+ Z.to_nat n)).
Proof.
have [_ [_ [_ [Mi [_ [_ [Co [Ne [Ad [Su [Do [Mu [MS [MX [Sq [In Ex]]]]]]]]]]]]]]]] := heap_gfP2.
have A := gfP2_arith.
split; first by apply: weak2 Ad _ => a b _ ->; have [] := A a b 0%Z.
split; first by apply: weak2 Su _ => a b _ ->; have [_ []] := A a b 0%Z.
split; first by apply: weak1 Do _ => a _ ->; have [_ [_ []]] := A a a 0%Z.
split; first by apply: weak1 Ne _ => a _ ->; have [_ [_ [_ []]]] := A a a 0%Z.
split; first by apply: weak2 Mu _ => a b _ ->; have [_ [_ [_ [_ []]]]] := A a b 0%Z.
split; first by apply: weak1 Sq _ => a _ ->; have [_ [_ [_ [_ [_ []]]]]] := A a a 0%Z.
split; first by apply: weak1x MS _ => a k _ ->; have [_ [_ [_ [_ [_ [_ []]]]]]] := A a a k.
split; first by apply: weak1 MX _ => a _ ->; have [_ [_ [_ [_ [_ [_ [_ []]]]]]]] := A a a 0%Z.
split; first by apply: weak1 Co _ => a _ ->; have [_ [_ [_ [_ [_ [_ [_ [_ []]]]]]]]] := A a a 0%Z.
split; first by apply: weak0 Mi _ => a _ ->; have [_ [_ [_ [_ [_ [_ [_ [_ [_ ?]]]]]]]]] := A a a 0%Z.
split; first by apply: weak1 In _ => a _ ->; have [_ ?] := gfP2_inv 0%Z a.
by move=> n n0; apply: weak1 (Ex n) _ => a _ ->; have [? _] := gf_exp a gfP12_One n0.
Qed.
Lemma heap_gfP6_math :
  computes2 kGF6 h6_Add (fun a b r => v6 r = v6 a + v6 b) /\ computes2 kGF6 h6_Sub (fun a b r => v6 r = v6 a - v6 b) /\
  computes1 kGF6 h6_Double (fun a r => v6 r = v6 a + v6 a) /\ computes1 kGF6 h6_Negative (fun a r => v6 r = - v6 a) /\
  computes2 kGF6 h6_Mul (fun a b r => v6 r = v6 a * v6 b) /\ computes1 kGF6 h6_Square (fun a r => v6 r = v6 a ^+ 2) /\
  computes1x kGF6 kGF2 h6_MulScalar (fun a k r => v6 r = v6 a * e6 (v2 k)) /\
  computes1x kGF6 kBig h6_MulGFP (fun a k r => v6 r = v6 a * e6 (v2 (GfP2 0 k))) /\
  computes1 kGF6 h6_MulTau (fun a r => v6 r = tau6 * v6 a) /\
  computes1 kGF6 h6_Invert (fun a r => v6 r = (v6 a)^-1).
Proof.
have [_ [_ [_ [_ [_ [_ [Ne [_ [_ [Ad [Su [Do [Mu [MS [MG [MT [Sq In]]]]]]]]]]]]]]]]] := heap_gfP6.
have A := gfP6_arith.
split; first by apply: weak2 Ad _ => a b _ ->; have [] := A a b gfP2_Zero 0%Z.
split; first by apply: weak2 Su _ => a b _ ->; have [_ []] := A a b gfP2_Zero 0%Z.
split; first by apply: weak1 Do _ => a _ ->; have [_ [_ []]] := A a a gfP2_Zero 0%Z.
split; first by apply: weak1 Ne _ => a _ ->; have [_ [_ [_ []]]] := A a a gfP2_Zero 0%Z.
split; first by apply: weak2 Mu _ => a b _ ->; have [_ [_ [_ [_ []]]]] := A a b gfP2_Zero 0%Z.
split; first by apply: weak1 Sq _ => a _ ->; have [_ [_ [_ [_ [_ []]]]]] := A a a gfP2_Zero 0%Z.
split; first by apply: weak1x MS _ => a k _ ->; have [_ [_ [_ [_ [_ [_ []]]]]]] := A a a k 0%Z.
split; first by apply: weak1x MG _ => a k _ ->; have [_ [_ [_ [_ [_ [_ [_ []]]]]]]] := A a a gfP2_Zero k.
split; first by apply: weak1 MT _ => a _ ->; have [_ [_ [_ [_ [_ [_ [_ [_ []]]]]]]]] := A a a gfP2_Zero 0%Z.
by apply: weak1 In _ => a _ ->; have [_ [_ [_ [_ [_ [_ [_ [_ [_ ?]]]]]]]]] := A a a gfP2_Zero 0%Z.
Qed.
Lemma heap_gfP12_math :
  computes2 kGF12 h12_Add (fun a b r => v12 r = v12 a + v12 b) /\ computes2 kGF12 h12_Sub (fun a b r => v12 r = v12 a - v12 b) /\
  computes1 kGF12 h12_Negative (fun a r => v12 r = - v12 a) /\
  computes2 kGF12 h12_Mul (fun a b r => v12 r = v12 a * v12 b) /\ computes1 kGF12 h12_Square (fun a r => v12 r = v12 a ^+ 2) /\
  computes1 kGF12 h12_Invert (fun a r => v12 r = (v12 a)^-1) /\
  computes1g kGF12 h12_Frobenius (fun a r => v12 r = v12 a ^+ Z.to_nat bn_P) /\
  computes1g kGF12 h12_FrobeniusP2 (fun a r => v12 r = v12 a ^+ (Z.to_nat bn_P ^ 2)) /\
  (forall n, (0 <= n)%Z -> computes1 kGF12 (fun e a => h12_Exp e a n) (fun a r => v12 r = v12 a ^+ Z.to_nat n)).
Proof.
have [_ [_ [_ [_ [Ne [Fr [F2 [Ad [Su [Mu [Sq [In Ex]]]]]]]]]]]] := heap_gfP12.
have A := gfP12_arith. have F := frobenius_maps.
split; first by apply: weak2 Ad _ => a b _ ->; have [] := A a b.
split; first by apply: weak2 Su _ => a b _ ->; have [_ []] := A a b.
split; first by apply: weak1 Ne _ => a _ ->; have [_ [_ []]] := A a a.
split; first by apply: weak2 Mu _ => a b _ ->; have [_ [_ [_ []]]] := A a b.
split; first by apply: weak1 Sq _ => a _ ->; have [_ [_ [_ [_ []]]]] := A a a.
split; first by apply: weak1 In _ => a _ ->; have [_ [_ [_ [_ [_ ?]]]]] := A a a.
split; first by apply: weak1g Fr _ => a _ ->; have [] := F a.
split; first by apply: weak1g F2 _ => a _ ->; have [_ []] := F a.
by move=> n n0; apply: weak1 (Ex n) _ => a _ ->; have [_ ?] := gf_exp gfP2_One a n0.
Qed.
(** ** the pool *)
Lemma indep1 O V (K : kind O V) m f : computes1 K m (fun v r => r = f v) -> pool_independent1 K m.
Proof.
move=> H s1 s2 e a g1 g2 o1 o2 a1 a2 sa E.
have [s1' [E1 [V1 _]]] := H s1 e a g1 o1 a1 sa; have [s2' [E2 [V2 _]]] := H s2 e a g2 o2 a2 sa.
by exists s1', s2'; split=> //; split=> //; rewrite V1 V2 E.
Qed.
Lemma indep2 O V (K : kind O V) m f : computes2 K m (fun v w r => r = f v w) -> pool_independent2 K m.
Proof.
move=> H s1 s2 e a b g1 g2 o1 o2 a1 a2 b1 b2 sa sb E F.
have [s1' [E1 [V1 _]]] := H s1 e a b g1 o1 a1 b1 sa sb; have [s2' [E2 [V2 _]]] := H s2 e a b g2 o2 a2 b2 sa sb.
by exists s1', s2'; split=> //; split=> //; rewrite V1 V2 E F.
Qed.
Lemma heap_independent :
  (pool_independent2 kGF2 h2_Mul /\ pool_independent1 kGF2 h2_MulXi /\ pool_independent1 kGF2 h2_Square /\
   pool_independent1 kGF2 h2_Invert /\ forall n, pool_independent1 kGF2 (fun e a => h2_Exp e a n)) /\
  (pool_independent2 kGF6 h6_Mul /\ pool_independent1 kGF6 h6_MulTau /\ pool_independent1 kGF6 h6_Square /\
   pool_independent1 kGF6 h6_Invert) /\
  (pool_independent2 kGF12 h12_Mul /\ pool_independent1 kGF12 h12_Square /\ pool_independent1 kGF12 h12_Invert /\
   forall n, pool_independent1 kGF12 (fun e a => h12_Exp e a n)).
Proof.
split; last split.
- have [_ [_ [_ [_ [_ [_ [_ [_ [_ [_ [_ [Mu [_ [MX [Sq [In Ex]]]]]]]]]]]]]]]] := heap_gfP2.
  split; first exact: indep2 Mu. split; first exact: indep1 MX. split; first exact: indep1 Sq. split; first exact: indep1 In.
  move=> n; exact: indep1 (Ex n).
- have [_ [_ [_ [_ [_ [_ [_ [_ [_ [_ [_ [_ [Mu [_ [_ [MT [Sq In]]]]]]]]]]]]]]]]] := heap_gfP6.
  split; first exact: indep2 Mu. split; first exact: indep1 MT. split; first exact: indep1 Sq. exact: indep1 In.
- have [_ [_ [_ [_ [_ [_ [_ [_ [_ [Mu [Sq [In Ex]]]]]]]]]]]] := heap_gfP12.
  split; first exact: indep2 Mu. split; first exact: indep1 Sq. split; first exact: indep1 In.
  move=> n; exact: indep1 (Ex n).
Qed.
(** ** scalar multiplication with any pool *)
Lemma heap_cMul_math : forall n, (0 <= n)%Z ->
  computes1 kCurve (fun e a => hc_Mul e a n) (fun a r => g1_ok a -> g1_ok r /\ g1v r = zmul bn_P n (g1v a)).
Proof. move=> n n0; apply: weak1 (heap_cMul n) _ => a _ [s [t ->]] oa; exact: g1_mulfrom_ok. Qed.
Lemma heap_tMul_math : forall n, (0 <= n)%Z ->
  computes1 kTwist (fun e a => ht_Mul e a n) (fun a r => g2_ok a -> g2_ok r /\ g2v r = ptmul n (g2v a)).
Proof. move=> n n0; apply: weak1 (heap_tMul n) _ => a _ [s [t ->]] oa; exact: g2_mulfrom_ok. Qed.
