(** * crypto/bn256 satisfies the contract of bbsignatures and ccs08 *)
From Coq Require Import ZArith Znumtheory Lia Bool List.
From mathcomp Require Import all_ssreflect all_algebra.
From Verif Require Import Base BaseFacts SpecCurve ZField EC PtGroup FieldExt BB BN256 BNTower BNField ZExp SpecBN BNG1 BNGroup BNG2 BNGroup2 BNEnc BNPair BNBilin BNLaws NonDegen BNExact CCS08 SpecCCS BNOps.
Set Implicit Arguments.
Unset Strict Implicit.
Unset Printing Implicit Defensive.
Import GRing.Theory.
Delimit Scope Z_scope with Z.
Local Open Scope ring_scope.
Local Opaque bn_P bnOrder bn_u v2 v6 v12 ptmul zeta gfP12_One PairBN.

Definition pairable_t (q : twistPoint) : Prop := tpz q = gfP2_One -> v2 (tpt q) = 1.
Definition bR1 (p : curvePoint) (x : Z) : Prop := g1_ok p /\ g1v p = zmul bn_P x g1_gen.
Definition bR2 (q : twistPoint) (y : Z) : Prop := g2_ok q /\ g2v q = ptmul y g2_gen.
Definition bRT (e : gfP12) (x : Z) : Prop := v12 e = zx zeta x.

Lemma g1_m x y : zmul bn_P x g1_gen = zmul bn_P y g1_gen <-> eqm x y. Proof. exact: g1_scalars. Qed.
Lemma g2_m x y : ptmul x g2_gen = ptmul y g2_gen <-> eqm x y. Proof. exact: (proj2 g2_scalars). Qed.
Lemma zeta_m x y : zx zeta x = zx zeta y <-> eqm x y. Proof. exact: zeta_eq. Qed.
Lemma zmulD1 x y : zadd bn_P (zmul bn_P x g1_gen) (zmul bn_P y g1_gen) = zmul bn_P (x + y) g1_gen.
Proof.
have o := z1g. have ox := zon_mul1 x o. have oy := zon_mul1 y o. have oxy := zon_mul1 (x + y) o.
apply: em_inj; [exact: (zon_range (zon_add1 ox oy))|exact: (zon_range oxy)|].
rewrite (em_add (zon_range ox) (zon_range oy)) !(em_mul _ (zon_range o)).
symmetry. apply: (@ptmulD c1 x y). exact: (proj2 (em_on (zon_range o)) o).
Qed.
Lemma bR1_eqm p x y : bR1 p x -> eqm x y -> bR1 p y.
Proof. move=> [o E] H. split; first exact: o. rewrite E. exact/g1_m. Qed.
Lemma bR2_eqm p x y : bR2 p x -> eqm x y -> bR2 p y.
Proof. move=> [o E] H. split; first exact: o. rewrite E. exact/g2_m. Qed.
Lemma bR1_base k : bR1 (G1ScalarBaseMult newCurvePoint k) k. Proof. exact: g1_base_ok. Qed.
Definition nonneg (k : Z) : Prop := (0 <= k)%Z.
Lemma nonneg_ok k : (0 <= k)%Z -> nonneg k. Proof. by []. Qed.
Lemma bR2_base k : nonneg k -> bR2 (G2ScalarBaseMult k) k. Proof. exact: g2_base_ok. Qed.
Lemma addto_inf1 a b : cp_IsInfinity a = true -> G1AddTo a b = b.
Proof. move=> E. by rewrite /G1AddTo /cp_AddTo /cp_Add_with E. Qed.
Lemma addto_inf2 a b : tp_IsInfinity a = true -> G2AddTo a b = b.
Proof. move=> E. by rewrite /G2AddTo /tp_AddTo /tp_Add_with E. Qed.
Lemma eqm_dec x y : {eqm x y} + {~ eqm x y}. Proof. exact: Z.eq_dec. Qed.
Lemma eqm_add0 x y : eqm x 0 -> eqm y (x + y).
Proof. rewrite /eqm mod0 => E. by rewrite Zplus_mod E Z.add_0_l Zmod_mod. Qed.
Lemma bR1_add a b x y : bR1 a x -> bR1 b y -> addable x y -> bR1 (G1AddTo a b) (x + y)%Z.
Proof.
move=> La Lb A. have [oa Ea] := La. have [ob Eb] := Lb.
case: (eqm_dec x y) => [E|N].
  have E0 := A E. have I : cp_IsInfinity a = true.
    apply: (proj2 (proj2 (proj2 g1_infinity) a oa)). apply: (proj2 (log1_inf La)). move: E0. by rewrite /eqm mod0.
  rewrite (addto_inf1 _ I). apply: (bR1_eqm Lb). exact: eqm_add0.
have N' : g1v a <> g1v b by rewrite Ea Eb => /g1_m.
have [o E] := g1_addto_ok oa ob N'. split; first exact: o. rewrite E Ea Eb. exact: zmulD1.
Qed.
Lemma bR2_add a b x y : bR2 a x -> bR2 b y -> addable x y -> bR2 (G2AddTo a b) (x + y)%Z.
Proof.
move=> La Lb A. have [oa Ea] := La. have [ob Eb] := Lb.
case: (eqm_dec x y) => [E|N].
  have E0 := A E. have I : tp_IsInfinity a = true.
    apply: (proj2 (proj2 (proj2 g2_infinity) a oa)). rewrite Ea -(ptmul_0 g2_gen). exact/g2_m.
  rewrite (addto_inf2 _ I). apply: (bR2_eqm Lb). exact: eqm_add0.
have N' : g2v a <> g2v b by rewrite Ea Eb => /g2_m.
have [o E] := g2_addto_ok oa ob N'. split; first exact: o. rewrite E Ea Eb. symmetry. exact: (@ptmulD c2 x y _ g2_gen_on).
Qed.
Lemma bR1_code a x : bR1 a x -> exists b, G1Unmarshal (match G1Marshal a with Some (m, _) => m | None => [::] end) = Some b /\ bR1 b x.
Proof.
move=> [o E]. have [n [M _]] := BNEnc.g1_marshal o. rewrite M. have [c [U [oc V]]] := g1_roundtrip o.
exists c. split; first exact: U. split; first exact: oc. by rewrite V.
Qed.
Lemma bR2_inf : bR2 G2SetInfinity 0. Proof. have [A [B _]] := g2_infinity. split; first exact: A. rewrite ptmul_0. exact: B. Qed.
Lemma bR2_mul a x k : bR2 a x -> nonneg k -> bR2 (G2ScalarMult a k) (x * k)%Z.
Proof.
move=> [o E] k0. have [o' E'] := g2_smul_ok o k0. split; first exact: o'. rewrite E' E Z.mul_comm. symmetry.
exact: (@ptmulA c2 k x _ g2_gen_on).
Qed.
Lemma bR2_code a x : bR2 a x -> exists b, G2Unmarshal (fst (G2Marshal a)) = Some b /\ bR2 b x /\ pairable_t b.
Proof.
move=> [o E]. have [b [U [ob V]]] := g2_roundtrip o. exists b. split; first exact: U. split; last exact: (@unm_t _ _ U).
split; first exact: ob. by rewrite V.
Qed.
Lemma bR2_bytes a b x y : bR2 a x -> bR2 b y -> (fst (G2Marshal a) = fst (G2Marshal b) <-> eqm x y).
Proof. move=> [oa Ea] [ob Eb]. rewrite (BNEnc.g2_marshal_eq oa ob) Ea Eb. exact: g2_m. Qed.
Lemma bRT_mul a x k : bRT a x -> (0 <= k)%Z -> bRT (GTScalarMult a k) (x * k)%Z.
Proof. move=> E H. rewrite /bRT (proj1 (gt_smul a k) H) E -(zx_pos _ H) -zxM. reflexivity. Qed.
Lemma bRT_inv a x : bRT a x -> bRT (GTInvert a) (- x)%Z.
Proof. move=> E. rewrite /bRT (proj2 (proj2 (gt_group a a))) E -zxN. reflexivity. Qed.
Lemma bRT_neg a x : bRT a x -> bRT (GTNeg a) (- x)%Z.
Proof. move=> E. rewrite /bRT (proj1 (proj2 (gt_group a a))) E -zxN. reflexivity. Qed.
Lemma bRT_add a b x y : bRT a x -> bRT b y -> bRT (GTAdd a b) (x + y)%Z.
Proof. move=> E F. rewrite /bRT (proj1 (gt_group a b)) E F -(zxD _ _ zeta_n0). reflexivity. Qed.
Lemma bRT_one a x : bRT a x -> (GTIsOne a = true <-> eqm x 0).
Proof. move=> E. rewrite isone_eq E zeta_eq1 /eqm mod0. by []. Qed.
Lemma bRT_bytes a b x y : bRT a x -> bRT b y -> (GTMarshal a = GTMarshal b <-> eqm x y).
Proof. move=> E F. rewrite BNEnc.gt_marshal_eq E F. exact: zeta_m. Qed.
Lemma bpair_id b : bR2 b 0 -> pairable_t b.
Proof.
move=> [o E] Z. exfalso. rewrite ptmul_0 in E.
have := proj2 (fin_inf (proj1 g1_gen_ok) o). by rewrite E eqxx /tp_IsInfinity Z.
Qed.
Local Transparent bn_P.
Lemma g2_base1 : G2ScalarBaseMult 1 = twistGen. Proof. by vm_compute. Qed.
Local Opaque bn_P.
Lemma bpair_gen : pairable_t (G2ScalarBaseMult 1). Proof. rewrite g2_base1. exact: gen_t. Qed.
Lemma bpair_law a b x y : bR1 a x -> bR2 b y -> pairable_t b ->
  bRT (match PairBN a b with Ok e => e | _ => gfP12_One end) (x * y)%Z.
Proof. move=> La [o E] T. have [e [P V]] := log_pair La (conj o (conj E T)). rewrite P. exact: V. Qed.

Definition bn_bilinear : bilinear bn_ops :=
  @Bilinear bn_ops bR1 bR2 bRT pairable_t nonneg bR1_eqm bR2_eqm bR1_base bR1_add bR1_code bR2_inf nonneg_ok bR2_base bR2_mul bR2_add
    bR2_code bR2_bytes bRT_mul bRT_inv bRT_neg bRT_add bRT_one bRT_bytes bpair_id bpair_gen bpair_law.
