(** * Pair is non-degenerate; exact laws of Pair and PairingCheck; bn256 meets
      the contract under which bbsignatures and ccs08 are verified *)
From Coq Require Import ZArith Znumtheory Lia Bool List.
From mathcomp Require Import all_ssreflect all_algebra.
From Verif Require Import Base BaseFacts SpecCurve ZField EC PtGroup FieldExt BB BN256 BNTower BNField ZExp SpecBN BNG1 BNGroup BNG2 BNGroup2 BNEnc BNPair BNBilin BNLaws NonDegen.
Set Implicit Arguments.
Unset Strict Implicit.
Unset Printing Implicit Defensive.
Import GRing.Theory.
Delimit Scope Z_scope with Z.
Local Open Scope ring_scope.
Local Opaque bn_P bnOrder bn_u v2 v6 v12 ptmul fe1 fe2 opt.

(** ** elements of prime order *)
Section Order.
Variables (F : fieldType) (x : F) (r : Z).
Hypotheses (rp : Znumtheory.prime r) (x1 : x <> 1) (x0 : x != 0) (xr : x ^+ Z.to_nat r = 1).
Lemma r_pos : (0 < r)%Z. Proof. have := prime_ge_2 _ rp. lia. Qed.
Lemma zx_r k : zx x (k * r) = 1.
Proof. rewrite Z.mul_comm zxM (zx_pos x (Z.lt_le_incl _ _ r_pos)) xr. exact: zx_one. Qed.
Lemma zx_mod k : zx x (k mod r) = zx x k.
Proof.
have E := Z_div_mod_eq_full k r.
rewrite {2}E Z.mul_comm (zxD _ _ x0) zx_r mul1r. reflexivity.
Qed.
Lemma zx_eq1 k : zx x k = 1 <-> (k mod r = 0)%Z.
Proof.
split=> [E|E]; last by rewrite -zx_mod E zx0.
case: (Z.eq_dec (k mod r) 0) => // N. exfalso. apply: x1.
have G : rel_prime k r.
  apply: rel_prime_sym. apply: prime_rel_prime; first exact: rp. move=> D. apply: N. exact: Zdivide_mod.
have [u v B] := rel_prime_bezout _ _ G.
have : zx x (u * k + v * r) = 1 by rewrite (zxD _ _ x0) zx_r mulr1 Z.mul_comm zxM E zx_one.
by rewrite B zx1.
Qed.
Lemma zx_eq a b : zx x a = zx x b <-> (a mod r = b mod r)%Z.
Proof.
split=> [E|E]; last by rewrite -zx_mod E zx_mod.
have : zx x (a - b) = 1.
  rewrite (zxD _ _ x0) zxN E. apply: mulfV. exact: zx_neq0.
move/zx_eq1 => H. have P := r_pos.
have Q1 := Z_div_mod_eq_full a r. have Q2 := Z_div_mod_eq_full b r. have Q3 := Z_div_mod_eq_full (a - b) r.
have B1 := Z.mod_pos_bound a r P. have B2 := Z.mod_pos_bound b r P.
rewrite H Z.add_0_r in Q3.
have Q : (a mod r - b mod r = r * ((a - b) / r - a / r + b / r))%Z by lia.
have : ((a - b) / r - a / r + b / r = 0)%Z by nia.
nia.
Qed.
End Order.

(** ** the value of Pair on the generators *)
Lemma zeta_sig : {z : K12 | z = v12 fe1}. Proof. by exists (v12 fe1). Qed.
Definition zeta : K12 := sval zeta_sig.
Lemma zetaE : zeta = v12 fe1. Proof. exact: (proj2_sig zeta_sig). Qed.
Lemma g1g : g1_ok curveGen /\ g1v curveGen = g1_gen. Proof. exact: g1_gen_ok. Qed.
Lemma z1g : zon bn_P 3 g1_gen. Proof. have [[o _] E] := g1g. by rewrite -E. Qed.
Lemma zeta_opt : zeta = opt (em g1_gen) g2_gen.
Proof.
have [ok E] := g1g. have [e [P V]] := pair_opt ok g2_gen_ok gen_1 gen_t.
rewrite zetaE -E -[g2_gen]/(g2v twistGen) -V. apply: congr1. move: P. rewrite pair1. by case.
Qed.
Lemma g2in_gen : g2in g2_gen. Proof. exists 1%Z. by rewrite -gen_1. Qed.
Lemma zeta_n1 : zeta <> 1. Proof. rewrite zetaE. exact: fe1_not1. Qed.
Lemma zeta_n0 : zeta != 0. Proof. rewrite zeta_opt. exact: (opt_n0 (tor_em z1g) g2in_gen). Qed.
Lemma zeta_r : zeta ^+ Z.to_nat bnOrder = 1. Proof. rewrite zeta_opt -rn_def. exact: (opt_ord (tor_em z1g) g2in_gen). Qed.
Lemma zeta_eq a b : zx zeta a = zx zeta b <-> (a mod bnOrder = b mod bnOrder)%Z.
Proof. exact: (zx_eq bnN_prime zeta_n1 zeta_n0 zeta_r). Qed.
Lemma zeta_eq1 a : zx zeta a = 1 <-> (a mod bnOrder = 0)%Z.
Proof. exact: (zx_eq1 bnN_prime zeta_n1 zeta_n0 zeta_r). Qed.
Lemma opt_gen a b : opt (em (zmul bn_P a g1_gen)) (ptmul b g2_gen) = zx zeta (a * b).
Proof. rewrite (opt_mul1 _ z1g (g2in_mul _ g2in_gen)) (opt_mul2 _ (tor_em z1g) g2in_gen) -zxM Z.mul_comm zeta_opt. reflexivity. Qed.
Lemma pair_exp p q a b : g1_ok p -> g1v p = zmul bn_P a g1_gen -> g2_ok q -> g2v q = ptmul b g2_gen ->
  (tpz q = gfP2_One -> v2 (tpt q) = 1) -> exists e, PairBN p q = Ok e /\ v12 e = zx zeta (a * b).
Proof.
move=> okp Ep okq Eq T. have [e [P V]] := pair_opt okp okq Eq T. exists e. split; first exact: P.
rewrite V Ep Eq. exact: opt_gen.
Qed.

Definition log1 (p : curvePoint) (x : Z) : Prop := g1_ok p /\ g1v p = zmul bn_P x g1_gen.
Definition log2 (q : twistPoint) (y : Z) : Prop := g2_ok q /\ g2v q = ptmul y g2_gen /\ (tpz q = gfP2_One -> v2 (tpt q) = 1).
Lemma log1_ex p : g1_ok p -> exists x, log1 p x.
Proof. move=> ok. have [_ [k [_ E]]] := g1_cyclic ok. by exists k. Qed.
Lemma mod0 : (0 mod bnOrder = 0)%Z. Proof. exact: Zmod_0_l. Qed.
Lemma log1_inf p x : log1 p x -> (g1v p = None <-> (x mod bnOrder = 0)%Z).
Proof.
move=> [_ ->]. have := g1_scalars x 0. rewrite mod0. exact.
Qed.
Lemma log2_inf q y : log2 q y -> (g2v q = Inf <-> (y mod bnOrder = 0)%Z).
Proof.
move=> [_ [-> _]]. have := proj2 g2_scalars y 0%Z. rewrite mod0 ptmul_0. exact.
Qed.
Lemma log_pair p q x y : log1 p x -> log2 q y -> exists e, PairBN p q = Ok e /\ v12 e = zx zeta (x * y).
Proof. move=> [o E] [o2 [E2 T]]. exact: (pair_exp o E o2 E2 T). Qed.
Lemma isone_eq a : GTIsOne a = true <-> v12 a = 1.
Proof. rewrite (proj2 (gt_tests a)). split=> [/eqP|/eqP]; exact. Qed.

Lemma pair_nondegenerate p q k : g1_ok p -> g2_ok q -> g2v q = ptmul k g2_gen ->
  (tpz q = gfP2_One -> v2 (tpt q) = 1) ->
  exists e, PairBN p q = Ok e /\ (GTIsOne e = true <-> g1v p = None \/ g2v q = Inf).
Proof.
move=> o o2 E T. have [x L1] := log1_ex o. have L2 : log2 q k by [].
have [e [P V]] := log_pair L1 L2. exists e. split; first exact: P.
rewrite isone_eq V zeta_eq1 (log1_inf L1) (log2_inf L2). split=> [H|[H|H]].
- have D : (bnOrder | x * k)%Z by apply: Zmod_divide => //; have := r_pos bnN_prime; lia.
  case: (prime_mult _ bnN_prime _ _ D) => D'; [left|right]; exact: Zdivide_mod.
- by rewrite Z.mul_mod ?H ?Z.mul_0_l ?mod0 //; have := r_pos bnN_prime; lia.
- by rewrite Z.mul_mod ?H ?Z.mul_0_r ?mod0 //; have := r_pos bnN_prime; lia.
Qed.
Lemma pair_same p q p' q' x y x' y' : 
  g1_ok p -> g1v p = zmul bn_P x g1_gen -> g1_ok p' -> g1v p' = zmul bn_P x' g1_gen ->
  g2_ok q -> g2v q = ptmul y g2_gen -> (tpz q = gfP2_One -> v2 (tpt q) = 1) ->
  g2_ok q' -> g2v q' = ptmul y' g2_gen -> (tpz q' = gfP2_One -> v2 (tpt q') = 1) ->
  exists e e', PairBN p q = Ok e /\ PairBN p' q' = Ok e' /\
    (GTMarshal e = GTMarshal e' <-> ((x * y) mod bnOrder = (x' * y') mod bnOrder)%Z).
Proof.
move=> o E o' E' o2 E2 T o2' E2' T'.
have [e [P V]] := pair_exp o E o2 E2 T. have [e' [P' V']] := pair_exp o' E' o2' E2' T'.
exists e, e'. split; first exact: P. split; first exact: P'. rewrite BNEnc.gt_marshal_eq V V'. exact: zeta_eq.
Qed.
Definition dot (xs ys : list Z) : Z := fold_right Z.add 0%Z (List.map (fun xy => fst xy * snd xy)%Z (combine xs ys)).
Lemma check_fold ps qs xs ys : Forall2 log1 ps xs -> Forall2 log2 qs ys ->
  fold_right (fun pq r => gt_val (PairBN (fst pq) (snd pq)) * r) 1 (combine ps qs) = zx zeta (dot xs ys).
Proof.
move=> H. elim: H qs ys => {ps xs} [|p x ps xs L1 _ IH] qs ys H2.
  symmetry. exact: zx0.
case: H2 => {qs ys} [|q y qs ys L2 H2]; first by symmetry; exact: zx0.
have [e [P V]] := log_pair L1 L2. have I := IH _ _ H2.
rewrite /dot. cbn [combine fold_right List.map fst snd]. rewrite -/(dot xs ys) I P. cbn [gt_val].
rewrite V (zxD _ _ zeta_n0). reflexivity.
Qed.
Lemma pairing_check_exact ps qs xs ys :
  Forall2 (fun p x => g1_ok p /\ g1v p = zmul bn_P x g1_gen) ps xs ->
  Forall2 (fun q y => g2_ok q /\ g2v q = ptmul y g2_gen /\ (tpz q = gfP2_One -> v2 (tpt q) = 1)) qs ys ->
  (length ps <= length qs)%coq_nat ->
  PairingCheck ps qs = Ok ((fold_right Z.add 0 (List.map (fun xy => fst xy * snd xy) (combine xs ys))) mod bnOrder =? 0)%Z.
Proof.
move=> H1 H2 L. rewrite pairing_check //; last first.
- elim: H2 {L} => [|q y l l' [o _] _ IH]; constructor; [exact: o|exact: IH].
- elim: H1 {L} => [|q y l l' [o _] _ IH]; constructor; [exact: o|exact: IH].
apply: congr1. rewrite (check_fold H1 H2) -/(dot xs ys).
apply/eqP/Z.eqb_spec; exact: (proj1 (zeta_eq1 _)) || exact: (proj2 (zeta_eq1 _)).
Qed.

(** ** a negated G2 point *)
Lemma neg_help (F : fieldType) (a b : F) : a != 0 -> a * b <> 1 -> b <> a^-1.
Proof. move=> a0 H E. apply: H. by rewrite E mulfV. Qed.
Lemma pair_neg_wrong : exists p q e e', g1_ok p /\ g2_ok q /\ g2v q = g2_gen /\
  PairBN p q = Ok e /\ PairBN p (G2Neg q) = Ok e' /\ v12 e' <> (v12 e)^-1.
Proof.
exists curveGen, twistGen, fe1, fe2. split; first exact: (proj1 g1g). split; first exact: g2_gen_ok.
split; first reflexivity. split; first exact: pair1. split; first exact: pair2.
apply: neg_help; last exact: fe12_not1. rewrite -zetaE. exact: zeta_n0.
Qed.
Lemma zx_opp (F : fieldType) (z : F) x y : zx z (x * - y) = (zx z (x * y))^-1.
Proof. rewrite -zxN. apply: congr1. ring. Qed.
Lemma pair_neg_rep p q q' k : g1_ok p -> g2_ok q -> g2v q = ptmul k g2_gen -> (tpz q = gfP2_One -> v2 (tpt q) = 1) ->
  g2_ok q' -> g2v q' = pt_neg (g2v q) -> (tpz q' = gfP2_One -> v2 (tpt q') = 1) ->
  exists e e', PairBN p q = Ok e /\ PairBN p q' = Ok e' /\ v12 e' = (v12 e)^-1.
Proof.
move=> o o2 E T o2' E' T'. have [x L1] := log1_ex o. have L2 : log2 q k by [].
have L2' : log2 q' (- k).
  split; first exact: o2'. split; last exact: T'. rewrite E' E. symmetry. exact: (@ptmulN c2 k _ g2_gen_on).
have [e [P V]] := log_pair L1 L2. have [e' [P' V']] := log_pair L1 L2'. exists e, e'.
split; first exact: P. split; first exact: P'. rewrite V V'. exact: zx_opp.
Qed.
Lemma pair_neg_proj p q k : g1_ok p -> g2_ok q -> g2v q = ptmul k g2_gen -> tpz q <> gfP2_One ->
  exists e e', PairBN p q = Ok e /\ PairBN p (G2Neg q) = Ok e' /\ v12 e' = (v12 e)^-1.
Proof.
move=> o o2 E N. have [A B] := g2_neg_ok o2. apply: (pair_neg_rep o o2 E _ A B) => H; exfalso; exact: (N H).
Qed.
Lemma pair_neg_enc p q k : g1_ok p -> g2_ok q -> g2v q = ptmul k g2_gen -> (tpz q = gfP2_One -> v2 (tpt q) = 1) ->
  exists q' e e', G2Unmarshal (fst (G2Marshal (G2Neg q))) = Some q' /\
  PairBN p q = Ok e /\ PairBN p q' = Ok e' /\ v12 e' = (v12 e)^-1.
Proof.
move=> o o2 E T. have [A B] := g2_neg_ok o2. have [q' [U [ok V]]] := g2_roundtrip A. exists q'.
have B' : g2v q' = pt_neg (g2v q) by rewrite V B.
have [e [e' H]] := pair_neg_rep o o2 E T ok B' (@unm_t _ _ U). exists e, e'. split; first exact: U. exact: H.
Qed.
Lemma neg_hyps : g1_ok curveGen /\ g2_ok (G2ScalarBaseMult 5) /\ g2v (G2ScalarBaseMult 5) = ptmul 5 g2_gen /\
  tpz (G2ScalarBaseMult 5) <> gfP2_One.
Proof.
split; first exact: (proj1 g1g). have [A B] := g2_base_ok (Pos2Z.is_nonneg 5). split; first exact: A. split; first exact: B.
Local Transparent bn_P.
by vm_compute.
Local Opaque bn_P.
Qed.
Lemma log2_dec k : (0 <= k)%Z -> exists q, G2Unmarshal (fst (G2Marshal (G2ScalarBaseMult k))) = Some q /\ log2 q k.
Proof.
move=> k0. have [A B] := g2_base_ok k0. have [q [U [ok V]]] := g2_roundtrip A. exists q. split; first exact: U.
split; first exact: ok. split; last exact: (@unm_t _ _ U). rewrite V. exact: B.
Qed.
Local Transparent bnOrder.
Lemma chk1 : ((6 * 1 + (-2 * 3 + 0)) mod bnOrder =? 0)%Z = true. Proof. by []. Qed.
Lemma chk2 : ((6 * 1 + (1 * 3 + 0)) mod bnOrder =? 0)%Z = false. Proof. by []. Qed.
Local Opaque bnOrder.
Lemma check_example e : exists q1 q3, G2Unmarshal (fst (G2Marshal (G2ScalarBaseMult 1))) = Some q1 /\
  G2Unmarshal (fst (G2Marshal (G2ScalarBaseMult 3))) = Some q3 /\
  PairingCheck [:: G1ScalarBaseMult e 6; G1ScalarBaseMult e (-2)] [:: q1; q3] = Ok true /\
  PairingCheck [:: G1ScalarBaseMult e 6; G1ScalarBaseMult e 1] [:: q1; q3] = Ok false.
Proof.
have [q1 [U1 L1]] := log2_dec (Pos2Z.is_nonneg 1). have [q3 [U3 L3]] := log2_dec (Pos2Z.is_nonneg 3). exists q1, q3.
split; first exact: U1. split; first exact: U3.
have F2 : Forall2 log2 [:: q1; q3] [:: 1; 3]%Z.
  constructor; first exact: L1. constructor; first exact: L3. constructor.
have F1 x y : Forall2 log1 [:: G1ScalarBaseMult e x; G1ScalarBaseMult e y] [:: x; y].
  constructor; first exact: g1_base_ok. constructor; first exact: g1_base_ok. constructor.
split.
- rewrite (pairing_check_exact (F1 6 (-2))%Z F2 (le_n _)). cbn [combine List.map fold_right fst snd]. rewrite chk1. reflexivity.
- rewrite (pairing_check_exact (F1 6 1)%Z F2 (le_n _)). cbn [combine List.map fold_right fst snd]. rewrite chk2. reflexivity.
Qed.
