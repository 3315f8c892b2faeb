(** * Pair and PairingCheck *)
From Coq Require Import ZArith Znumtheory Lia Bool List Ring_theory Field_theory.
From mathcomp Require Import all_ssreflect all_algebra.
From Verif Require Import Base BaseFacts Fp ZMod SpecCurve ZField MCRing EC ECGroup PtGroup Jac FieldExt BB BN256 BNTower BNField ZExp BNFrob BNFinal SpecBN BNG1 BNGroup BNG2 BNGroup2 BNBytes BNEnc BNAlias SpecPair PtMap BNLine BNEigen BNMiller.
Set Implicit Arguments.
Unset Strict Implicit.
Unset Printing Implicit Defensive.
Import GRing.Theory.
Delimit Scope Z_scope with Z.
Local Open Scope ring_scope.
Local Opaque bn_P bnOrder mk2 mk6 mk12 bn_u final_exp q6 easy_exp s62 miller_digits v12 in12_2 om12 v2 ptmul ate_miller.

Lemma fe_def : final_exp = ((bn_P ^ 12 - 1) / bnOrder)%Z. Proof. reflexivity. Qed.
Lemma optimal_ateE ds p q : optimal_ate ds p q = ate_miller ds p q ^+ Z.to_nat final_exp.
Proof. rewrite /optimal_ate -fe_def. reflexivity. Qed.
Lemma kill_pow c F N : in12_2 c ^+ N = 1 -> (in12_2 c * F) ^+ N = F ^+ N.
Proof. move=> H. rewrite exprMn H. exact: mul1r. Qed.
Lemma fin_help a c F N R : a = in12_2 c * F -> in12_2 c ^+ N = 1 -> F = R -> a ^+ N = R ^+ N.
Proof. move=> -> K ->. exact: (kill_pow _ K). Qed.
Lemma neq_help a c F : a = in12_2 c * F -> c != 0 -> F != 0 -> a != 0.
Proof. move=> -> c0 F0. apply: mulf_neq0; last exact: F0. rewrite (fm_eq0 i12D i12M i12_1). exact: c0. Qed.

(** ** MakeAffine of a point of G1 *)
Lemma g1_aff p x y : g1_ok p -> g1v p = Some (x, y) -> exists n, cp_MakeAffine p = Some n /\ ph (cpx n) = ph x /\ ph (cpy n) = ph y.
Proof.
move=> ok E. have [n [En [_ [_ B]]]] := g1_affine ok. exists n. split; first exact: En.
have R := g1v_range p. rewrite E in B R. have [R1 R2] := zrange256 R.
have L v w : length (be32 v) = length (be32 w) by rewrite !be32E !be_length.
have [B1 B2] := app_inj_len (L _ _) B.
have P0 : (0 < bn_P)%Z := bnP_pos.
have Mx : (0 <= cpx n mod bn_P < 2 ^ 256)%Z by apply: p256; exact: Z.mod_pos_bound.
have My : (0 <= cpy n mod bn_P < 2 ^ 256)%Z by apply: p256; exact: Z.mod_pos_bound.
rewrite !be32E in B1 B2.
rewrite (be32_inj _ _ R1 Mx B1) (be32_inj _ _ R2 My B2) !phmodZ. by [].
Qed.
Lemma miller_ok p q : g1_ok p -> exists e, miller q p = Ok e.
Proof.
move=> ok. have [n [En _]] := g1_affine ok. rewrite /miller En. eexists. reflexivity.
Qed.

(** ** the optimal ate pairing *)
Lemma pair_miller p q k x y : g1_ok p -> g1v p = Some (x, y) -> g2_ok q ->
  g2v q = ptmul k g2_gen -> (k mod bnOrder <> 0)%Z -> (tpz q = gfP2_One -> v2 (tpt q) = 1) ->
  exists e, miller q p = Ok e /\ v12 e ^+ Z.to_nat final_exp = optimal_ate miller_digits (lift1 x y) (untwist (g2v q)) /\ v12 e != 0.
Proof.
move=> okp Ep okq Eq Nk T1. have [n [En [X Y]]] := g1_aff okp Ep.
have nI : g2v q <> Inf.
  rewrite Eq => H. apply: Nk. have -> : 0%Z = (0 mod bnOrder)%Z by rewrite Zmod_0_l.
  apply/(@ptmul_inj c2 _ k 0 g2_gen_on g2_gen_neq0 g2_gen_order). rewrite H. reflexivity.
have [okA [VA ZA]] := g2_affine okq nI. set aff := tp_MakeAffine q in okA VA ZA.
have QA : Aff (v2 (tpx aff)) (v2 (tpy aff)) = g2v q.
  rewrite -VA. case: (aff) ZA => a1 a2 a3 a4 /= ->. rewrite g2v_one. reflexivity.
have tA : v2 (tpt aff) = 1.
  rewrite /aff /tp_MakeAffine. case I : (gfP2_IsOne (tpz q)); last exact: v2_One.
  apply: T1. move: ZA. rewrite /aff /tp_MakeAffine I. exact.
have zA : v2 (tpz aff) = 1 by rewrite ZA v2_One.
have oQ : on_curve g2_b (Aff (v2 (tpx aff)) (v2 (tpy aff))) by rewrite QA; exact: (proj1 okq).
have rQ : ptmul bnOrder (Aff (v2 (tpx aff)) (v2 (tpy aff))) = Inf.
  rewrite QA Eq -(@ptmulA c2 bnOrder k _ g2_gen_on) Z.mul_comm (@ptmulA c2 k bnOrder _ g2_gen_on) g2_gen_order. exact: ptmul_Inf.
have eQ : tfr (Aff (v2 (tpx aff)) (v2 (tpy aff))) = ptmul bn_P (Aff (v2 (tpx aff)) (v2 (tpy aff))).
  rewrite QA Eq. exact: tfr_eigen.
have yb : ph (cpy n) != 0.
  rewrite Y. have o : zon bn_P 3 (Some (x, y)) by rewrite -Ep; exact: (proj1 okp). exact: (proj2 (g1_coord o)).
have [c [c0 [H A0]]] := run_all oQ rQ yb eQ zA tA.
exists (fst (miller_affine aff n)). split.
  rewrite /miller En. reflexivity.
split.
  rewrite optimal_ateE /lift1 -X -Y -QA.
  exact: (fin_help H (in12_kill c0) erefl).
exact: (neq_help H c0 A0).
Qed.

Lemma fin_inf p q : g1_ok p -> g2_ok q -> cp_IsInfinity p = (if g1v p is None then true else false) /\
  tp_IsInfinity q = (g2v q == Inf).
Proof.
move=> /g1_okE [_ zp] [_ zq]. split; last exact: isinf_g2.
rewrite isinf_jv // -em_g1v. case: (g1v p) => [[a c]|]; reflexivity.
Qed.
Lemma pair_optate p q k x y : g1_ok p -> g1v p = Some (x, y) -> g2_ok q ->
  g2v q = ptmul k g2_gen -> (k mod bnOrder <> 0)%Z -> (tpz q = gfP2_One -> v2 (tpt q) = 1) ->
  exists e, PairBN p q = Ok e /\ v12 e = optimal_ate miller_digits (lift1 x y) (untwist (g2v q)) /\
    v12 e ^+ Z.to_nat bnOrder = 1.
Proof.
move=> okp Ep okq Eq Nk T1. have [e [M [E n0]]] := pair_miller okp Ep okq Eq Nk T1.
have nI : g2v q <> Inf.
  rewrite Eq => H. apply: Nk. have -> : 0%Z = (0 mod bnOrder)%Z by rewrite Zmod_0_l.
  apply/(@ptmul_inj c2 _ k 0 g2_gen_on g2_gen_neq0 g2_gen_order). rewrite H. reflexivity.
have [I1 I2] := fin_inf okp okq. rewrite Ep in I1.
exists (finalExponentiation e). split; last by split; [rewrite FE_exp; exact: E|exact: FE_order].
rewrite /PairBN /optimalAte M I1 I2. move/eqP/negbTE: nI => ->. reflexivity.
Qed.
Lemma pair_inf p q : g1_ok p -> g2_ok q -> g1v p = None \/ g2v q = Inf -> PairBN p q = Ok gfP12_One.
Proof.
move=> okp okq H. have [e M] := miller_ok q okp. have [I1 I2] := fin_inf okp okq.
rewrite /PairBN /optimalAte M I1 I2. case: H => ->; last by rewrite eqxx.
by rewrite orbT.
Qed.
Lemma pair_total p q : g1_ok p -> exists e, PairBN p q = Ok e.
Proof. move=> okp. have [e M] := miller_ok q okp. rewrite /PairBN /optimalAte M. eexists. reflexivity. Qed.

(** ** PairingCheck *)
Definition gt_val (r : res gfP12) : K12 := match r with Ok e => v12 e | _ => 0 end.
Lemma pc_loop a : forall b acc, Forall g1_ok a -> Forall g2_ok b -> (length a <= length b)%coq_nat ->
  exists m, PairingCheck_loop a b acc = Ok m /\
    v12 (finalExponentiation m) = v12 (finalExponentiation acc) *
      fold_right (fun pq r => gt_val (PairBN (fst pq) (snd pq)) * r) 1 (combine a b).
Proof.
elim: a => [|p a IH] [|q b] acc /=.
- move=> _ _ _. exists acc. by rewrite mulr1.
- move=> _ _ _. exists acc. by rewrite mulr1.
- move=> _ _ /PeanoNat.Nat.nle_succ_0 [].
move=> /Forall_cons_iff [okp oka] /Forall_cons_iff [okq okb] L.
have [e M] := miller_ok q okp.
have [I1 I2] := fin_inf okp okq.
rewrite {1}/PairBN /optimalAte M [tp_IsInfinity q || _]orbC.
case I : (cp_IsInfinity p || tp_IsInfinity q).
  have [m [E V]] := IH b acc oka okb (le_S_n _ _ L). exists m. split; first exact: E.
  rewrite V /gt_val v12_One mul1r. reflexivity.
have [m [E V]] := IH b (gfP12_Mul acc e) oka okb (le_S_n _ _ L). exists m. split; first exact: E.
rewrite V FE_mul -mulrA. reflexivity.
Qed.
Lemma isone12 e : gfP12_IsOne e = (v12 e == 1). Proof. exact: gt_isone. Qed.
Lemma FE_one : v12 (finalExponentiation gfP12_One) = 1.
Proof. by rewrite FE_exp v12_One expr1n. Qed.
Lemma pairing_check a b : Forall g1_ok a -> Forall g2_ok b -> (length a <= length b)%coq_nat ->
  PairingCheck a b = Ok (fold_right (fun pq r => gt_val (PairBN (fst pq) (snd pq)) * r) 1 (combine a b) == 1).
Proof.
move=> oka okb L. have [m [E V]] := pc_loop gfP12_One oka okb L.
rewrite /PairingCheck E. congr Ok. rewrite isone12 V FE_one mul1r. reflexivity.
Qed.
(** b too short: index out of range, unless the remaining points of G1 are infinity *)
Lemma pc_short a : forall b acc, Forall g1_ok a -> Forall g2_ok b ->
  Exists (fun p => g1v p <> None) (skipn (length b) a) -> PairingCheck_loop a b acc = Panic.
Proof.
elim: a => [|p a IH] [|q b] acc //=.
- by move=> _ _ /Exists_nil.
- by move=> _ _ /Exists_nil.
- move=> /Forall_cons_iff [okp oka] _ /Exists_cons H.
  have [I1 _] := @fin_inf p twistGen okp g2_gen_ok. rewrite I1.
  case: H => H; first by case: (g1v p) H.
  case: (g1v p) => // . by apply: IH.
move=> /Forall_cons_iff [okp oka] /Forall_cons_iff [okq okb] H.
have [e M] := miller_ok q okp. rewrite M. by case: (_ || _); apply: IH.
Qed.
Lemma pairing_check_short a b : Forall g1_ok a -> Forall g2_ok b ->
  Exists (fun p => g1v p <> None) (skipn (length b) a) -> PairingCheck a b = Panic.
Proof. move=> oka okb H. by rewrite /PairingCheck pc_short. Qed.

(** ** G2 infinity after Marshal *)
Lemma loop_zero aff minus b r2 ds : forall first ret r, v12 ret = 0 ->
  v12 (fst (miller_loop aff minus b r2 first ds (ret, r))) = 0.
Proof.
elim: ds => [|d ds IH] first ret r Z; first exact: Z.
unfold miller_loop; fold miller_loop. case: (lineFunctionDouble r b) => l nr.
have Z1 : v12 (mulLine (if first then ret else gfP12_Square ret) l) = 0.
  rewrite v12_mulLine. have -> : v12 (if first then ret else gfP12_Square ret) = 0; last exact: mul0r.
  case: first; first exact: Z. rewrite v12_Square Z mul0r. reflexivity.
rewrite /miller_add. case: (d =? 1)%Z; [|case: (d =? -1)%Z]; last exact: IH.
- case: (lineFunctionAdd _ _ _ _) => l' r'. apply: IH. rewrite v12_mulLine Z1 mul0r. reflexivity.
- case: (lineFunctionAdd _ _ _ _) => l' r'. apply: IH. rewrite v12_mulLine Z1 mul0r. reflexivity.
Qed.
Definition zero_affine : twistPoint := TwistPoint gfP2_Zero gfP2_Zero gfP2_One gfP2_One.
Lemma digits_ne : exists d ds, miller_digits = d :: ds. Proof. by eexists; eexists; vm_compute. Qed.
Lemma zero_line b : lv (fst (lineFunctionDouble zero_affine b)) = 0.
Proof.

rewrite /lv [fst _]/= [ln_a _]/= [ln_b _]/= [ln_c _]/= !(v2_Scal, v2ops) ?v2_One !(mulr0, mul0r, addr0, add0r, subr0, mul1r, mulr1, subrr, oppr0) /in12_2.
reflexivity.
Qed.
Lemma add_zero ret r p b r2 : v12 ret = 0 -> v12 (mulLine ret (fst (lineFunctionAdd r p b r2))) = 0.
Proof. move=> Z. rewrite v12_mulLine Z mul0r. reflexivity. Qed.
Lemma zero_miller b : v12 (fst (miller_affine zero_affine b)) = 0.
Proof.
rewrite /miller_affine.
have L : v12 (fst (miller_loop zero_affine (tp_Negative zero_affine) b (gfP2_Square (tpy zero_affine)) true miller_digits (gfP12_One, zero_affine))) = 0.
  have [d [ds ->]] := digits_ne. unfold miller_loop; fold miller_loop.
  have := zero_line b. case: (lineFunctionDouble zero_affine b) => l nr. rewrite [fst _]/= => Zl.
  have Z1 : v12 (mulLine gfP12_One l) = 0 by rewrite v12_mulLine Zl mulr0.
  rewrite /miller_add. case: (d =? 1)%Z; [|case: (d =? -1)%Z]; last exact: loop_zero.
  - case: (lineFunctionAdd _ _ _ _) => l' r'. apply: loop_zero. rewrite v12_mulLine Z1 mul0r. reflexivity.
  - case: (lineFunctionAdd _ _ _ _) => l' r'. apply: loop_zero. rewrite v12_mulLine Z1 mul0r. reflexivity.
case: (miller_loop _ _ _ _ _ _ _) L => ret r. rewrite [fst _]/= => Zr.
case: (lineFunctionAdd _ _ _ _) => l1 r1. case: (lineFunctionAdd _ _ _ _) => l2 r2.
rewrite [fst _]/= !v12_mulLine Zr !mul0r. reflexivity.
Qed.
Lemma pair_zero_affine p : g1_ok p -> g1v p <> None ->
  exists e, PairBN p zero_affine = Ok e /\ v12 e = 0.
Proof.
move=> okp N. have [n [En _]] := g1_affine okp.
have I1 : cp_IsInfinity p = false.
  move: okp => /g1_okE [_ zp]. rewrite isinf_jv // -em_g1v. case: (g1v p) N => [[a c]|] N; [reflexivity|by case: N].
exists (finalExponentiation (fst (miller_affine zero_affine n))). split.
  rewrite /PairBN /optimalAte /miller En I1. reflexivity.
apply: FE_zero. exact: zero_miller.
Qed.
(** after Marshal, the object of infinity makes Pair return 0 *)
Lemma pair_after_marshal p q : g1_ok p -> g1v p <> None -> g2_ok q -> g2v q = Inf ->
  PairBN p q = Ok gfP12_One /\ exists e, PairBN p (snd (G2Marshal q)) = Ok e /\ v12 e = 0.
Proof.
move=> okp N okq I. split; first by apply: pair_inf => //; right.
rewrite (g2_marshal_inf okq I). exact: pair_zero_affine.
Qed.
(** the representation does not matter *)
Lemma pair_rep p q p' q' k : g1_ok p -> g1_ok p' -> g2_ok q -> g2_ok q' ->
  g1v p = g1v p' -> g2v q = g2v q' -> g2v q = ptmul k g2_gen ->
  (tpz q = gfP2_One -> v2 (tpt q) = 1) -> (tpz q' = gfP2_One -> v2 (tpt q') = 1) ->
  exists e e', PairBN p q = Ok e /\ PairBN p' q' = Ok e' /\ v12 e = v12 e'.
Proof.
move=> okp okp' okq okq' Ep Eq Ek T T'.
case P : (g1v p) => [[x y]|]; last first.
  exists gfP12_One, gfP12_One. rewrite !pair_inf //; left; congruence.
case: (Z.eq_dec (k mod bnOrder) 0) => K.
  have I : g2v q = Inf.
    rewrite Ek -(@ptmul_modr c2 _ k g2_gen_on g2_gen_order) K. reflexivity.
  exists gfP12_One, gfP12_One. rewrite !pair_inf //; right; congruence.
have [e [E1 [E2 _]]] := pair_optate okp P okq Ek K T.
have [e' [E1' [E2' _]]] := pair_optate okp' (etrans (esym Ep) P) okq' (etrans (esym Eq) Ek) K T'.
exists e, e'. rewrite E2 E2' Eq. split; first exact: E1. split; first exact: E1'. reflexivity.
Qed.
