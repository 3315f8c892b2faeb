(** * Bilinearity of Pair *)
From Coq Require Import ZArith Znumtheory Lia Bool List Ring_theory Field_theory.
From mathcomp Require Import all_ssreflect all_algebra.
From Verif Require Import Base BaseFacts Fp ZMod SpecCurve ZField MCRing EC ECGroup PtGroup Jac FieldExt BB BN256 BNTower BNField ZExp BNFrob BNFinal SpecBN BNG1 BNGroup BNG2 BNGroup2 BNBytes BNEnc BNAlias SpecPair PtMap BNLine BNEigen BNMiller BNPair Cocycle CocycleExt AteBilin.
Set Implicit Arguments.
Unset Strict Implicit.
Unset Printing Implicit Defensive.
Import GRing.Theory.
Delimit Scope Z_scope with Z.
Local Open Scope ring_scope.

(** ** numbers *)
Lemma nn_ok : ((s62 + bn_P - bn_P * bn_P + bn_P * bn_P * bn_P) mod bnOrder = 0)%Z. Proof. by vm_compute. Qed.
Definition nnq : Z := ((s62 + bn_P - bn_P * bn_P + bn_P * bn_P * bn_P) / bnOrder)%Z.
Lemma nn_val : (s62 + bn_P - bn_P * bn_P + bn_P * bn_P * bn_P = bnOrder * nnq)%Z. Proof. by vm_compute. Qed.
Lemma ord4 : (bnOrder = 4 * (bnOrder / 4) + 1)%Z. Proof. by vm_compute. Qed.
Lemma ord4_pos : (0 <= bnOrder / 4)%Z. Proof. by vm_compute. Qed.
Definition dig_ok (d : Z) : bool := ((d =? 0) || (d =? 1) || (d =? -1))%Z.
Lemma dig_all : forallb dig_ok miller_digits = true. Proof. by vm_compute. Qed.
Lemma dig_ok_all : Forall (fun d => d = 0 \/ d = 1 \/ d = -1)%Z miller_digits.
Proof.
apply/Forall_forall => d H. have := proj1 (forallb_forall _ _) dig_all d H.
rewrite /dig_ok => /orP [/orP [|]|] /Z.eqb_eq; auto.
Qed.
(** sealed exponents, so that no tactic unfolds them *)
Lemma fen_sig : {n : nat | n = Z.to_nat final_exp}. Proof. by exists (Z.to_nat final_exp). Qed.
Definition fen : nat := sval fen_sig.
Lemma fen_def : fen = Z.to_nat final_exp. Proof. exact: (proj2_sig fen_sig). Qed.
Lemma rn_sig : {n : nat | n = Z.to_nat bnOrder}. Proof. by exists (Z.to_nat bnOrder). Qed.
Definition rn : nat := sval rn_sig.
Lemma rn_def : rn = Z.to_nat bnOrder. Proof. exact: (proj2_sig rn_sig). Qed.
Lemma fe_pos : (0 < fen)%coq_nat.
Proof. rewrite fen_def. apply: (proj1 (Z2Nat.inj_lt 0 _ _ _)); [lia|apply: Z.lt_le_incl|]; exact: final_exp_pos. Qed.
Local Opaque bn_P bnOrder mk2 mk6 mk12 bn_u final_exp q6 easy_exp s62 nnq miller_digits v2 v6 v12 in12_2 om12 ptmul untwist ate_miller.

(** ** the curve over GF(p^12) *)
Definition b12 : K12 := in12_2 (v2 (GfP2 0 3)).
Lemma b12_in : in12 (ph 3) = b12.
Proof. by rewrite in12E /b12 v2E ph0. Qed.
Lemma k12_3 : (3%:R : K12) != 0.
Proof. rewrite -(fmn i12D i12_1 3) (fm_eq0 i12D i12M i12_1). exact: k2_3. Qed.
Lemma g2b_xi : g2_b * xi2 = v2 (GfP2 0 3).
Proof. rewrite /g2_b -/xi2. apply: divfK. exact: xi_neq0. Qed.
Lemma b12_neq0 : b12 != 0.
Proof.
rewrite /b12 (fm_eq0 i12D i12M i12_1) -g2b_xi. apply: mulf_neq0; [exact: g2b_neq0|exact: xi_neq0].
Qed.
Lemma om6 : om12 ^+ 6 = in12_2 xi2.
Proof.
have -> : 6%N = (2 * 3)%N by []. rewrite exprM om_2 -e12X tau_3. reflexivity.
Qed.
Lemma untwist_on q : on_curve b12 (untwist q) = on_curve g2_b q.
Proof.
rewrite untwistE. case: q => [|x y] //=.
have -> : (in12_2 y * om12 ^+ 3) ^+ 2 = in12_2 (y ^+ 2) * om12 ^+ 6.
  by rewrite exprMn -exprM (fmX i12M i12_1).
have -> : (in12_2 x * om12 ^+ 2) ^+ 3 + b12 = in12_2 (x ^+ 3 + g2_b) * om12 ^+ 6.
  by rewrite exprMn -exprM i12D mulrDl (fmX i12M i12_1 x 3) om6 -[in12_2 g2_b * _]i12M g2b_xi.
rewrite (inj_eq (mulIf (expf_neq0 6 om_neq0))). exact: (fm_eq i12D i12M i12_1).
Qed.
Lemma fr12D (x y : K12) : (x + y) ^+ pn = x ^+ pn + y ^+ pn. Proof. exact: (frobD char12). Qed.
Local Notation fr12 := (fun x : K12 => x ^+ pn).
Lemma frob_mp p : frob_pt p = mp fr12 p. Proof. by case: p. Qed.
Lemma fr12M (x y : K12) : (x * y) ^+ pn = x ^+ pn * y ^+ pn. Proof. exact: exprMn. Qed.
Lemma fr12_1 : (1 : K12) ^+ pn = 1. Proof. exact: expr1n. Qed.
Lemma ph_fr x : in12 (ph x) ^+ pn = in12 (ph x).
Proof. by rewrite /in12 -e12X -e6X -e2X fermatn. Qed.
Lemma b12_fr : b12 ^+ pn = b12. Proof. rewrite -b12_in. exact: ph_fr. Qed.
Lemma frob_on p : on_curve b12 p -> on_curve b12 (frob_pt p).
Proof.
case: p => [|x y] //= /eqP H. apply/eqP.
by rewrite -(fmX fr12M fr12_1 y 2) H fr12D (fmX fr12M fr12_1 x 3) b12_fr.
Qed.
Lemma tfr_on q : on_curve g2_b q -> on_curve g2_b (tfr q).
Proof. rewrite -!untwist_on untwist_tfr. exact: frob_on. Qed.
Lemma tfr_add p q : tfr (pt_add p q) = pt_add (tfr p) (tfr q).
Proof. exact: (pm_add frD2 frM2 fr1_2 s6_neq0 k2_2). Qed.

(** ** the group of the twist *)
Definition TG : zmodType := [zmodType of fpoint c2].
Definition uu (A : TG) : pt K12 := untwist (fpv A).
Definition psi2 (A : TG) : TG := @FPoint c2 (tfr (fpv A)) (tfr_on (fpP A)).
Lemma uu_oc A : on_curve b12 (uu A). Proof. rewrite /uu untwist_on. exact: fpP. Qed.
Lemma uu0 : uu 0 = Inf. Proof. rewrite /uu untwistE. reflexivity. Qed.
Lemma uuD A B : uu (A + B) = pt_add (uu A) (uu B). Proof. exact: untwist_add. Qed.
Lemma uuN A : uu (- A) = pt_neg (uu A). Proof. exact: untwist_neg. Qed.
Lemma uu_inf A : uu A = Inf -> A = 0.
Proof.
rewrite /uu untwistE => H. apply: fpv_inj. case: (fpv A) H => [|x y] // _.
Qed.
Lemma psi2D A B : psi2 (A + B) = psi2 A + psi2 B. Proof. apply: fpv_inj. exact: tfr_add. Qed.
Lemma psi2u A : uu (psi2 A) = mp fr12 (uu A). Proof. rewrite -frob_mp. exact: untwist_tfr. Qed.

(** ** what the final exponentiation kills *)
Lemma fr2D (x y : K12) : fr2 (x + y) = fr2 x + fr2 y. Proof. by rewrite /fr2 !fr12D. Qed.
Lemma fr2N (x : K12) : fr2 (- x) = - fr2 x. Proof. by rewrite /fr2 !(fmN fr12D). Qed.
Lemma fixed_kill (z : K12) : z != 0 -> fr2 (fr2 (fr2 z)) = z -> z ^+ fen = 1.
Proof.
rewrite fen_def. move=> z0 H. have E : zx z final_exp = 1.
  have Q : zx z (q6 - 1)%Z = 1.
    have := fr2_3 z 1. rewrite zx1 H Z.mul_1_l => H'.
    have -> : (q6 - 1 = q6 + - (1))%Z by []. by rewrite zxD // -H' zxN zx1 divff.
  rewrite -final_exp_ok easyE !zxM Q !zx_one. by [].
rewrite -E. symmetry. exact: (zx_pos _ (Z.lt_le_incl _ _ final_exp_pos)).
Qed.
Lemma fix_in (x : K2) : fr2 (fr2 (fr2 (in12_2 x * om12 ^+ 2))) = in12_2 x * om12 ^+ 2.
Proof. by rewrite om_2 -[in12_2 x]/(e12 (e6 x)) -e12M /e12 conj12 oppr0. Qed.
Local Notation gd := (@good K12 b12 TG uu pn).
Lemma kill_v x y A : gd (Aff x y) -> vt (uu A) x ^+ fen = 1.
Proof.
move=> g. have n0 := vtn A g. case: g => _ _ [fx _].
have Fx : fr2 x = x by rewrite /fr2 !fx.
apply: fixed_kill n0 _. rewrite /uu untwistE. case: (fpv A) => [|x' y'].
  by rewrite /fr2 /= !expr1n.
by rewrite /= !(fr2D, fr2N) !Fx fix_in.
Qed.
Lemma pnZ' : Z.of_nat pn = bn_P. Proof. exact: pnZ. Qed.
Lemma kill_N (k : K12) : k != 0 -> zx k (NN pn s62) ^+ fen = 1.
Proof.
rewrite fen_def. move=> k0. rewrite -(zx_pos _ (Z.lt_le_incl _ _ final_exp_pos)) -zxM /NN pnZ nn_val.
have -> : (bnOrder * nnq * final_exp = (final_exp * bnOrder) * nnq)%Z by ring.
rewrite final_exp_exact zxM (zx_p12 k0) zx_one. by [].
Qed.
Lemma ord_one (z : K12) : z ^+ 4 = 1 -> z ^+ rn = 1 -> z = 1.
Proof.
move=> H4. rewrite rn_def ord4 Z2Nat.inj_add; [|have := ord4_pos; lia|lia].
rewrite Z2Nat.inj_mul; [|lia|exact: ord4_pos]. move: (Z.to_nat (bnOrder / 4)) => n.
rewrite exprD. have -> : (Z.to_nat 4 * n)%coq_nat = (4 * n)%N by []. by rewrite exprM H4 expr1n mul1r expr1.
Qed.

(** ** evaluation points *)
Definition lft12 (p : pt K1) : pt K12 := match p with Inf => Inf | Aff x y => Aff (in12 x) (in12 y) end.
Lemma in12D x y : in12 (x + y) = in12 x + in12 y. Proof. by rewrite /in12 e2D e6D e12D. Qed.
Lemma in12M x y : in12 (x * y) = in12 x * in12 y. Proof. by rewrite /in12 e2M e6M e12M. Qed.
Lemma in12_1 : in12 1 = 1. Proof. by rewrite /in12 e2_1 e6_1 e12_1. Qed.
Lemma lft12E p : lft12 p = pt_map in12 1 p.
Proof. case: p => [|x y] //=. by rewrite !expr1n !mulr1. Qed.
Lemma lft12_add p q : lft12 (pt_add p q) = pt_add (lft12 p) (lft12 q).
Proof. rewrite !lft12E. exact: (pm_add in12D in12M in12_1 (oner_neq0 _) k12_2). Qed.
Lemma lft12_neg p : lft12 (pt_neg p) = pt_neg (lft12 p).
Proof. rewrite !lft12E. exact: (pm_neg _ in12D). Qed.
Lemma lft12_on p : on_curve (ph 3) p -> on_curve b12 (lft12 p).
Proof.
case: p => [|x y] //= /eqP H. apply/eqP.
by rewrite -(fmX in12M in12_1 y 2) H in12D (fmX in12M in12_1 x 3) b12_in.
Qed.
Lemma in12_mk x : in12 x = mk12 0 (mk6 0 0 (e2 x)). Proof. by []. Qed.
Lemma tw_mk x' : in12_2 x' * om12 ^+ 2 = mk12 0 (mk6 0 x' 0).
Proof.
rewrite om_2 -[in12_2 x']/(e12 (e6 x')) -e12M /e12 /e6 /tau6 mk6M.
by rewrite !(mulr0, mul0r, addr0, add0r, mulr1).
Qed.
Lemma tw_apart x x' : x != 0 -> in12 x != in12_2 x' * om12 ^+ 2.
Proof.
move=> x0. apply/eqP. rewrite in12_mk tw_mk => /mk12_inj [_] /mk6_inj [_ [_ H]].
by move: (e2_neq0 x0); rewrite H eqxx.
Qed.
(** points of order r *)
Definition tor (p : pt K1) : Prop := on_curve (ph 3) p /\ (forall x y, p = Aff x y -> x != 0).
Lemma tor_good p : tor p -> gd (lft12 p).
Proof.
case=> o H. split; first exact: lft12_on.
- move=> A. case: p o H => [|x y] // _ H. rewrite /= /uu untwistE. case: (fpv A) => [|x' y'] //=.
  exact: (tw_apart _ (H _ _ erefl)).
- case: p o H => [|x y] _ _ //=. have [a [_ <-]] := ph_surj x. have [c [_ <-]] := ph_surj y. by rewrite !ph_fr.
Qed.

(** ** the pairing of two points *)
Definition opt (p : pt K1) (q : pt K2) : K12 := optimal_ate miller_digits (lft12 p) (untwist q).
Definition eig (A : TG) : Prop := smul s62 A + psi2 A - psi2 (psi2 A) + psi2 (psi2 (psi2 A)) = 0.
Lemma ate_millerE ds p q : ate_miller ds p q = ate_gen ds p q (mp fr12 q) (pt_neg (mp fr12 (mp fr12 q))).
Proof. Transparent ate_miller. by rewrite /ate_miller /ate_gen !frob_mp. Opaque ate_miller. Qed.
Lemma optE p (A : TG) : opt p (fpv A) = ate uu pn miller_digits (lft12 p) A ^+ fen.
Proof. rewrite /opt optimal_ateE ate_millerE fen_def. reflexivity. Qed.
Lemma opt_neq0 p (A : TG) : tor p -> eig A -> ate uu pn miller_digits (lft12 p) A != 0.
Proof.
move=> t e. apply: (@ate_neq0 K12 b12 k12_2 k12_3 b12_neq0 TG uu uu_oc uu0 uuD uuN uu_inf pn psi2 psi2u
  fen s62 miller_digits _ kill_v dig_ok_all s62E _ (tor_good t) A e).
apply/ltP. exact: fe_pos.
Qed.
Lemma to_nat_mul a b : (0 <= a)%Z -> (0 <= b)%Z -> Z.to_nat (a * b) = (Z.to_nat a * Z.to_nat b)%N.
Proof. exact: Z2Nat.inj_mul. Qed.
Lemma ord_pos' : (0 <= bnOrder)%Z. Proof. have := bnN_gt3. lia. Qed.
Lemma opt_order p (A : TG) : tor p -> eig A -> opt p (fpv A) ^+ rn = 1.
Proof.
move=> t e. have n0 := opt_neq0 t e. rewrite optE -exprM fen_def rn_def.
have H := zx_p12 n0. rewrite -final_exp_exact in H.
rewrite -H. rewrite (zx_pos _ (Z.mul_nonneg_nonneg _ _ (Z.lt_le_incl _ _ final_exp_pos) ord_pos')).
rewrite (to_nat_mul (Z.lt_le_incl _ _ final_exp_pos) ord_pos'). reflexivity.
Qed.
Lemma drop_gen (F : fieldType) (a b : F) r : (forall z : F, z ^+ 4 = 1 -> z ^+ r = 1 -> z = 1) ->
  b != 0 -> a ^+ r = 1 -> b ^+ r = 1 -> a ^+ 4 = b ^+ 4 -> a = b.
Proof.
move=> X b0 oa ob H. have : a / b = 1.
  apply: X; rewrite exprMn exprVn.
    rewrite H mulfV //. exact: expf_neq0.
  by rewrite oa ob invr1 mulr1.
move=> E. by rewrite -(mulfVK b0 a) E mul1r.
Qed.
Lemma drop4 (a b : K12) : b != 0 -> a ^+ rn = 1 -> b ^+ rn = 1 -> a ^+ 4 = b ^+ 4 -> a = b.
Proof. exact: (drop_gen ord_one). Qed.
Lemma root_neq0 (F : fieldType) (a : F) n : a ^+ n.+1 = 1 -> a != 0.
Proof. move=> H. apply/eqP => E. move: H. rewrite E expr0n /= => /esym/eqP. by rewrite oner_eq0. Qed.
Lemma posS z : (0 < z)%Z -> exists n, Z.to_nat z = n.+1.
Proof. case: z => // p _. exists (Nat.pred (Pos.to_nat p)). rewrite /=. have := Pos2Nat.is_pos p. lia. Qed.
Lemma ordS : exists n, rn = n.+1.
Proof. rewrite rn_def. apply: posS. have := bnN_gt3. lia. Qed.
Lemma ord_neq0 (a : K12) : a ^+ rn = 1 -> a != 0.
Proof. have [n ->] := ordS. exact: root_neq0. Qed.
Lemma eig_gen (V : zmodType) (psi : V -> V) s (A B : V) : (forall X Y, psi (X + Y) = psi X + psi Y) ->
  smul s A + psi A - psi (psi A) + psi (psi (psi A)) = 0 -> smul s B + psi B - psi (psi B) + psi (psi (psi B)) = 0 ->
  smul s (A + B) + psi (A + B) - psi (psi (A + B)) + psi (psi (psi (A + B))) = 0.
Proof.
move=> psiD zA zB. rewrite smulDr !psiD opprD -[0]addr0 -{1}zA -zB.
by rewrite (addrACA (smul s A)) (addrACA (smul s A + psi A)) (addrACA (smul s A + psi A - psi (psi A))).
Qed.
Lemma eigD A B : eig A -> eig B -> eig (A + B).
Proof. exact: (eig_gen psi2D). Qed.
Lemma lin_help (F : fieldType) (a b c x y z : F) : a = x -> b = y -> c = z -> x ^+ 4 * y ^+ 4 = z ^+ 4 -> (a * b) ^+ 4 = c ^+ 4.
Proof. move=> -> -> ->. by rewrite exprMn. Qed.
Lemma lin_help3 (F : fieldType) (a b c x y z : F) : a = x -> b = y -> c = z -> x ^+ 4 * y ^+ 4 * z ^+ 4 = 1 -> (a * b * c) ^+ 4 = 1.
Proof. move=> -> -> ->. by rewrite !exprMn. Qed.
Lemma optE3 p1 p2 (A : TG) : opt (pt_neg (pt_add p1 p2)) (fpv A) =
  ate uu pn miller_digits (pt_neg (pt_add (lft12 p1) (lft12 p2))) A ^+ fen.
Proof. rewrite optE lft12_neg lft12_add. reflexivity. Qed.
Lemma mul3_order (a b c : K12) : a ^+ rn = 1 -> b ^+ rn = 1 -> c ^+ rn = 1 -> (a * b * c) ^+ rn = 1.
Proof. move=> A B C. by rewrite !exprMn A B C !mulr1. Qed.
Lemma mul2_order (a b : K12) : a ^+ rn = 1 -> b ^+ rn = 1 -> (a * b) ^+ rn = 1.
Proof. move=> A B. by rewrite exprMn A B mulr1. Qed.
Lemma opt_addQ p (A B : TG) : tor p -> eig A -> eig B -> opt p (fpv (A + B)) = opt p (fpv A) * opt p (fpv B).
Proof.
move=> t eA eB. have eAB := eigD eA eB.
have H := @lin_Q K12 b12 k12_2 k12_3 b12_neq0 TG uu uu_oc uu0 uuD uuN uu_inf pn fr12D psi2 psi2D psi2u
  fen s62 miller_digits kill_v kill_N dig_ok_all s62E _ A B (tor_good t) eA eB.
have H' : (opt p (fpv A) * opt p (fpv B)) ^+ 4 = opt p (fpv (A + B)) ^+ 4.
  exact: (lin_help (optE p A) (optE p B) (optE p (A + B)) H).
have oA := opt_order t eA. have oB := opt_order t eB. have oC := opt_order t eAB.
have oAB : (opt p (fpv A) * opt p (fpv B)) ^+ rn = 1 by exact: (mul2_order oA oB).
exact: (drop4 (ord_neq0 oAB) oC oAB (esym H')).
Qed.
Lemma torN p : tor p -> tor (pt_neg p).
Proof. case=> o H. split; first exact: oc_neg. by case: p o H => [|x y] // _ H x' y' [<- _]; exact: (H x y). Qed.
Lemma opt_neg3 p1 p2 (A : TG) : tor p1 -> tor p2 -> tor (pt_add p1 p2) -> eig A ->
  opt p1 (fpv A) * opt p2 (fpv A) * opt (pt_neg (pt_add p1 p2)) (fpv A) = 1.
Proof.
move=> t1 t2 t3 e. have t4 := torN t3.
have g3 : gd (pt_add (lft12 p1) (lft12 p2)) by rewrite -lft12_add; exact: tor_good.
have H := @lin_P K12 b12 k12_2 k12_3 b12_neq0 TG uu uu_oc uu0 uuD uuN uu_inf pn fr12D psi2 psi2u
  fen s62 miller_digits kill_v kill_N dig_ok_all s62E _ _ A (tor_good t1) (tor_good t2) g3 e.
have H' : (opt p1 (fpv A) * opt p2 (fpv A) * opt (pt_neg (pt_add p1 p2)) (fpv A)) ^+ 4 = 1.
  exact: (lin_help3 (optE p1 A) (optE p2 A) (optE3 p1 p2 A) H).
have o : (opt p1 (fpv A) * opt p2 (fpv A) * opt (pt_neg (pt_add p1 p2)) (fpv A)) ^+ rn = 1.
  exact: (mul3_order (opt_order t1 e) (opt_order t2 e) (opt_order t4 e)).
exact: (ord_one H' o).
Qed.
(** ** infinity, negation *)
Lemma line_inf (F : fieldType) (a b : pt F) : line_at a b Inf = 1. Proof. by case: a b => [|x y] [|x' y']. Qed.
Lemma miller_inf (F : fieldType) (q : pt F) ds : fst (miller_fun q Inf ds) = 1.
Proof.
rewrite /miller_fun. have : fst (1 : F, q) = 1 by []. move: (1 : F, q) => st.
elim: ds st => [|d ds IH] [f t] //= H. apply: IH. rewrite H !line_inf expr1n !mulr1.
by case: ifP => _ //; case: ifP.
Qed.
Lemma ate_inf (F : fieldType) ds (q q1 q2 : pt F) : ate_gen ds Inf q q1 q2 = 1.
Proof. rewrite /ate_gen. have := miller_inf q ds. case: (miller_fun _ _ _) => f t /= ->. by rewrite !line_inf !mulr1. Qed.
Lemma opt_inf1 q : opt Inf q = 1.
Proof. rewrite /opt optimal_ateE ate_millerE /lft12 ate_inf. exact: expr1n. Qed.
Lemma mulself (F : fieldType) (a : F) : a != 0 -> a = a * a -> a = 1.
Proof. move=> a0 H. apply: (mulfI a0). by rewrite -H mulr1. Qed.
Lemma tor_inf : tor Inf. Proof. by split. Qed.
Lemma tor_em q : zon bn_P 3 q -> tor (em q).
Proof.
move=> o. split; first exact/(em_on (zon_range o)).
case: q o => [[x y]|] o x' y' //= [<- _]. exact: (proj1 (g1_coord o)).
Qed.
Lemma psi_eig (A : TG) k : fpv A = ptmul k g2_gen -> psi2 A = smul bn_P A.
Proof.
move=> E. apply: fpv_inj. rewrite fpv_mul E. rewrite -tfr_eigen -E. reflexivity.
Qed.
Lemma smul_g (A : TG) k n : fpv A = ptmul k g2_gen -> fpv (smul n A) = ptmul (n * k) g2_gen.
Proof. move=> E. rewrite fpv_mul E. symmetry. exact: (@ptmulA c2 n k _ g2_gen_on). Qed.
Lemma smul_ord (A : TG) k : fpv A = ptmul k g2_gen -> smul bnOrder A = 0.
Proof.
move=> E. apply: fpv_inj. rewrite (smul_g bnOrder E) Z.mul_comm (@ptmulA c2 k bnOrder _ g2_gen_on) g2_gen_order. exact: ptmul_Inf.
Qed.
Lemma eig_calc (V : zmodType) (A : V) s p r m : (s + p - p * p + p * p * p = r * m)%Z -> smul r A = 0 ->
  smul s A + smul p A - smul p (smul p A) + smul p (smul p (smul p A)) = 0.
Proof.
move=> E H. rewrite -!smulA -smulN -!smulDl.
have -> : (s + p + - (p * p) + p * (p * p) = m * r)%Z by rewrite (Z.mul_comm m r) -E; ring.
by rewrite smulA H smulr0.
Qed.
Lemma eig_g (A : TG) k : fpv A = ptmul k g2_gen -> eig A.
Proof.
move=> E. rewrite /eig.
have E1 := psi_eig E. have E2 := psi_eig (smul_g bn_P E).
have E3 := psi_eig (smul_g bn_P (smul_g bn_P E)).
rewrite E1 E2 E3. exact: (eig_calc nn_val (smul_ord E)).
Qed.
Lemma opt_inf2 p : tor p -> opt p Inf = 1.
Proof.
move=> t. have e : eig 0 by apply: (@eig_g 0 0).
have H := opt_addQ t e e. rewrite addr0 in H. exact: (mulself (ord_neq0 (opt_order t e)) H).
Qed.
Lemma opt_negP p (A : TG) : tor p -> eig A -> opt (pt_neg p) (fpv A) = (opt p (fpv A))^-1.
Proof.
move=> t e. have tN := torN t.
have E : pt_add p (pt_neg p) = Inf by apply: (@pt_addN _ (ph 3)); case: t.
have t3 : tor (pt_add p (pt_neg p)) by rewrite E; exact: tor_inf.
have := opt_neg3 t tN t3 e. rewrite E opt_inf1 mulr1 => H.
have n0 := ord_neq0 (opt_order t e). apply: (mulfI n0). rewrite H mulfV //.
Qed.
Lemma inv_help (F : fieldType) (a b c d : F) : c != 0 -> d = c^-1 -> a * b * d = 1 -> c = a * b.
Proof. move=> c0 -> H. by rewrite -(mulfK c0 (a * b)) mulrAC H mul1r. Qed.
Lemma opt_addP p1 p2 (A : TG) : tor p1 -> tor p2 -> tor (pt_add p1 p2) -> eig A ->
  opt (pt_add p1 p2) (fpv A) = opt p1 (fpv A) * opt p2 (fpv A).
Proof.
move=> t1 t2 t3 e. exact: (inv_help (ord_neq0 (opt_order t3 e)) (opt_negP t3 e) (opt_neg3 t1 t2 t3 e)).
Qed.

(** ** Pair *)
Local Opaque opt.
Lemma em_lift x y : lft12 (em (Some (x, y))) = lift1 x y. Proof. by []. Qed.
Lemma opt_lift x y q : opt (em (Some (x, y))) q = optimal_ate miller_digits (lift1 x y) (untwist q).
Proof. Transparent opt. by rewrite /opt em_lift. Opaque opt. Qed.
Lemma pair_opt p q k : g1_ok p -> g2_ok q -> g2v q = ptmul k g2_gen -> (tpz q = gfP2_One -> v2 (tpt q) = 1) ->
  exists e, PairBN p q = Ok e /\ v12 e = opt (em (g1v p)) (g2v q).
Proof.
move=> okp okq Ek T. have tp : tor (em (g1v p)) by apply: tor_em; exact: (proj1 okp).
case: (Z.eq_dec (k mod bnOrder) 0) => K.
  have I : g2v q = Inf.
    rewrite Ek -(@ptmul_modr c2 _ k g2_gen_on g2_gen_order) K. reflexivity.
  exists gfP12_One. split; first by apply: pair_inf => //; right.
  rewrite I (opt_inf2 tp). exact: v12_One.
case P : (g1v p) => [[x y]|]; last first.
  exists gfP12_One. split; first by apply: pair_inf => //; left.
  rewrite opt_inf1. exact: v12_One.
have [e [E1 [E2 _]]] := pair_optate okp P okq Ek K T. exists e. split; first exact: E1.
rewrite E2 opt_lift. reflexivity.
Qed.
Definition g2in (q : pt K2) : Prop := exists k, q = ptmul k g2_gen.
Lemma g2in_on q : g2in q -> on_curve g2_b q. Proof. case=> k ->. exact: (@ptmul_on c2 k _ g2_gen_on). Qed.
Lemma g2in_pt q : g2in q -> exists A : TG, fpv A = q /\ eig A.
Proof.
move=> H. have o := g2in_on H. exists (@FPoint c2 q o). split; first reflexivity.
case: H => k E. exact: (@eig_g (@FPoint c2 q o) k E).
Qed.
Lemma g2in_add q1 q2 : g2in q1 -> g2in q2 -> g2in (pt_add q1 q2).
Proof. case=> k -> [l ->]. exists (k + l)%Z. symmetry. exact: (@ptmulD c2 k l _ g2_gen_on). Qed.
Lemma g2in_mul q k : g2in q -> g2in (ptmul k q).
Proof. case=> l ->. exists (k * l)%Z. symmetry. exact: (@ptmulA c2 k l _ g2_gen_on). Qed.
Lemma opt_bilin1 p1 p2 q : tor p1 -> tor p2 -> tor (pt_add p1 p2) -> g2in q ->
  opt (pt_add p1 p2) q = opt p1 q * opt p2 q.
Proof. move=> t1 t2 t3 /g2in_pt [A [<- e]]. exact: opt_addP. Qed.
Lemma opt_bilin2 p q1 q2 : tor p -> g2in q1 -> g2in q2 -> opt p (pt_add q1 q2) = opt p q1 * opt p q2.
Proof. move=> t /g2in_pt [A [<- eA]] /g2in_pt [B [<- eB]]. exact: opt_addQ. Qed.
Lemma opt_ord p q : tor p -> g2in q -> opt p q ^+ rn = 1.
Proof. move=> t /g2in_pt [A [<- e]]. exact: opt_order. Qed.
Lemma opt_n0 p q : tor p -> g2in q -> opt p q != 0.
Proof. move=> t g. apply: ord_neq0. exact: opt_ord. Qed.
(** scalars *)
Lemma opt_iter2 p q n : tor p -> g2in q -> opt p (ptmul (Z.pos n) q) = opt p q ^+ Pos.to_nat n.
Proof.
move=> t g. elim/Pos.peano_ind: n => [|n IH].
  rewrite (@ptmul1 c2) Pos2Nat.inj_1 expr1. reflexivity.
rewrite Pos2Z.inj_succ -Z.add_1_l.
rewrite (@ptmulD c2 _ _ _ (g2in_on g)) (@ptmul1 c2) (opt_bilin2 t g (g2in_mul _ g)) IH Pos2Nat.inj_succ exprS.
reflexivity.
Qed.
Lemma neg_help (F : fieldType) (a b : F) : a != 0 -> a * b = 1 -> b = a^-1.
Proof. move=> a0 H. apply: (mulfI a0). by rewrite H mulfV. Qed.
Lemma g2in_neg q : g2in q -> g2in (pt_neg q).
Proof. case=> k ->. exists (- k)%Z. symmetry. exact: (@ptmulN c2 k _ g2_gen_on). Qed.
Lemma opt_neg2 p q : tor p -> g2in q -> opt p (pt_neg q) = (opt p q)^-1.
Proof.
move=> t g. apply: (neg_help (opt_n0 t g)). rewrite -(opt_bilin2 t g (g2in_neg g)).
have -> : pt_add q (pt_neg q) = Inf by exact: (@pt_addN _ g2_b _ (g2in_on g)).
exact: opt_inf2.
Qed.
Lemma ptmul_zneg (F : fieldType) n (q : pt F) : ptmul (Z.neg n) q = pt_neg (ptmul (Z.pos n) q).
Proof. Transparent ptmul. by []. Opaque ptmul. Qed.
Lemma ptmul_0 (F : fieldType) (q : pt F) : ptmul 0 q = Inf. Proof. Transparent ptmul. by []. Opaque ptmul. Qed.
Lemma zx_zpos (F : fieldType) (a : F) n : zx a (Z.pos n) = a ^+ Pos.to_nat n. Proof. by []. Qed.
Lemma zx_zneg (F : fieldType) (a : F) n : zx a (Z.neg n) = (a ^+ Pos.to_nat n)^-1. Proof. by []. Qed.
Lemma opt_mul2 p q k : tor p -> g2in q -> opt p (ptmul k q) = zx (opt p q) k.
Proof.
move=> t g. case: k => [|n|n].
- rewrite ptmul_0 zx0. exact: opt_inf2.
- rewrite zx_zpos. exact: opt_iter2.
- rewrite ptmul_zneg zx_zneg (opt_neg2 t (g2in_mul _ g)) opt_iter2 //.
Qed.
Local Notation z1on q := (zon bn_P 3 q).
Lemma zon_add1 a b : z1on a -> z1on b -> z1on (zadd bn_P a b).
Proof. exact: (@ZCurve.zon_add bn_P 3 bnP_pr bnP_3 bn_b). Qed.
Lemma zon_neg1 a : z1on a -> z1on (zneg bn_P a).
Proof. exact: (@ZCurve.zon_neg bn_P 3 bnP_pr). Qed.
Lemma zon_mul1 k a : z1on a -> z1on (zmul bn_P k a).
Proof. exact: (@ZCurve.zon_mul bn_P 3 bnP_pr bnP_3 bn_b). Qed.
Lemma opt_add1 a b q : z1on a -> z1on b -> g2in q -> opt (em (zadd bn_P a b)) q = opt (em a) q * opt (em b) q.
Proof.
move=> oa ob g. have oc := zon_add1 oa ob. have E := em_add (zon_range oa) (zon_range ob).
rewrite E. apply: opt_bilin1; [exact: tor_em|exact: tor_em| |exact: g]. rewrite -E. exact: tor_em.
Qed.
Lemma opt_iter1 a q n : z1on a -> g2in q -> opt (em (zmul bn_P (Z.pos n) a)) q = opt (em a) q ^+ Pos.to_nat n.
Proof.
move=> oa g. elim/Pos.peano_ind: n => [|n IH].
  have -> : zmul bn_P 1 a = a by case: a {oa} => [[x y]|].
  rewrite Pos2Nat.inj_1 expr1. reflexivity.
have -> : zmul bn_P (Z.pos (Pos.succ n)) a = zadd bn_P a (zmul bn_P (Z.pos n) a).
  rewrite /zmul Pos.iter_succ. reflexivity.
rewrite (opt_add1 oa (zon_mul1 _ oa) g) IH Pos2Nat.inj_succ exprS. reflexivity.
Qed.
Lemma opt_neg1 a q : z1on a -> g2in q -> opt (em (zneg bn_P a)) q = (opt (em a) q)^-1.
Proof. move=> oa /g2in_pt [A [<- e]]. rewrite em_neg. apply: opt_negP; [exact: tor_em|exact: e]. Qed.
Lemma opt_mul1 a q k : z1on a -> g2in q -> opt (em (zmul bn_P k a)) q = zx (opt (em a) q) k.
Proof.
move=> oa g. case: k => [|n|n].
- rewrite zx0. exact: opt_inf1.
- rewrite zx_zpos. exact: opt_iter1.
- have -> : zmul bn_P (Z.neg n) a = zneg bn_P (zmul bn_P (Z.pos n) a) by [].
  rewrite zx_zneg (opt_neg1 (zon_mul1 _ oa) g) opt_iter1 //.
Qed.
Lemma zx_period (F : fieldType) (x : F) r k : (0 < r)%Z -> x != 0 -> x ^+ Z.to_nat r = 1 -> zx x k = x ^+ Z.to_nat (k mod r).
Proof.
move=> r0 x0 H. have [m0 _] := Z.mod_pos_bound k r r0. rewrite -(zx_pos x m0) {1}(Z.div_mod k r); last by lia.
rewrite (zxD _ _ x0) zxM (zx_pos x (Z.lt_le_incl _ _ r0)) H zx_one mul1r. reflexivity.
Qed.

(** ** the API *)
Definition pairable_t (q : twistPoint) : Prop := tpz q = gfP2_One -> v2 (tpt q) = 1.
Theorem pair_add_G1 p1 p2 p3 q k : g1_ok p1 -> g1_ok p2 -> g1_ok p3 -> g1v p3 = zadd bn_P (g1v p1) (g1v p2) ->
  g2_ok q -> g2v q = ptmul k g2_gen -> (tpz q = gfP2_One -> v2 (tpt q) = 1) ->
  exists e1 e2 e3, PairBN p1 q = Ok e1 /\ PairBN p2 q = Ok e2 /\ PairBN p3 q = Ok e3 /\ v12 e3 = v12 e1 * v12 e2.
Proof.
move=> ok1 ok2 ok3 E okq Ek T.
have [e1 [P1 V1]] := pair_opt ok1 okq Ek T. have [e2 [P2 V2]] := pair_opt ok2 okq Ek T.
have [e3 [P3 V3]] := pair_opt ok3 okq Ek T. exists e1, e2, e3.
split; first exact: P1. split; first exact: P2. split; first exact: P3.
rewrite V1 V2 V3 E. apply: opt_add1; [exact: (proj1 ok1)|exact: (proj1 ok2)|by exists k].
Qed.
Theorem pair_add_G2 p q1 q2 q3 k1 k2 : g1_ok p -> g2_ok q1 -> g2_ok q2 -> g2_ok q3 ->
  g2v q1 = ptmul k1 g2_gen -> g2v q2 = ptmul k2 g2_gen -> g2v q3 = pt_add (g2v q1) (g2v q2) ->
  (tpz q1 = gfP2_One -> v2 (tpt q1) = 1) -> (tpz q2 = gfP2_One -> v2 (tpt q2) = 1) -> (tpz q3 = gfP2_One -> v2 (tpt q3) = 1) ->
  exists e1 e2 e3, PairBN p q1 = Ok e1 /\ PairBN p q2 = Ok e2 /\ PairBN p q3 = Ok e3 /\ v12 e3 = v12 e1 * v12 e2.
Proof.
move=> okp ok1 ok2 ok3 E1 E2 E3 T1 T2 T3.
have g1 : g2in (g2v q1) by exists k1. have g2 : g2in (g2v q2) by exists k2.
have [k3 Ek3] : g2in (g2v q3) by rewrite E3; exact: g2in_add.
have [e1 [P1 V1]] := pair_opt okp ok1 E1 T1. have [e2 [P2 V2]] := pair_opt okp ok2 E2 T2.
have [e3 [P3 V3]] := pair_opt okp ok3 Ek3 T3. exists e1, e2, e3.
split; first exact: P1. split; first exact: P2. split; first exact: P3.
rewrite V1 V2 V3 E3. apply: (opt_bilin2 _ g1 g2). apply: tor_em. exact: (proj1 okp).
Qed.
Lemma opt_scal a q m n : z1on a -> g2in q ->
  opt (em (zmul bn_P m a)) (ptmul n q) = opt (em a) q ^+ Z.to_nat ((m * n) mod bnOrder).
Proof.
move=> oa g. rewrite (opt_mul1 _ oa (g2in_mul _ g)) (opt_mul2 _ (tor_em oa) g) -zxM Z.mul_comm.
apply: zx_period; [have := bnN_gt3; lia|exact: (opt_n0 (tor_em oa) g)|].
rewrite -rn_def. exact: (opt_ord (tor_em oa) g).
Qed.
Theorem pair_scal p q p' q' a b k : g1_ok p -> g1_ok p' -> g2_ok q -> g2_ok q' ->
  g1v p' = zmul bn_P a (g1v p) -> g2v q = ptmul k g2_gen -> g2v q' = ptmul b (g2v q) ->
  (tpz q = gfP2_One -> v2 (tpt q) = 1) -> (tpz q' = gfP2_One -> v2 (tpt q') = 1) ->
  exists e e', PairBN p q = Ok e /\ PairBN p' q' = Ok e' /\ v12 e' = v12 e ^+ Z.to_nat ((a * b) mod bnOrder).
Proof.
move=> okp okp' okq okq' E Ek E' T T'.
have g : g2in (g2v q) by exists k. have [k' Ek'] : g2in (g2v q') by rewrite E'; exact: g2in_mul.
have [e [P V]] := pair_opt okp okq Ek T. have [e' [P' V']] := pair_opt okp' okq' Ek' T'.
exists e, e'. split; first exact: P. split; first exact: P'. rewrite V V' E E'.
apply: opt_scal; [exact: (proj1 okp)|exact: g].
Qed.
Lemma unm_t m q : G2Unmarshal m = Some q -> tpz q = gfP2_One -> v2 (tpt q) = 1.
Proof.
rewrite /G2Unmarshal. case: (negb _) => //. case: (_ && _ && _ && _) => [[<-] /=|].
  by [].
case: (negb _) => // [[<-]] _. exact: v2_One.
Qed.
Lemma gen_t : tpz twistGen = gfP2_One -> v2 (tpt twistGen) = 1.
Proof. move=> _. exact: v2_One. Qed.
Lemma gen_1 : g2v twistGen = ptmul 1 g2_gen. Proof. rewrite (@ptmul1 c2). reflexivity. Qed.
Lemma pair_api e a b : (0 <= b)%Z -> exists q e0 e1, G2Unmarshal (fst (G2Marshal (G2ScalarBaseMult b))) = Some q /\
  PairBN curveGen twistGen = Ok e0 /\ PairBN (G1ScalarBaseMult e a) q = Ok e1 /\
  v12 e1 = v12 e0 ^+ Z.to_nat ((a * b) mod bnOrder).
Proof.
move=> b0. have [okb Vb] := g2_base_ok b0. have [q [U [okq Vq]]] := g2_roundtrip okb.
have [oka Va] := g1_base_ok e a. have [okg Vg] := g1_gen_ok.
have E1 : g1v (G1ScalarBaseMult e a) = zmul bn_P a (g1v curveGen) by rewrite Va Vg.
have E2 : g2v q = ptmul b (g2v twistGen) by rewrite Vq Vb.
have [e0 [e1 [P0 [P1 V]]]] := pair_scal okg oka g2_gen_ok okq E1 gen_1 E2 gen_t (@unm_t _ _ U).
exists q, e0, e1. split; first exact: U. split; first exact: P0. split; first exact: P1. exact: V.
Qed.
Lemma pair_bilin_hyps : g1_ok curveGen /\ g2_ok twistGen /\ g2v twistGen = ptmul 1 g2_gen /\
  (tpz twistGen = gfP2_One -> v2 (tpt twistGen) = 1) /\ tpz twistGen = gfP2_One /\
  g1_ok (G1ScalarMult newCurvePoint curveGen 5) /\ g1v (G1ScalarMult newCurvePoint curveGen 5) = zmul bn_P 5 (g1v curveGen).
Proof.
have [okg _] := g1_gen_ok. have [ok5 V5] := g1_smul_ok newCurvePoint 5 okg.
split; first exact: okg. split; first exact: g2_gen_ok. split; first exact: gen_1. split; first exact: gen_t.
split; first reflexivity. split; [exact: ok5|exact: V5].
Qed.
