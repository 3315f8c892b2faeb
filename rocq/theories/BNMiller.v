(** * The pairing of bn256 is the optimal ate pairing *)
From Coq Require Import ZArith Znumtheory Lia Bool List Ring_theory Field_theory.
From mathcomp Require Import all_ssreflect all_algebra.
From Verif Require Import Base BaseFacts Fp ZMod SpecCurve ZField MCRing EC ECGroup PtGroup Jac FieldExt BB BN256 BNTower BNField ZExp BNFrob BNFinal SpecBN BNG1 BNGroup BNG2 BNGroup2 BNEnc BNAlias SpecPair PtMap BNLine BNEigen.
Set Implicit Arguments.
Unset Strict Implicit.
Unset Printing Implicit Defensive.
Import GRing.Theory.
Delimit Scope Z_scope with Z.
Local Open Scope ring_scope.

(** the multiples met along the loop are never 0, and never +-1 before an
    addition *)
Fixpoint digits_ok (n : Z) (ds : list Z) : bool :=
  match ds with
  | nil => true
  | d :: ds' =>
      negb ((2 * n) mod bnOrder =? 0)%Z &&
      (if (d =? 0)%Z then true else
         ((d =? 1) || (d =? -1))%Z && negb ((2 * n) mod bnOrder =? 1 mod bnOrder)%Z &&
         negb ((2 * n) mod bnOrder =? (-1) mod bnOrder)%Z && negb ((2 * n + d) mod bnOrder =? 0)%Z) &&
      digits_ok (2 * n + d)%Z ds'
  end.
Lemma miller_digits_ok : digits_ok 1 miller_digits = true. Proof. by vm_compute. Qed.
Lemma miller_digits_value : digits_value miller_digits = (6 * bn_u + 2)%Z. Proof. by vm_compute. Qed.
Definition s62 : Z := (6 * bn_u + 2)%Z.
Lemma s62E : digits_value miller_digits = s62. Proof. exact: miller_digits_value. Qed.
Lemma fin1 : ((s62 mod bnOrder <> bn_P mod bnOrder) /\ (s62 mod bnOrder <> (- bn_P) mod bnOrder) /\
  ((s62 + bn_P) mod bnOrder <> (- (bn_P * bn_P)) mod bnOrder) /\ ((s62 + bn_P) mod bnOrder <> (bn_P * bn_P) mod bnOrder))%Z.
Proof. by vm_compute. Qed.
Lemma fin2 : ((s62 mod bnOrder <> 0) /\ (s62 + bn_P) mod bnOrder <> 0)%Z. Proof. by vm_compute. Qed.
Lemma easyE : easy_exp = ((q6 - 1) * (bn_P * bn_P + 1))%Z. Proof. by []. Qed.
Local Opaque bn_P bnOrder mk2 mk6 mk12 bn_u final_exp q6 easy_exp.

(** ** elements of GF(p^2) disappear in the final exponentiation *)
Lemma fr2_in k : fr2 (in12_2 k) = in12_2 k.
Proof. by rewrite /fr2 -!(fmX i12M i12_1) frob2_2. Qed.
Lemma in12_kill k : k != 0 -> in12_2 k ^+ Z.to_nat final_exp = 1.
Proof.
move=> k0. have i0 : in12_2 k != 0 by rewrite (fm_eq0 i12D i12M i12_1).
have E : zx (in12_2 k) final_exp = 1.
  have Q : zx (in12_2 k) (q6 - 1)%Z = 1.
    have := fr2_3 (in12_2 k) 1. rewrite zx1 !fr2_in Z.mul_1_l => H.
    have -> : (q6 - 1 = q6 + - (1))%Z by []. by rewrite zxD // -H zxN zx1 divff.
  rewrite -final_exp_ok easyE !zxM Q !zx_one. by [].
rewrite -E. symmetry. exact: (zx_pos _ (Z.lt_le_incl _ _ final_exp_pos)).
Qed.

(** ** multiples of a point of order bnOrder *)
Lemma ptmul_Inf (F : fieldType) n : ptmul n (Inf : pt F) = Inf.
Proof.
have H k : Pos.iter (pt_add (Inf : pt F)) Inf k = Inf by elim/Pos.peano_ind: k => // k IH; rewrite Pos.iter_succ IH.
by case: n => [|k|k] //; rewrite /ptmul H.
Qed.
Lemma digits_cons n d ds : digits_ok n (d :: ds) = true ->
  [/\ (d = 0 \/ d = 1 \/ d = -1)%Z, digits_ok n (d :: nil) = true & digits_ok (2 * n + d) ds = true].
Proof.
rewrite /=. case/andP => /andP [A B] C. split; [|rewrite A B; reflexivity|exact: C].
case: Z.eqb_spec B => [->|_]; first by left.
case/andP => /andP [/andP [/orP [] /Z.eqb_eq -> _] _] _; right; [left|right]; reflexivity.
Qed.
Local Opaque s62 miller_digits v12 in12_2 om12 v2 ptmul.
Section Run.
Variables (aff : twistPoint) (b : curvePoint).
Local Notation Q := (Aff (v2 (tpx aff)) (v2 (tpy aff))).
Hypothesis oQ : on_curve g2_b Q.
Hypothesis rQ : ptmul bnOrder Q = Inf.
Hypothesis yb : ph (cpy b) != 0.
Local Notation P := (Aff (in12 (ph (cpx b))) (in12 (ph (cpy b)))).
Local Notation m n := (ptmul n Q).

Lemma qn : Q <> Inf. Proof. by []. Qed.
Lemma mul_on n : on_curve g2_b (m n). Proof. exact: (@ptmul_on c2). Qed.
Lemma mul_ord n : ptmul bnOrder (m n) = Inf.
Proof.
rewrite -(@ptmulA c2 bnOrder n _ oQ). rewrite Z.mul_comm. rewrite (@ptmulA c2 n bnOrder _ oQ).
rewrite rQ. exact: ptmul_Inf.
Qed.
Lemma mul_inf n : (n mod bnOrder <> 0)%Z -> m n <> Inf.
Proof.
move=> N E. apply: N. have -> : 0%Z = (0 mod bnOrder)%Z by rewrite Zmod_0_l.
by apply/(@ptmul_inj c2 _ n 0 oQ qn rQ).
Qed.
(** different x *)
Lemma mul_x n l x y x' y' : m n = Aff x y -> m l = Aff x' y' ->
  (n mod bnOrder <> l mod bnOrder)%Z -> (n mod bnOrder <> (- l) mod bnOrder)%Z -> x' != x.
Proof.
move=> En El N1 N2. apply/eqP => X. have := mul_on n. have := mul_on l. rewrite En El /= X => /eqP A /eqP B.
have : y ^+ 2 == y' ^+ 2 by rewrite A B.
rewrite eqf_sqr => /orP [] /eqP Y.
  apply: N1. apply/(@ptmul_inj c2 _ n l oQ qn rQ). by rewrite En El X Y.
apply: N2. apply/(@ptmul_inj c2 _ n (- l)%Z oQ qn rQ). rewrite (@ptmulN c2 l _ oQ) En El X Y. reflexivity.
Qed.

(** ** the invariant: code state against textbook state *)
Definition minv (n : Z) (st : gfP12 * twistPoint) (sp : K12 * pt K12) : Prop :=
  [/\ g2v (snd st) = m n, v2 (tpt (snd st)) = v2 (tpz (snd st)) * v2 (tpz (snd st)),
      snd sp = untwist (m n), (n mod bnOrder <> 0)%Z &
      exists k, k != 0 /\ v12 (fst st) = in12_2 k * fst sp /\ fst sp != 0].
Lemma inv_z n r : g2v r = m n -> (n mod bnOrder <> 0)%Z -> v2 (tpz r) != 0.
Proof. move=> E N. apply/eqP => H. have K : g2v r = Inf.
  rewrite g2vE.
  rewrite H.
  exact: jpt0.
apply: (mul_inf N). exact: (eq_trans (esym E) K). Qed.
Lemma inv_y n r : g2v r = m n -> (n mod bnOrder <> 0)%Z -> v2 (tpy r) != 0.
Proof.
move=> E N. have z0 := inv_z E N. have G := g2v_r z0.
have o := mul_on n. have O := mul_ord n. rewrite -E in o O. rewrite G in o O.
have [_ y0] := @order_coord c2 _ _ o O. apply/eqP => H. by rewrite H mul0r eqxx in y0.
Qed.
Lemma in12_n0 k l : k != 0 -> l != 0 -> k * l != 0 :> K2. Proof. move=> A B. by rewrite mulf_neq0. Qed.

Lemma mul_n0 (f a l : K12) : f != 0 -> a * l != 0 -> f * l != 0.
Proof. move=> f0. rewrite !mulf_eq0 !negb_or f0 => /andP [_ ->]. by []. Qed.
(** doubling; squaring is done by the caller *)
Lemma step_dbl n ret r f : g2v r = m n -> v2 (tpt r) = v2 (tpz r) * v2 (tpz r) -> (n mod bnOrder <> 0)%Z ->
  ((2 * n) mod bnOrder <> 0)%Z -> (exists k, k != 0 /\ v12 ret = in12_2 k * f) -> f != 0 ->
  minv (2 * n) (mulLine ret (fst (lineFunctionDouble r b)), snd (lineFunctionDouble r b))
    (f * line_at (untwist (m n)) (untwist (m n)) P, pt_add (untwist (m n)) (untwist (m n))).
Proof.
move=> E T N N2 [k [k0 K]] f0. have z0 := inv_z E N. have y0 := inv_y E N.
have [A B] := line_dbl_pt b T.
have D : pt_add (m n) (m n) = m (2 * n)%Z.
  rewrite -Z.add_diag (@ptmulD c2 n n _ oQ); reflexivity.
split.
- rewrite [snd _]/=. rewrite A. rewrite E. exact: D.
- exact: B.
- rewrite [snd _]/=. rewrite -untwist_add. rewrite D. reflexivity.
- exact: N2.
- have [k' [k0' L]] := line_dbl_val b T z0 y0. exists (k * k'). split; first exact: in12_n0.
  split; first by rewrite [fst _]/= [fst _]/= v12_mulLine K L E i12M mulrACA.
  have := line_dbl_neq0 T z0 y0 yb. rewrite L E. exact: (mul_n0 f0).
Qed.
Lemma step_add n l (p : twistPoint) r2 ret r sp : minv n (ret, r) sp ->
  Aff (v2 (tpx p)) (v2 (tpy p)) = m l -> v2 r2 = v2 (tpy p) * v2 (tpy p) ->
  (n mod bnOrder <> l mod bnOrder)%Z -> (n mod bnOrder <> (- l) mod bnOrder)%Z -> ((n + l) mod bnOrder <> 0)%Z ->
  minv (n + l) (mulLine ret (fst (lineFunctionAdd r p b r2)), snd (lineFunctionAdd r p b r2))
    (fst sp * line_at (untwist (m n)) (untwist (m l)) P, pt_add (snd sp) (untwist (m l))).
Proof.
move=> [/= E T S N [k [k0 [K f0]]]] El R2 N1 N2 N3. have z0 := inv_z E N.
have G := g2v_r z0. rewrite E in G. have X := mul_x G (esym El) N1 N2.
have on : on_curve g2_b (g2v r) by rewrite E; exact: mul_on.
have ol : on_curve g2_b (Aff (v2 (tpx p)) (v2 (tpy p))) by rewrite El; exact: mul_on.
have [A B] := line_add_pt b T z0 R2 on ol X.
have D : pt_add (m n) (m l) = m (n + l)%Z.
  rewrite (@ptmulD c2 n l _ oQ); reflexivity.
split.
- rewrite [snd _]/=. rewrite A. rewrite E El. exact: D.
- exact: B.
- rewrite [snd _]/=. rewrite S. rewrite -untwist_add. rewrite D. reflexivity.
- exact: N3.
- have [k' [k0' L]] := line_add_val b T z0 R2 X. exists (k * k'). split; first exact: in12_n0.
  split; first by rewrite [fst _]/= [fst _]/= v12_mulLine K L E El i12M mulrACA.
  have := line_add_neq0 T z0 r2 X yb. rewrite L E El. exact: (mul_n0 f0).
Qed.

Lemma mul1 : m 1 = Q. Proof. exact: (@ptmul1 c2). Qed.
Lemma mulN1 : Aff (v2 (tpx (tp_Negative aff))) (v2 (tpy (tp_Negative aff))) = m (-1)%Z.
Proof.
rewrite -[(-1)%Z]/(- (1))%Z (@ptmulN c2 1 _ oQ) mul1 /= v2_Sub v2_Zero sub0r. reflexivity.
Qed.
Lemma modN1 : ((- - (1)) = 1)%Z. Proof. by []. Qed.

Lemma step_digit n d (first : bool) ret r f t : (d = 0 \/ d = 1 \/ d = -1)%Z -> digits_ok n (d :: nil) = true ->
  minv n (ret, r) (f, t) -> (first = true -> f = 1) ->
  let r2 := gfP2_Square (tpy aff) in
  let lr := lineFunctionDouble r b in
  minv (2 * n + d)
    (miller_add aff (tp_Negative aff) b r2 d (mulLine (if first then ret else gfP12_Square ret) (fst lr), snd lr))
    (miller_step (untwist Q) P (f, t) d).
Proof.
move=> D0 + [E T S N [k [k0 [K f0]]]] F1 r2 lr. rewrite /= in E T S K f0.
rewrite /digits_ok. case/andP => /andP [/negP N2 DD] _.
have {}N2 : ((2 * n) mod bnOrder <> 0)%Z by move=> H; apply: N2; apply/Z.eqb_eq.
have K' : exists k, k != 0 /\ v12 (if first then ret else gfP12_Square ret) = in12_2 k * f ^+ 2.
  case Ff : first.
    exists k. split; first exact: k0. rewrite K (F1 Ff) expr1n. reflexivity.
  exists (k * k). split; first exact: in12_n0. rewrite v12_Square K i12M expr2 mulrACA. reflexivity.
have f20 : f ^+ 2 != 0 := expf_neq0 2 f0.
have I := step_dbl E T N N2 K' f20. rewrite -/lr in I.
set ret' := if first then _ else _ in I *.
have R2 p : v2 (tpy p) * v2 (tpy p) = v2 (tpy aff) * v2 (tpy aff) -> v2 r2 = v2 (tpy p) * v2 (tpy p).
  move=> ->. rewrite /r2 v2_Square. reflexivity.
have Sq : miller_step (untwist Q) P (f, t) d =
   let f' := f ^+ 2 * line_at t t P in let t' := pt_add t t in
   if (d =? 1)%Z then (f' * line_at t' (untwist Q) P, pt_add t' (untwist Q))
   else if (d =? -1)%Z then (f' * line_at t' (pt_neg (untwist Q)) P, pt_add t' (pt_neg (untwist Q)))
   else (f', t') by [].
rewrite Sq S. clear Sq. rewrite -untwist_neg.
have D : untwist (m (2 * n)%Z) = pt_add (untwist (m n)) (untwist (m n)) by case: I.
have Nn l : negb ((2 * n) mod bnOrder =? l mod bnOrder)%Z -> ((2 * n) mod bnOrder <> l mod bnOrder)%Z.
  move=> /negP H1 H2. apply: H1. exact/Z.eqb_eq.
have N0 l : negb ((2 * n + l) mod bnOrder =? 0)%Z -> ((2 * n + l) mod bnOrder <> 0)%Z.
  move=> /negP H1 H2. apply: H1. exact/Z.eqb_eq.
case: D0 => [D0|[D0|D0]]; rewrite D0.
- rewrite Z.add_0_r. exact: I.
- rewrite D0 in DD. case/andP: DD => /andP [/andP [_ A] B] C.
  have := @step_add (2 * n)%Z 1%Z aff r2 _ _ _ I (esym mul1) (R2 aff erefl) (Nn _ A) (Nn _ B) (N0 _ C).
  rewrite mul1 D. exact.
- rewrite D0 in DD. case/andP: DD => /andP [/andP [_ A] B] C.
  have Y : v2 (tpy (tp_Negative aff)) * v2 (tpy (tp_Negative aff)) = v2 (tpy aff) * v2 (tpy aff).
    rewrite /= v2_Sub v2_Zero sub0r mulrNN. reflexivity.
  have := @step_add (2 * n)%Z (-1)%Z (tp_Negative aff) r2 _ _ _ I mulN1 (R2 (tp_Negative aff) Y) (Nn _ B) (Nn _ A) (N0 _ C).
  rewrite -[(-1)%Z]/(- (1))%Z (@ptmulN c2 1 _ oQ) mul1 D. exact.
Qed.

Lemma run_loop ds : forall n (first : bool) ret r sp, digits_ok n ds = true -> minv n (ret, r) sp ->
  (first = true -> fst sp = 1) ->
  minv (fold_left (fun n d => (2 * n + d)%Z) ds n)
    (miller_loop aff (tp_Negative aff) b (gfP2_Square (tpy aff)) first ds (ret, r))
    (fold_left (miller_step (untwist Q) P) ds sp).
Proof.
elim: ds => [|d ds IH] n first ret r [f t] ok I F1; first exact: I.
case: (digits_cons ok) => D0 ok1 ok2.
have J := @step_digit n d first ret r f t D0 ok1 I F1.
rewrite [fold_left _ _ n]/= [fold_left _ _ (f, t)]/=.
have -> : miller_loop aff (tp_Negative aff) b (gfP2_Square (tpy aff)) first (d :: ds) (ret, r) =
  miller_loop aff (tp_Negative aff) b (gfP2_Square (tpy aff)) false ds (miller_add aff (tp_Negative aff) b
     (gfP2_Square (tpy aff)) d (mulLine (if first then ret else gfP12_Square ret) (fst (lineFunctionDouble r b)), snd (lineFunctionDouble r b))).
  unfold miller_loop at 1; fold miller_loop. case: (lineFunctionDouble r b) => l nr. reflexivity.
cbv zeta in J. case: (miller_add _ _ _ _ _ _) J => ret' r' J.
have F0 : false = true -> fst (miller_step (untwist Q) P (f, t) d) = 1 by [].
have := IH _ false ret' r' _ ok2 J F0. exact.
Qed.

(** ** the two additions after the loop *)
Hypothesis eQ : tfr Q = m bn_P.
Lemma q1_pt : Aff (v2 (tpx (miller_q1 aff))) (v2 (tpy (miller_q1 aff))) = tfr Q.
Proof. rewrite tfrE /= !v2_Mul !v2_Conjugate. reflexivity. Qed.
Lemma q2_pt : Aff (v2 (tpx (miller_minusQ2 aff))) (v2 (tpy (miller_minusQ2 aff))) = pt_neg (tfr (tfr Q)).
Proof.
rewrite !tfrE /= v2_Scal s3_n6 !frM2 !frob2_2 xi_c3 xi_c2 -!mulrA !xi_pp_n n6_cube.
congr Aff. rewrite e2N e2_1 mulrN1 opprK. reflexivity.
Qed.
Lemma m_q1 : Aff (v2 (tpx (miller_q1 aff))) (v2 (tpy (miller_q1 aff))) = m bn_P.
Proof. rewrite q1_pt. exact: eQ. Qed.
Lemma m_q2 : Aff (v2 (tpx (miller_minusQ2 aff))) (v2 (tpy (miller_minusQ2 aff))) = m (- (bn_P * bn_P))%Z.
Proof.
rewrite q2_pt eQ tfr_mul eQ -(@ptmulA c2 bn_P bn_P _ oQ) (@ptmulN c2 _ _ oQ). reflexivity.
Qed.
Lemma run_all : v2 (tpz aff) = 1 -> v2 (tpt aff) = 1 ->
  exists k, k != 0 /\ v12 (fst (miller_affine aff b)) = in12_2 k * ate_miller miller_digits P (untwist Q) /\
    ate_miller miller_digits P (untwist Q) != 0.
Proof.
move=> Z1 T1. rewrite /ate_miller -!untwist_tfr -untwist_neg -q2_pt -q1_pt m_q1 m_q2.
have N1 : (1 mod bnOrder <> 0)%Z by [].
have I0 : minv 1 (gfP12_One, aff) (1, untwist Q).
  split.
  - rewrite [snd _]/= mul1 g2vE Z1 jpt1. reflexivity.
  - rewrite [snd _]/= Z1 T1 mulr1. reflexivity.
  - rewrite [snd _]/= mul1. reflexivity.
  - exact: N1.
  - exists 1. split; first exact: oner_neq0. rewrite [fst _]/= [fst _]/= v12_One i12_1 mulr1. split; [reflexivity|exact: oner_neq0].
have : minv s62 (miller_loop aff (tp_Negative aff) b (gfP2_Square (tpy aff)) true miller_digits (gfP12_One, aff))
         (miller_fun (untwist Q) P miller_digits).
  rewrite -s62E.
  exact: (@run_loop miller_digits 1 true _ _ _ miller_digits_ok I0 (fun _ => erefl)).
rewrite /miller_affine.
case: (miller_loop _ _ _ _ _ _ _) => ret r. case: (miller_fun _ _ _) => f t I.
have [A1 [A2 [A3 A4]]] := fin1. have [B1 B2] := fin2.
have R2 p : v2 (gfP2_Square (tpy p)) = v2 (tpy p) * v2 (tpy p) := v2_Square _.
have I1 := @step_add _ _ _ _ _ _ _ I m_q1 (R2 _) A1 A2 B2.
have St : t = untwist (m s62).
  case: I => _ _ H _ _. exact: H.
set q1 := miller_q1 aff in I1 *. set q2 := miller_minusQ2 aff.
case: (lineFunctionAdd r q1 b _) I1 => l1 r1 I1. rewrite [fst (l1, _)]/= [snd (l1, _)]/= in I1.
have E1 : pt_add (snd (f, t)) (untwist (m bn_P)) = untwist (m (s62 + bn_P)%Z).
  case: I1 => _ _ H _ _. exact: H.
have A4' : ((s62 + bn_P) mod bnOrder <> (- - (bn_P * bn_P)) mod bnOrder)%Z by rewrite Z.opp_involutive; exact: A4.
case: I1 => G1 T1' S1 N1' [k1 [k10 [K1 f10]]].
have z0 := inv_z G1 N1'. have G := g2v_r z0. rewrite G1 in G.
have X := mul_x G (esym m_q2) A3 A4'.
have [k2 [k20 L2]] := line_add_val b T1' z0 (R2 q2) X.
have n2 := line_add_neq0 T1' z0 (gfP2_Square (tpy q2)) X yb.
move: L2 n2. case: (lineFunctionAdd _ q2 b _) => l2 r2. rewrite [fst (l2, _)]/= => L2 n2.
exists (k1 * k2). split; first exact: in12_n0.
rewrite [fst (_, r2)]/= v12_mulLine. rewrite [fst (_, r1)]/= in K1 f10. 
have H2 : untwist (Aff (v2 (tpx q2)) (v2 (tpy q2))) = untwist (m (- (bn_P * bn_P))%Z) := congr1 untwist m_q2.
have L2' : lv l2 = in12_2 k2 * line_at (pt_add t (untwist (m bn_P))) (untwist (m (- (bn_P * bn_P))%Z)) P :=
  eq_trans L2 (f_equal2 (fun a c => in12_2 k2 * line_at a c P) (eq_trans (f_equal untwist G1) (esym E1)) H2).
have K1' : v12 (mulLine ret l1) = in12_2 k1 * (f * line_at t (untwist (m bn_P)) P) :=
  eq_trans K1 (f_equal (fun a => in12_2 k1 * (f * line_at a (untwist (m bn_P)) P)) (esym St)).
split; first by rewrite K1' L2' i12M; exact: mulrACA.
rewrite L2' in n2. rewrite St in n2 *. exact: (mul_n0 f10 n2).
Qed.
End Run.
