(** * G1: the Jacobian formulas of curve.go compute the group law *)
From Coq Require Import ZArith Znumtheory Lia Bool.
From mathcomp Require Import all_ssreflect all_algebra.
From Verif Require Import Base BaseFacts Fp ZMod SpecCurve ZField MCRing EC ECGroup PtGroup Jac FieldExt BB BN256 BNTower BNField ZExp SpecBN.
Set Implicit Arguments.
Unset Strict Implicit.
Unset Printing Implicit Defensive.
Import GRing.Theory.
Delimit Scope Z_scope with Z.
Local Open Scope ring_scope.
Local Arguments Z.mul : simpl never.
Local Arguments Z.add : simpl never.
Local Arguments Z.sub : simpl never.
Local Arguments Z.modulo : simpl never.
Local Opaque bn_P ModInverse.

Add Field K1G : (mc_field K1).
Definition phE := (phD, phM, phB, phN, phmod).

Lemma k1_2 : (2%:R : K1) != 0. Proof. rewrite -(zph_nat bnf 2). exact: ph2_neq0. Qed.
Lemma k1_3 : (3%:R : K1) != 0.
Proof. rewrite -(zph_nat bnf 3). apply: zph_neq0. by vm_compute. Qed.
Lemma k1_b : ph 3 != 0. Proof. apply: zph_neq0. by vm_compute. Qed.
Definition c1 : fcurve := @FCurve K1 (ph 3) k1_2 k1_3 k1_b.

Lemma ph_inv a : ph (inv_mod bn_P a) = (ph a)^-1.
Proof. exact: (zph_inv bnP_prime). Qed.

(** ** the points of the specification in the abstract field *)
Definition em (q : zpt) : pt K1 := match q with None => Inf | Some (x, y) => Aff (ph x) (ph y) end.
Definition zrange (q : zpt) : Prop :=
  match q with None => True | Some (x, y) => (0 <= x < bn_P)%Z /\ (0 <= y < bn_P)%Z end.
Lemma ph_range_inj a b : (0 <= a < bn_P)%Z -> (0 <= b < bn_P)%Z -> ph a = ph b -> a = b.
Proof. move=> Ha Hb /ph_eq. by rewrite !Z.mod_small. Qed.
Lemma em_inj q r : zrange q -> zrange r -> em q = em r -> q = r.
Proof.
case: q => [[x y]|]; case: r => [[x' y']|] //= [A B] [C D] [E E'].
by rewrite (ph_range_inj A C E) (ph_range_inj B D E').
Qed.
Lemma em_on q : zrange q -> (on_curve (ph 3) (em q) <-> zon bn_P 3 q).
Proof.
case: q => [[x y]|] //= [A B].
have X : (y * y mod bn_P = (x * x * x + 3) mod bn_P)%Z <-> ph y ^+ 2 == ph x ^+ 3 + ph 3.
  rewrite -ph_eq !phE !exprS !expr0 !mulr1 !mulrA. split; [by move=> ->|by move/eqP].
split; [by move/X|by move=> [_ [_ /X]]].
Qed.
Lemma zon_range q : zon bn_P 3 q -> zrange q.
Proof. by case: q => [[x y]|] //= [A [B _]]. Qed.
Lemma mod_range z : (0 <= z mod bn_P < bn_P)%Z. Proof. exact: Z.mod_pos_bound bnP_pos. Qed.
Lemma g1v_range c : zrange (g1v c).
Proof. rewrite /g1v. case: ifP => // _. by split; exact: mod_range. Qed.
Lemma phmodZ z : ph (z mod bn_P)%Z = ph z. Proof. exact: phmod. Qed.
Lemma em_line l x1 y1 x2 : em (zline bn_P l x1 y1 x2) =
  Aff (ph l ^+ 2 - ph x1 - ph x2) (ph l * (ph x1 - (ph l ^+ 2 - ph x1 - ph x2)) - ph y1).
Proof. by rewrite /zline /em !phE !expr2. Qed.
Lemma zline_range l x1 y1 x2 : zrange (zline bn_P l x1 y1 x2).
Proof. by split; exact: mod_range. Qed.
Lemma ph2E : ph 2 = 2%:R. Proof. exact: (zph_nat bnf 2). Qed.
Lemma ph3E : ph 3 = 3%:R. Proof. exact: (zph_nat bnf 3). Qed.
Lemma eqZ_ph a b : (0 <= a < bn_P)%Z -> (0 <= b < bn_P)%Z -> (a =? b)%Z = (ph a == ph b).
Proof.
move=> A B. apply/idP/idP; first by move/Z.eqb_eq => ->.
by move/eqP/(ph_range_inj A B) => ->; rewrite Z.eqb_refl.
Qed.
Lemma modZ_ph a : (a mod bn_P =? 0)%Z = (ph a == 0).
Proof.
apply/idP/idP; first by move/Z.eqb_eq/ph_eq0 => ->.
by move/eqP/ph_eq0 => ->.
Qed.
Lemma em_add q r : zrange q -> zrange r -> em (zadd bn_P q r) = pt_add (em q) (em r).
Proof.
case: q => [[x y]|]; case: r => [[x' y']|] //= [A B] [C D].
rewrite eqZ_ph //. case: eqP => E.
  rewrite modZ_ph phD addr_eq0. case: ifP => // _.
  by rewrite em_line !phE ph_inv !phE ph2E ph3E -expr2.
by rewrite em_line !phE ph_inv !phE.
Qed.
Lemma zadd_rng q r : zrange q -> zrange r -> zrange (zadd bn_P q r).
Proof.
case: q => [[x y]|]; case: r => [[x' y']|] // A B. rewrite /zadd.
by case: ifP => _; [case: ifP => // _|]; exact: zline_range.
Qed.
Lemma em_neg q : em (zneg bn_P q) = pt_neg (em q).
Proof. by case: q => [[x y]|] //=; rewrite phmodZ phN. Qed.
Lemma zneg_rng q : zrange q -> zrange (zneg bn_P q).
Proof. case: q => [[x y]|] //= [A B]. by split=> //; exact: mod_range. Qed.
Lemma iter_rng q n : zrange q -> zrange (Pos.iter (zadd bn_P q) None n) /\
  em (Pos.iter (zadd bn_P q) None n) = Pos.iter (pt_add (em q)) Inf n.
Proof.
move=> A. elim/Pos.peano_ind: n => [|n [IH1 IH2]]; first by split; [exact: zadd_rng|exact: em_add].
rewrite !Pos.iter_succ. split; first exact: zadd_rng. by rewrite em_add // IH2.
Qed.
Lemma em_mul k q : zrange q -> em (zmul bn_P k q) = ptmul k (em q).
Proof. move=> A. case: k => [|n|n] //=; have [_ E] := iter_rng n A; by rewrite ?em_neg E. Qed.
Lemma zmul_rng k q : zrange q -> zrange (zmul bn_P k q).
Proof. move=> A. case: k => [|n|n] //=; have [R _] := iter_rng n A; by [|exact: zneg_rng]. Qed.

(** ** values *)
Definition jv (c : curvePoint) : pt K1 := jpt (ph (cpx c)) (ph (cpy c)) (ph (cpz c)).
Lemma em_g1v c : em (g1v c) = jv c.
Proof.
rewrite /g1v /jv /jpt modZ_ph. case: eqP => // /eqP z0.
by rewrite /em !phmodZ !phE !ph_inv !exprS !expr0 !mulr1 !invfM.
Qed.
Lemma g1_on c : zon bn_P 3 (g1v c) <-> on_curve (ph 3) (jv c).
Proof. rewrite -em_g1v. exact: iff_sym (em_on (g1v_range c)). Qed.
Definition zz (z : Z) : Prop := (z mod bn_P = 0)%Z -> z = 0%Z.
Definition zok (z : Z) : Prop := (0 <= z)%Z /\ zz z.
Lemma zok_eq z : zz z -> (z =? 0)%Z = (ph z == 0).
Proof.
move=> Z0. rewrite -modZ_ph. apply/idP/idP => /Z.eqb_eq E; apply/Z.eqb_eq; last exact: Z0.
by rewrite E Zmod_0_l.
Qed.
Lemma g1_okE c : g1_ok c <-> on_curve (ph 3) (jv c) /\ zok (cpz c).
Proof. rewrite /g1_ok g1_on. by []. Qed.
Lemma isinf_jv c : zok (cpz c) -> cp_IsInfinity c = (jv c == Inf).
Proof. move=> [_ H]. rewrite /cp_IsInfinity (zok_eq H) /jv /jpt. by case: eqP. Qed.
Lemma small_zz z : (- bn_P < z < bn_P)%Z -> zz z.
Proof.
move=> R /(Z.mod_divide z bn_P (not_eq_sym (Z.lt_neq _ _ bnP_pos))) [k E].
have P0 := bnP_pos. have [K|[K|K]] : (k <= -1 \/ k = 0 \/ 1 <= k)%Z by lia.
- nia.
- by rewrite E K.
- nia.
Qed.
Lemma dbl_zok z : zok (bmod z bn_P + bmod z bn_P)%Z.
Proof.
split; first by have := mod_range z; rewrite /bmod; lia.
move=> /ph_eq0 /eqP. rewrite phD addxx mulf_eq0 (negbTE k1_2) /= => /eqP /ph_eq0 E.
have := mod_range z. rewrite /bmod in E *. rewrite Zmod_mod in E. lia.
Qed.
Lemma bmod_zok z : zok (bmod z bn_P).
Proof. have M := mod_range z. rewrite /bmod. split; [lia|apply: small_zz; lia]. Qed.

(** ** doubling *)
Lemma Double_xy_ph a : (ph (cp_Double_xy a).1 = jdX (ph (cpx a)) (ph (cpy a))) *
  (ph (cp_Double_xy a).2 = jdY (ph (cpx a)) (ph (cpy a))).
Proof. by rewrite /cp_Double_xy /= !phE. Qed.
Lemma jv_Double c a : jv (cp_Double c a) = pt_add (jv a) (jv a).
Proof.
rewrite /jv (jdbl k1_2) /cp_Double. case E : (cp_Double_xy a) => [cx cy] /=.
have [] := Double_xy_ph a. rewrite E /= => -> ->. by rewrite !phE.
Qed.
Lemma zok_Double c a : zok (cpz (cp_Double c a)).
Proof. rewrite /cp_Double. case: (cp_Double_xy a) => cx cy /=. exact: dbl_zok. Qed.

(** ** addition *)
Lemma sub_eq0 u v : (bmod u bn_P - bmod v bn_P =? 0)%Z = (ph u - ph v == 0).
Proof.
rewrite -phB -modZ_ph. apply/idP/idP => /Z.eqb_eq E; apply/Z.eqb_eq; last first.
  rewrite /bmod. rewrite Zminus_mod in E. have A := mod_range u. have B := mod_range v.
  move: (small_zz (z := (u mod bn_P - v mod bn_P)%Z)) => S. apply: S; [lia|exact: E].
rewrite Zminus_mod. rewrite /bmod in E. by rewrite E Zmod_0_l.
Qed.
Lemma jv_Add_with dbl c a b : zok (cpz a) -> zok (cpz b) ->
  on_curve (ph 3) (jv a) -> on_curve (ph 3) (jv b) ->
  (jv a = jv b -> jv a <> Inf -> jv dbl = pt_add (jv a) (jv b)) ->
  jv (cp_Add_with dbl c a b) = pt_add (jv a) (jv b).
Proof.
move=> za zb oa ob D. rewrite /cp_Add_with !isinf_jv //.
case: eqP => [->|/eqP Ia] //. case: eqP => [->|/eqP Ib]; first by case: (jv a).
have z1 : ph (cpz a) != 0 by move: Ia; rewrite /jv /jpt; case: (eqVneq (ph (cpz a)) 0).
have z2 : ph (cpz b) != 0 by move: Ib; rewrite /jv /jpt; case: (eqVneq (ph (cpz b)) 0).
cbv zeta. rewrite !sub_eq0 !phE.
set hb := (_ == 0). set tb := (_ == 0).
have Eh : hb = (jH (ph (cpx a)) (ph (cpz a)) (ph (cpx b)) (ph (cpz b)) == 0) by [].
have Et : tb = (jS2 (ph (cpz a)) (ph (cpy b)) - jS1 (ph (cpy a)) (ph (cpz b)) == 0) by [].
case: ifP => B.
  apply: D; last by move/eqP: Ia. move/andP: B => [Bh Bt]. rewrite /jv /jpt (negbTE z1) (negbTE z2).
  congr Aff; apply/eqP; first by rewrite (jU_eq _ _ z1 z2) -Eh.
  by rewrite (jS_eq _ _ z1 z2) eq_sym -subr_eq0 -Et.
rewrite (jadd k1_2 z1 z2 oa ob); last by rewrite -Eh -Et B.
rewrite /jv /=. by rewrite !phE.
Qed.
Lemma zok_Add_with dbl c a b : zok (cpz a) -> zok (cpz b) -> zok (cpz dbl) -> zok (cpz (cp_Add_with dbl c a b)).
Proof.
move=> za zb zd. rewrite /cp_Add_with. case: ifP => // _. case: ifP => // _. cbv zeta. case: ifP => // _.
exact: bmod_zok.
Qed.
Lemma jv_Add c a b : zok (cpz a) -> zok (cpz b) -> on_curve (ph 3) (jv a) -> on_curve (ph 3) (jv b) ->
  jv (cp_Add c a b) = pt_add (jv a) (jv b).
Proof. move=> za zb oa ob. apply: jv_Add_with => // E _. by rewrite jv_Double -E. Qed.
Lemma jv_AddTo a b : zok (cpz a) -> zok (cpz b) -> on_curve (ph 3) (jv a) -> on_curve (ph 3) (jv b) ->
  jv a <> jv b -> jv (cp_AddTo a b) = pt_add (jv a) (jv b).
Proof. move=> za zb oa ob N. by apply: jv_Add_with. Qed.
Lemma on_add p q : on_curve (ph 3) p -> on_curve (ph 3) q -> on_curve (ph 3) (pt_add p q).
Proof. exact: (@pt_add_on c1). Qed.

(** ** scalar multiplication *)
Lemma jv_newinf c : jv (cp_SetInfinity c) = Inf.
Proof. by rewrite /jv /= ph0 jpt0. Qed.
Lemma jv_Mul a k : (0 <= k)%Z -> zok (cpz a) -> on_curve (ph 3) (jv a) ->
  jv (cp_Mul a k) = ptmul k (jv a) /\ zok (cpz (cp_Mul a k)).
Proof.
move=> k0 za oa. rewrite /cp_Mul.
set st := fun _ _ => _.
pose I (s : curvePoint * curvePoint) (e : Z) := jv s.1 = ptmul e (jv a) /\ zok (cpz s.1).
have H := @bit_loop_inv _ I st k.
have [] := H _ (Z.to_nat (BitLen k + 1)) (cp_SetInfinity newCurvePoint, newCurvePoint) 0%Z; last by rewrite BitLen1_pow // Z.mul_0_l Z.add_0_l => ->.
- move=> [s t] e i i0 [E zs]. rewrite /= in E zs.
  have os : on_curve (ph 3) (jv s) by rewrite E; exact: (@ptmul_on c1).
  have Ed : jv (cp_Double t s) = ptmul (2 * e)%Z (jv a).
    by rewrite jv_Double E -(@ptmulD c1) // Z.add_diag.
  have zd := @zok_Double t s.
  have od : on_curve (ph 3) (jv (cp_Double t s)) by rewrite Ed; exact: (@ptmul_on c1).
  rewrite /st /I /Bit. case: Z.testbit => /=; last by rewrite Z.add_0_r.
  split; first by rewrite jv_Add // Ed (@ptmulD c1) // (@ptmul1 c1).
  by apply: zok_Add_with => //; exact: zok_Double.
- by split; [rewrite jv_newinf|].
Qed.

(** ** the statements in terms of the specification *)
Lemma ok_of c q : zrange q -> on_curve (ph 3) (em q) -> jv c = em q -> zok (cpz c) -> g1_ok c /\ g1v c = q.
Proof.
move=> R O E Z0. split; first by apply/g1_okE; split => //; rewrite E.
apply: em_inj => //; first exact: g1v_range. by rewrite em_g1v.
Qed.
Lemma g1_add_ok c a b : g1_ok a -> g1_ok b ->
  g1_ok (cp_Add c a b) /\ g1v (cp_Add c a b) = zadd bn_P (g1v a) (g1v b).
Proof.
move=> /g1_okE [oa za] /g1_okE [ob zb].
have E : em (zadd bn_P (g1v a) (g1v b)) = pt_add (jv a) (jv b) by rewrite em_add ?em_g1v //; exact: g1v_range.
apply: ok_of; first (by apply: zadd_rng; exact: g1v_range); first by rewrite E; exact: on_add.
- by rewrite E jv_Add.
- apply: zok_Add_with => //. exact: zok_Double.
Qed.
Lemma zok_DoubleSelf a : zok (cpz (cp_DoubleSelf a)).
Proof. rewrite /cp_DoubleSelf. case: (cp_Double_xy a) => cx cy /=. exact: dbl_zok. Qed.
Lemma g1_addto_ok a b : g1_ok a -> g1_ok b -> g1v a <> g1v b ->
  g1_ok (cp_AddTo a b) /\ g1v (cp_AddTo a b) = zadd bn_P (g1v a) (g1v b).
Proof.
move=> /g1_okE [oa za] /g1_okE [ob zb] N.
have E : em (zadd bn_P (g1v a) (g1v b)) = pt_add (jv a) (jv b) by rewrite em_add ?em_g1v //; exact: g1v_range.
apply: ok_of; first (by apply: zadd_rng; exact: g1v_range); first by rewrite E; exact: on_add.
- rewrite E jv_AddTo // => X. apply: N. apply: em_inj; try exact: g1v_range. by rewrite !em_g1v.
- apply: zok_Add_with => //. exact: zok_DoubleSelf.
Qed.
Lemma g1_neg_ok a : g1_ok a -> g1_ok (cp_Negative a) /\ g1v (cp_Negative a) = zneg bn_P (g1v a).
Proof.
move=> /g1_okE [oa za].
have E : em (zneg bn_P (g1v a)) = pt_neg (jv a) by rewrite em_neg em_g1v.
apply: ok_of; first (by apply: zneg_rng; exact: g1v_range); first by rewrite E; exact: oc_neg.
- by rewrite E /jv /= phN jptN.
- exact: za.
Qed.
Lemma g1_inf_ok c : g1_ok (cp_SetInfinity c) /\ g1v (cp_SetInfinity c) = None.
Proof. apply: ok_of => //. by rewrite jv_newinf. Qed.
Lemma g1_mul_ok a k : (0 <= k)%Z -> g1_ok a -> g1_ok (cp_Mul a k) /\ g1v (cp_Mul a k) = zmul bn_P k (g1v a).
Proof.
move=> k0 /g1_okE [oa za]. have [E Z0] := jv_Mul k0 za oa.
have E' : em (zmul bn_P k (g1v a)) = ptmul k (jv a) by rewrite em_mul ?em_g1v //; exact: g1v_range.
apply: ok_of => //; first (by apply: zmul_rng; exact: g1v_range); last by rewrite E.
rewrite E'. exact: (@ptmul_on c1).
Qed.
Lemma g1_smul_ok e a k : g1_ok a -> g1_ok (G1ScalarMult e a k) /\ g1v (G1ScalarMult e a k) = zmul bn_P k (g1v a).
Proof.
move=> ok. rewrite /G1ScalarMult. case: Z.leb_spec => H.
  case: Z.eqb_spec => [->|N]; first exact: g1_inf_ok. exact: g1_mul_ok.
have A : (0 <= Z.abs k)%Z by lia.
have [O1 E1] := g1_mul_ok A ok. have [O2 E2] := g1_neg_ok O1. split=> //.
rewrite E2 E1. case: k H {A O1 E1 O2 E2} => //; lia.
Qed.
Lemma g1_gen_ok : g1_ok curveGen /\ g1v curveGen = g1_gen.
Proof.
have zr : zrange g1_gen by have := bnP_gt3; split; lia.
have E : jv curveGen = em g1_gen.
  rewrite /jv /= ph1 jpt1 phB phP sub0r -phN. by [].
apply: ok_of => //.
rewrite /= phB phP sub0r sqrrN ph1 expr1n expr2 -phM -[1]ph1 -phD. by [].
Qed.
Lemma g1_base_ok e k : g1_ok (G1ScalarBaseMult e k) /\ g1v (G1ScalarBaseMult e k) = zmul bn_P k g1_gen.
Proof. have [O E] := g1_gen_ok. rewrite -E. exact: g1_smul_ok. Qed.
