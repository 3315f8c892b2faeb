(** * The integers modulo a prime as an abstract field.

    [zfield_of] is opaque, so that no tactic ever computes in 'F_p. *)
From Coq Require Import ZArith Znumtheory Lia.
From mathcomp Require Import all_ssreflect all_algebra finfield.
From Verif Require Import Base BaseFacts Fp SpecCurve.
Set Implicit Arguments.
Unset Strict Implicit.
Unset Printing Implicit Defensive.
Import GRing.Theory.
Local Open Scope ring_scope.
Delimit Scope Z_scope with Z.

Record zfield (P : Z) : Type := ZField {
  zK : fieldType;
  zph : Z -> zK;
  zph_add : forall a b, zph (a + b)%Z = zph a + zph b;
  zph_mul : forall a b, zph (a * b)%Z = zph a * zph b;
  zph_1 : zph 1%Z = 1;
  zph_eq : forall a b, zph a = zph b <-> (a mod P = b mod P)%Z;
  zph_surj : forall x, exists z, (0 <= z < P)%Z /\ zph z = x }.

Lemma zfield_of (P : Z) : Znumtheory.prime P -> zfield P.
Proof.
move=> hP. apply: (@ZField P [fieldType of 'F_(Z.to_nat P)] (phi P)).
- exact: phi_add.
- exact: phi_mul.
- exact: phi1.
- exact: phi_inj.
- move=> x. exists (psi x). split; [exact: psi_range|exact: psiK].
Qed.

Section ZF.
Variable P : Z.
Hypothesis hP : Znumtheory.prime P.
Variable f : zfield P.
Local Notation ph := (zph f).
Lemma zph_mod z : ph (z mod P)%Z = ph z.
Proof. apply/zph_eq. by rewrite Zmod_mod. Qed.
Lemma zph_bmod z : ph (bmod z P) = ph z.
Proof. exact: zph_mod. Qed.
Lemma zph_0 : ph 0%Z = 0.
Proof. apply: (addrI (ph 0%Z)). by rewrite -zph_add addr0. Qed.
Lemma zph_opp a : ph (- a)%Z = - ph a.
Proof. apply/eqP; rewrite -subr_eq0 opprK -zph_add. have -> : (- a + a = 0)%Z by lia. by rewrite zph_0. Qed.
Lemma zph_sub a b : ph (a - b)%Z = ph a - ph b.
Proof. by rewrite -Z.add_opp_r zph_add zph_opp. Qed.
Lemma zph_P : ph P = 0.
Proof. rewrite -zph_0. apply/zph_eq. by rewrite Z_mod_same_full Zmod_0_l. Qed.
Lemma zph_nat n : ph (Z.of_nat n) = n%:R.
Proof.
elim: n => [|n IH]; first exact: zph_0.
by rewrite Nat2Z.inj_succ -Z.add_1_r zph_add IH zph_1 mulrSr.
Qed.
Lemma zph_pow a n : ph (a ^ Z.of_nat n)%Z = ph a ^+ n.
Proof.
elim: n => [|n IH]; first by rewrite zph_1 expr0.
rewrite Nat2Z.inj_succ Z.pow_succ_r; last by lia. by rewrite zph_mul IH exprS.
Qed.
Lemma zph_powZ a e : (0 <= e)%Z -> ph (a ^ e)%Z = ph a ^+ (Z.to_nat e).
Proof. move=> e0. by rewrite -zph_pow Z2Nat.id. Qed.
Lemma zph_eq0 a : ph a = 0 <-> (a mod P = 0)%Z.
Proof. rewrite -zph_0 zph_eq Zmod_0_l. by []. Qed.
Lemma zph_small a b : (0 <= a < P)%Z -> (0 <= b < P)%Z -> ph a = ph b -> a = b.
Proof. move=> ra rb /zph_eq. by rewrite !Zmod_small. Qed.
Lemma zph_neq0 a : (a mod P <> 0)%Z -> ph a != 0.
Proof. by move=> H; apply/eqP => /zph_eq0. Qed.
Lemma zf_P1 : (1 < P)%Z. Proof. have := prime_ge_2 _ hP. lia. Qed.
Lemma zph_ModInverse z : (z mod P <> 0)%Z -> exists2 i, ModInverse z P = Some i & ph i = (ph z)^-1.
Proof.
move=> z0. have [i [E [_ M]]] := ModInverse_Some z P zf_P1 (prime_gcd z P hP z0).
exists i => //. have n0 := zph_neq0 z0.
apply: (mulIf n0). by rewrite mulVf // -zph_mul -zph_mod M zph_1.
Qed.
Lemma zph_inv a : ph (inv_mod P a) = (ph a)^-1.
Proof.
rewrite /inv_mod. case: (Z.eq_dec (a mod P) 0) => E.
  rewrite ModInverse_None; [|exact: zf_P1|exact: prime_gcd_0].
  by rewrite (proj2 (zph_eq0 a) E) invr0 zph_0.
by have [i -> ->] := zph_ModInverse E.
Qed.
(** Fermat *)
Lemma zph_fermat (x : zK f) : x ^+ (Z.to_nat P) = x.
Proof.
have [z [rz <-]] := zph_surj x. have P1 := zf_P1.
rewrite -zph_powZ; last by lia. apply/zph_eq.
apply/(phi_inj hP). rewrite phi_powZ //; last by lia.
have := expf_card (phi P z). by rewrite (card_F hP).
Qed.
End ZF.
