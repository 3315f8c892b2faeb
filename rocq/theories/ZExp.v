(** * Powers with an integer exponent in a field, and binary exponentiation *)
From Coq Require Import ZArith Lia.
From mathcomp Require Import all_ssreflect all_algebra.
From Verif Require Import Base ZMod BN256.
Set Implicit Arguments.
Unset Strict Implicit.
Unset Printing Implicit Defensive.
Import GRing.Theory.
Delimit Scope Z_scope with Z.
Local Open Scope ring_scope.

Definition zx (F : fieldType) (x : F) (e : Z) : F :=
  if (0 <=? e)%Z then x ^+ Z.to_nat e else (x ^+ Z.to_nat (- e))^-1.

Section ZX.
Variable F : fieldType.
Implicit Types x y : F.
Lemma zx_nat x n : zx x (Z.of_nat n) = x ^+ n.
Proof. rewrite /zx. case: Z.leb_spec => H; [by rewrite Nat2Z.id|lia]. Qed.
Lemma zx_pos x e : (0 <= e)%Z -> zx x e = x ^+ Z.to_nat e.
Proof. rewrite /zx. case: Z.leb_spec => //. lia. Qed.
Lemma zx_sub x n m : x != 0 -> zx x (Z.of_nat n - Z.of_nat m)%Z = x ^+ n / x ^+ m.
Proof.
move=> x0. rewrite /zx. case: Z.leb_spec => H.
  have -> : n = (Z.to_nat (Z.of_nat n - Z.of_nat m) + m)%N by rewrite -plusE; lia.
  rewrite exprD mulfK ?expf_neq0 //. congr (_ ^+ _). rewrite -plusE. lia.
have -> : m = (Z.to_nat (- (Z.of_nat n - Z.of_nat m)) + n)%N by rewrite -plusE; lia.
rewrite exprD invfM mulrCA divff ?expf_neq0 // mulr1. congr (_ ^+ _)^-1. rewrite -plusE. lia.
Qed.
Lemma zx0 x : zx x 0 = 1. Proof. by []. Qed.
Lemma zx1 x : zx x 1 = x. Proof. by rewrite (zx_nat x 1) expr1. Qed.
Lemma zx_one e : zx (1 : F) e = 1. Proof. rewrite /zx. by case: ifP => _; rewrite expr1n ?invr1. Qed.
Lemma zx_neq0 x e : x != 0 -> zx x e != 0.
Proof. move=> x0. rewrite /zx. by case: ifP => _; rewrite ?invr_eq0 expf_neq0. Qed.
Lemma zxD x a b : x != 0 -> zx x (a + b)%Z = zx x a * zx x b.
Proof.
move=> x0. have [n [m ->]] := Zsplit a. have [n' [m' ->]] := Zsplit b.
have -> : (Z.of_nat n - Z.of_nat m + (Z.of_nat n' - Z.of_nat m') = Z.of_nat (n + n') - Z.of_nat (m + m'))%Z.
  rewrite -!plusE. lia.
by rewrite !zx_sub // !exprD invfM mulrACA.
Qed.
Lemma zxN x a : zx x (- a)%Z = (zx x a)^-1.
Proof.
rewrite /zx. case: Z.leb_spec => H; case: Z.leb_spec => H'.
- have -> : a = 0%Z by lia. by rewrite /= expr0 invr1.
- by rewrite invrK.
- by rewrite Z.opp_involutive.
- lia.
Qed.
Lemma zxV x a : zx x^-1 a = (zx x a)^-1.
Proof. rewrite /zx. by case: ifP => _; rewrite exprVn. Qed.
Lemma zxMl x y a : zx (x * y) a = zx x a * zx y a.
Proof. rewrite /zx. by case: ifP => _; rewrite exprMn ?invfM. Qed.
Lemma zxM x a b : zx x (a * b)%Z = zx (zx x a) b.
Proof.
have P c d : (0 <= c)%Z -> (0 <= d)%Z -> zx x (c * d)%Z = zx (zx x c) d.
  move=> c0 d0. rewrite !zx_pos //; last by lia. rewrite -exprM. congr (_ ^+ _). rewrite -multE. exact: Z2Nat.inj_mul.
case: (Z.le_ge_cases 0 a) => A; case: (Z.le_ge_cases 0 b) => B.
- exact: P.
- have -> : (a * b = - (a * - b))%Z by lia. rewrite zxN P; try lia. by rewrite zxN invrK.
- have -> : (a * b = - (- a * b))%Z by lia. rewrite zxN P; try lia. by rewrite zxN zxV invrK.
- have -> : (a * b = (- a * - b))%Z by lia. rewrite P; try lia. by rewrite !zxN zxV invrK.
Qed.
End ZX.

(** the double-and-add loops *)
Lemma bit_loop_inv (A : Type) (I : A -> Z -> Prop) (step : A -> Z -> A) (k : Z) :
  (forall s e i, (0 <= i)%Z -> I s e -> I (step s i) (2 * e + Z.b2z (Z.testbit k i))%Z) ->
  forall n s e, I s e -> I (bit_loop step n s) (e * 2 ^ Z.of_nat n + k mod 2 ^ Z.of_nat n)%Z.
Proof.
move=> St. elim=> [|n IH] s e H.
  rewrite /= Z.mod_1_r. by have -> : (e * 1 + 0 = e)%Z by lia.
rewrite /=. have H1 := St s e (Z.of_nat n) (Zle_0_nat n) H. have := IH _ _ H1.
suff -> : ((2 * e + Z.b2z (Z.testbit k (Z.of_nat n))) * 2 ^ Z.of_nat n + k mod 2 ^ Z.of_nat n
  = e * 2 ^ Z.of_nat n.+1 + k mod 2 ^ Z.of_nat n.+1)%Z by [].
rewrite Nat2Z.inj_succ Z.pow_succ_r; last by lia.
set q := (2 ^ Z.of_nat n)%Z. have q0 : (0 < q)%Z by apply: Z.pow_pos_nonneg; lia.
rewrite (Z.mul_comm 2 q) Z.rem_mul_r; [|lia|lia].
rewrite -Z.testbit_spec'; last by lia. lia.
Qed.
Lemma BitLen_pow k : (0 <= k)%Z -> (k mod 2 ^ Z.of_nat (Z.to_nat (BitLen k)) = k)%Z.
Proof.
move=> k0. apply: Z.mod_small. rewrite /BitLen. case: Z.eqb_spec => [->|N]; first by cbn.
have L := Z.log2_nonneg k. rewrite Z.abs_eq // Z2Nat.id; last by lia.
have := Z.log2_spec k. lia.
Qed.
Lemma BitLen1_pow k : (0 <= k)%Z -> (k mod 2 ^ Z.of_nat (Z.to_nat (BitLen k + 1)) = k)%Z.
Proof.
move=> k0. apply: Z.mod_small. rewrite /BitLen. case: Z.eqb_spec => [->|N]; first by cbn.
have L := Z.log2_nonneg k. rewrite Z.abs_eq // Z2Nat.id; last by lia.
have [_ H] := Z.log2_spec k ltac:(lia). rewrite Z.pow_add_r; lia.
Qed.
