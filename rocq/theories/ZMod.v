(** * Integer multiples in an abelian group. *)
From Coq Require Import ZArith Znumtheory Lia.
From mathcomp Require Import all_ssreflect all_algebra.
From Verif Require Import Fp.
Set Implicit Arguments.
Unset Strict Implicit.
Unset Printing Implicit Defensive.
Import GRing.Theory.
Local Open Scope ring_scope.
Delimit Scope Z_scope with Z.

Definition smul (V : zmodType) (k : Z) (x : V) : V :=
  match k with
  | Z0 => 0
  | Zpos n => x *+ Pos.to_nat n
  | Zneg n => - (x *+ Pos.to_nat n)
  end.

Section Smul.
Variable V : zmodType.
Implicit Types (x y : V) (a b k : Z).

Lemma smul_nat n x : smul (Z.of_nat n) x = x *+ n.
Proof. by case: n => [|n] //=; rewrite SuccNat2Pos.id_succ. Qed.
Lemma smul_nat2 n m x : smul (Z.of_nat n - Z.of_nat m)%Z x = x *+ n - x *+ m.
Proof.
case: (le_lt_dec m n) => H.
  have -> : (Z.of_nat n - Z.of_nat m)%Z = Z.of_nat (n - m)%N by rewrite -minusE; lia.
  have L : (m <= n)%N by apply/leP. by rewrite smul_nat mulrnBr.
have -> : (Z.of_nat n - Z.of_nat m)%Z = (- Z.of_nat (m - n)%N)%Z by rewrite -minusE; lia.
have L : (n <= m)%N by apply/leP; lia.
have E : (0 < m - n)%N by rewrite subn_gt0; apply/ltP.
rewrite -(opprB (x *+ m)) -mulrnBr // -smul_nat.
by case: (m - n)%N E => //.
Qed.
Lemma Zsplit a : exists n m, a = (Z.of_nat n - Z.of_nat m)%Z.
Proof. exists (Z.to_nat a), (Z.to_nat (- a)). lia. Qed.

Lemma smulDl a b x : smul (a + b)%Z x = smul a x + smul b x.
Proof.
case: (Zsplit a) => n [m ->]. case: (Zsplit b) => n' [m' ->].
have -> : (Z.of_nat n - Z.of_nat m + (Z.of_nat n' - Z.of_nat m') = Z.of_nat (n + n')%N - Z.of_nat (m + m')%N)%Z.
  rewrite -!plusE. lia.
by rewrite !smul_nat2 !mulrnDr opprD addrACA.
Qed.
Lemma smul0 x : smul 0 x = 0. Proof. by []. Qed.
Lemma smul1 x : smul 1 x = x. Proof. by []. Qed.
Lemma smulN a x : smul (- a)%Z x = - smul a x.
Proof. by case: a => [|p|p] //=; rewrite ?oppr0 ?opprK. Qed.
Lemma smulB a b x : smul (a - b)%Z x = smul a x - smul b x.
Proof. by rewrite -Z.add_opp_r smulDl smulN. Qed.
Lemma smulDr a x y : smul a (x + y) = smul a x + smul a y.
Proof. by case: a => [|p|p] //=; rewrite ?addr0 ?mulrnDl ?opprD. Qed.
Lemma smulr0 a : smul a (0 : V) = 0.
Proof. by case: a => [|p|p] //=; rewrite mul0rn ?oppr0. Qed.
Lemma smulNr a x : smul a (- x) = - smul a x.
Proof. by case: a => [|p|p] //=; rewrite ?mulNrn ?oppr0. Qed.
Lemma smulA a b x : smul (a * b)%Z x = smul a (smul b x).
Proof.
case: (Zsplit a) => n [m ->]. case: (Zsplit b) => n' [m' ->].
have -> : ((Z.of_nat n - Z.of_nat m) * (Z.of_nat n' - Z.of_nat m') =
   Z.of_nat (n * n' + m * m')%N - Z.of_nat (n * m' + m * n')%N)%Z.
  rewrite -!plusE -!multE. lia.
rewrite !smul_nat2 !mulrnDr !mulrnBl -!mulrnA opprB !opprD.
rewrite (mulnC n n') (mulnC m m') (mulnC n m') (mulnC m n').
by rewrite addrACA.
Qed.
Lemma smul_divide N a x : smul N x = 0 -> (N | a)%Z -> smul a x = 0.
Proof. by move=> H [k ->]; rewrite smulA H smulr0. Qed.
Lemma smul_mod N a x : smul N x = 0 -> smul (a mod N)%Z x = smul a x.
Proof.
move=> H. case: (Z.eq_dec N 0) => [->|n0]; first by rewrite Zmod_0_r.
have -> : (a mod N = a - (a / N) * N)%Z by rewrite Zmod_eq_full.
by rewrite smulB smulA H smulr0 subr0.
Qed.
Lemma smul_eq_mod N a b x : smul N x = 0 -> (a mod N = b mod N)%Z -> smul a x = smul b x.
Proof. by move=> H E; rewrite -(smul_mod a H) E smul_mod. Qed.

(** in a group where N (prime) kills x <> 0, multiples are determined mod N *)
Lemma smul_inj N a b x : Znumtheory.prime N -> smul N x = 0 -> x <> 0 ->
  smul a x = smul b x -> (a mod N = b mod N)%Z.
Proof.
move=> hN H x0 E. have N2 := prime_ge_2 _ hN.
have D : smul (a - b)%Z x = 0 by rewrite smulB E subrr.
suff : ((a - b) mod N = 0)%Z.
  move=> M. have : (((a - b) mod N + b) mod N = a mod N)%Z by rewrite Zplus_mod_idemp_l; congr Z.modulo; lia.
  by rewrite M.
case: (Z.eq_dec ((a - b) mod N) 0) => // nz; exfalso.
have rp : rel_prime (a - b) N.
  apply: rel_prime_sym. apply: prime_rel_prime => // /Zdivide_mod. lia.
case: (rel_prime_bezout _ _ rp) => u v uv. apply: x0.
by rewrite -(smul1 x) -uv smulDl !smulA D H !smulr0 addr0.
Qed.
End Smul.

Lemma smul_additive (V W : zmodType) (h : {additive V -> W}) a x : h (smul a x) = smul a (h x).
Proof. by case: a => [|p|p] /=; rewrite ?raddf0 ?raddfN ?raddfMn. Qed.

(** multiples of 1 in F_N *)
Lemma smul_phi (N : Z) (hN : Znumtheory.prime N) a x : smul a x = phi N a * x.
Proof.
case: (Zsplit a) => n [m ->].
by rewrite smul_nat2 phi_sub // !phi_pos // mulrBl !mulr_natl.
Qed.
