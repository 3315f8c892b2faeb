(** * Exponentiation, the Frobenius maps and the final exponentiation *)
From Coq Require Import ZArith Znumtheory Lia Bool.
From mathcomp Require Import all_ssreflect all_algebra.
From Verif Require Import Base BaseFacts Fp ZField MCRing FieldExt CertXi BB BN256 BNTower BNField ZExp.
Set Implicit Arguments.
Unset Strict Implicit.
Unset Printing Implicit Defensive.
Import GRing.Theory.
Delimit Scope Z_scope with Z.
Local Open Scope ring_scope.
Local Arguments Z.mul : simpl never.
Local Arguments Z.add : simpl never.
Local Arguments Z.sub : simpl never.

(** ** the two large natural numbers are sealed, so that nothing tries to compute with them in unary *)
Lemma pn_sig : {n : nat | n = Z.to_nat bn_P}. Proof. by exists (Z.to_nat bn_P). Qed.
Definition pn : nat := sval pn_sig.
Lemma pn_def : pn = Z.to_nat bn_P. Proof. exact: (proj2_sig pn_sig). Qed.
Lemma xn_sig : {n : nat | n = xe}. Proof. by exists xe. Qed.
Definition xn : nat := sval xn_sig.
Lemma xn_def : xn = xe. Proof. exact: (proj2_sig xn_sig). Qed.

(** ** the constants *)
Definition eq2b (a b : gfP2) : bool :=
  (Z.eqb (c2x a mod bn_P) (c2x b mod bn_P) && Z.eqb (c2y a mod bn_P) (c2y b mod bn_P))%Z.
Lemma eq2b_ok a b : eq2b a b = true -> v2 a = v2 b.
Proof. by move/andP => [/Z.eqb_eq A /Z.eqb_eq B]; apply/v2_inj. Qed.
Lemma c3_check : eq2b xiToPMinus1Over3 (gfP2_Mul xiToPMinus1Over6 xiToPMinus1Over6) = true.
Proof. by vm_compute. Qed.
Lemma c2_check : eq2b xiToPMinus1Over2 (gfP2_Mul xiToPMinus1Over6 xiToPMinus1Over3) = true.
Proof. by vm_compute. Qed.
Lemma c4_check : eq2b xiTo2PMinus2Over3 (gfP2_Mul xiToPMinus1Over3 xiToPMinus1Over3) = true.
Proof. by vm_compute. Qed.
Lemma s6_check : (xiToPSquaredMinus1Over6 mod bn_P = n6 mod bn_P)%Z. Proof. by vm_compute. Qed.
Lemma s3_check : (xiToPSquaredMinus1Over3 mod bn_P = (n6 * n6) mod bn_P)%Z. Proof. by vm_compute. Qed.
Lemma s4_check : (xiTo2PSquaredMinus2Over3 mod bn_P = (n6 * n6 * (n6 * n6)) mod bn_P)%Z. Proof. by vm_compute. Qed.
Lemma n6_cube_check : ((n6 * n6 * n6) mod bn_P = (-1) mod bn_P)%Z. Proof. by vm_compute. Qed.
Lemma xi_c1 : v2 xiToPMinus1Over6 = xi2 ^+ xn. Proof. rewrite xn_def. exact: xi_c6. Qed.
Lemma xi_c3 : v2 xiToPMinus1Over3 = xi2 ^+ (2 * xn).
Proof. by rewrite (eq2b_ok c3_check) v2_Mul xi_c1 -exprD addnn mul2n. Qed.
Lemma xi_c2 : v2 xiToPMinus1Over2 = xi2 ^+ (3 * xn).
Proof. by rewrite (eq2b_ok c2_check) v2_Mul xi_c1 xi_c3 -exprD -mulSn. Qed.
Lemma xi_c4 : v2 xiTo2PMinus2Over3 = xi2 ^+ (4 * xn).
Proof. by rewrite (eq2b_ok c4_check) v2_Mul xi_c3 -exprD -mulnDl. Qed.
Lemma s6_n6 : ph xiToPSquaredMinus1Over6 = ph n6. Proof. apply/ph_eq. exact: s6_check. Qed.
Lemma s3_n6 : ph xiToPSquaredMinus1Over3 = ph n6 ^+ 2. Proof. rewrite expr2 -phM. apply/ph_eq. exact: s3_check. Qed.
Lemma s4_n6 : ph xiTo2PSquaredMinus2Over3 = ph n6 ^+ 4.
Proof. rewrite (exprM _ 2 2) !expr2 -!phM. apply/ph_eq. exact: s4_check. Qed.
Lemma n6_cube : ph n6 ^+ 3 = -1.
Proof. rewrite !exprS expr0 mulr1 mulrA -!phM -ph1 -phN. apply/ph_eq. exact: n6_cube_check. Qed.

Lemma pn_prime : prime.prime pn. Proof. rewrite pn_def. exact: (prime_Z_nat bnP_prime). Qed.
Lemma pn6 : pn = (6 * xn).+1. Proof. rewrite pn_def xn_def. exact: to_natP6. Qed.
Lemma pn4 : pn = (2 * (2 * Z.to_nat (bn_P / 4)) + 3)%N. Proof. rewrite pn_def. exact: to_natP4. Qed.
Lemma pnZ : Z.of_nat pn = bn_P. Proof. rewrite pn_def. apply: Z2Nat.id. exact: Z.lt_le_incl _ _ bnP_pos. Qed.
Lemma fermatn (x : K1) : x ^+ pn = x. Proof. rewrite pn_def. exact: fermat. Qed.
Local Opaque bn_P ModInverse n6 xiToPMinus1Over6 xiToPMinus1Over3 xiToPMinus1Over2 xiTo2PMinus2Over3
  xiToPSquaredMinus1Over3 xiTo2PSquaredMinus2Over3 xiToPSquaredMinus1Over6 mk2 mk6 mk12.

Add Field K1F' : (mc_field K1).
Add Field K2F' : (mc_field K2).
Add Field K6F' : (mc_field K6).

(** ** the embeddings *)
Definition e2 (x : K1) : K2 := mk2 0 x.
Definition e6 (x : K2) : K6 := mk6 0 0 x.
Definition e12 (x : K6) : K12 := mk12 0 x.
Lemma e2M x y : e2 (x * y) = e2 x * e2 y. Proof. rewrite /e2 mk2M. by congr mk2; mcfr K1. Qed.
Lemma e2D x y : e2 (x + y) = e2 x + e2 y. Proof. rewrite /e2 mk2D. by congr mk2; mcfr K1. Qed.
Lemma e2_1 : e2 1 = 1. Proof. exact: mk2_1. Qed.
Lemma e2_0 : e2 0 = 0. Proof. exact: mk2_0. Qed.
Lemma e2X x n : e2 (x ^+ n) = e2 x ^+ n.
Proof. elim: n => [|n IH]; [by rewrite !expr0 e2_1|by rewrite !exprS e2M IH]. Qed.
Lemma e2N x : e2 (- x) = - e2 x. Proof. by rewrite /e2 mk2N oppr0. Qed.
Lemma e2n n : e2 n%:R = n%:R. Proof. elim: n => [|n IH]; [exact: e2_0|by rewrite !mulrS e2D IH e2_1]. Qed.
Lemma e6M x y : e6 (x * y) = e6 x * e6 y. Proof. rewrite /e6 mk6M. by congr mk6; mcfr K2. Qed.
Lemma e6D x y : e6 (x + y) = e6 x + e6 y. Proof. rewrite /e6 mk6D. by congr mk6; mcfr K2. Qed.
Lemma e6_1 : e6 1 = 1. Proof. exact: mk6_1. Qed.
Lemma e6_0 : e6 0 = 0. Proof. exact: mk6_0. Qed.
Lemma e6N x : e6 (- x) = - e6 x. Proof. by rewrite /e6 mk6N oppr0. Qed.
Lemma e6X x n : e6 (x ^+ n) = e6 x ^+ n.
Proof. elim: n => [|n IH]; [by rewrite !expr0 e6_1|by rewrite !exprS e6M IH]. Qed.
Lemma e6n n : e6 n%:R = n%:R. Proof. elim: n => [|n IH]; [exact: e6_0|by rewrite !mulrS e6D IH e6_1]. Qed.
Lemma e12M x y : e12 (x * y) = e12 x * e12 y. Proof. rewrite /e12 mk12M. by congr mk12; mcfr K6. Qed.
Lemma e12D x y : e12 (x + y) = e12 x + e12 y. Proof. rewrite /e12 mk12D. by congr mk12; mcfr K6. Qed.
Lemma e12_1 : e12 1 = 1. Proof. exact: mk12_1. Qed.
Lemma e12_0 : e12 0 = 0. Proof. exact: mk12_0. Qed.
Lemma e12N x : e12 (- x) = - e12 x. Proof. by rewrite /e12 mk12N oppr0. Qed.
Lemma e12X x n : e12 (x ^+ n) = e12 x ^+ n.
Proof. elim: n => [|n IH]; [by rewrite !expr0 e12_1|by rewrite !exprS e12M IH]. Qed.
Lemma e12n n : e12 n%:R = n%:R. Proof. elim: n => [|n IH]; [exact: e12_0|by rewrite !mulrS e12D IH e12_1]. Qed.
Lemma mk2_dec x y : mk2 x y = e2 x * i2 + e2 y.
Proof. rewrite /e2 /i2 mk2M mk2D. by congr mk2; mcfr K1. Qed.
Lemma mk6_dec x y z : mk6 x y z = e6 x * tau6 ^+ 2 + e6 y * tau6 + e6 z.
Proof. rewrite /e6 tau6E expr2 !mk6M [X in X + mk6 0 0 z]mk6D mk6D. by congr mk6; mcfr K2. Qed.
Lemma mk12_dec x y : mk12 x y = e12 x * om12 + e12 y.
Proof. rewrite /e12 /om12 mk12M mk12D. by congr mk12; mcfr K6. Qed.
Lemma i2_2 : i2 ^+ 2 = -1.
Proof. rewrite expr2 /i2 mk2M -mk2_1 mk2N. by congr mk2; mcfr K1. Qed.
Lemma tau_3 : tau6 ^+ 3 = e6 xi2.
Proof. rewrite !exprS expr0 mulr1 tau6E !mk6M /e6. by congr mk6; mcfr K2. Qed.
Lemma om_2 : om12 ^+ 2 = e12 tau6.
Proof. rewrite expr2 /om12 mk12M /e12. by congr mk12; mcfr K6. Qed.
Lemma xi2_dec : xi2 = i2 + 9%:R.
Proof.
rewrite -e2n /xi2 v2E /i2 /e2 mk2D /= ph1. congr mk2; first by rewrite addr0.
by rewrite add0r -(zph_nat bnf 9).
Qed.

(** ** characteristic p *)
Lemma pn_R1 : pn%:R = 0 :> K1.
Proof. rewrite -(zph_nat bnf) pnZ. exact: phP. Qed.
Lemma char1 : pn \in [char K1]. Proof. by rewrite inE pn_prime pn_R1 eqxx. Qed.
Lemma char2 : pn \in [char K2]. Proof. by rewrite inE pn_prime -e2n pn_R1 e2_0 eqxx. Qed.
Lemma char6 : pn \in [char K6]. Proof. by rewrite inE pn_prime -e6n -e2n pn_R1 e2_0 e6_0 eqxx. Qed.
Lemma char12 : pn \in [char K12]. Proof. by rewrite inE pn_prime -e12n -e6n -e2n pn_R1 e2_0 e6_0 e12_0 eqxx. Qed.
Lemma frobD (K : fieldType) : pn \in [char K] -> forall x y : K, (x + y) ^+ pn = x ^+ pn + y ^+ pn.
Proof. move=> H x y. apply: exprDn_char. rewrite (pnatE _ pn_prime). exact: H. Qed.

(** x^p on K2 is conjugation *)
Lemma i2_p : i2 ^+ pn = - i2.
Proof.
rewrite pn4 exprD !exprM i2_2 sqrrN !expr1n mul1r exprSr i2_2. by rewrite mulN1r.
Qed.
Lemma frob2 x y : mk2 x y ^+ pn = mk2 (- x) y.
Proof.
rewrite !mk2_dec (frobD char2) exprMn -!e2X !fermatn i2_p e2N. by rewrite mulrN mulNr.
Qed.
Lemma v2_Conjugate a : v2 (gfP2_Conjugate a) = v2 a ^+ pn.
Proof. by rewrite !v2E frob2 /= phN. Qed.
Lemma frob2_2 (x : K2) : (x ^+ pn) ^+ pn = x.
Proof. have [a [b ->]] := mk2_eta x. by rewrite !frob2 opprK. Qed.
Lemma frob2_mul (x : K2) : x * x ^+ pn = e2 (nm2 x).
Proof. have [a [b ->]] := mk2_eta x. rewrite frob2 mk2M nm2_mk /e2. by congr mk2; mcfr K1. Qed.

Lemma tau_p : tau6 ^+ pn = e6 (xi2 ^+ (2 * xn)) * tau6.
Proof.
rewrite pn6 exprSr. congr (_ * _). rewrite (_ : 6 * xn = 3 * (2 * xn))%N; last by rewrite mulnA.
by rewrite exprM tau_3 -e6X.
Qed.
Lemma om_p : om12 ^+ pn = e12 (e6 (xi2 ^+ xn)) * om12.
Proof.
rewrite pn6 exprSr. congr (_ * _). rewrite (_ : 6 * xn = 2 * (3 * xn))%N; last by rewrite mulnA.
by rewrite exprM om_2 -e12X exprM tau_3 -e6X.
Qed.
Lemma frob6 x y z : mk6 x y z ^+ pn =
  mk6 (x ^+ pn * xi2 ^+ (4 * xn)) (y ^+ pn * xi2 ^+ (2 * xn)) (z ^+ pn).
Proof.
rewrite (_ : 4 * xn = 2 * xn + 2 * xn)%N; last by rewrite -mulnDl.
rewrite (exprD xi2). move: tau_p. move: (xi2 ^+ (2 * xn)) => w E.
rewrite !mk6_dec !(frobD char6) !exprMn -!e6X E !e6M expr2. by mcfr K6.
Qed.
Lemma frob12 x y : mk12 x y ^+ pn = mk12 (x ^+ pn * e6 (xi2 ^+ xn)) (y ^+ pn).
Proof. by rewrite !mk12_dec (frobD char12) exprMn -!e12X om_p e12M mulrA. Qed.
Lemma v6_Frobenius a : v6 (gfP6_Frobenius a) = v6 a ^+ pn.
Proof. by rewrite !v6E frob6 /= !v2_Mul !v2_Conjugate xi_c4 xi_c3. Qed.
Lemma v12_Frobenius a : v12 (gfP12_Frobenius a) = v12 a ^+ pn.
Proof. by rewrite !v12E frob12 /= v6_MulScalar !v6_Frobenius xi_c1. Qed.

(** x^(p^2) *)
Lemma xi_pp : xi2 ^+ xn * (xi2 ^+ xn) ^+ pn = e2 (ph n6).
Proof. by rewrite frob2_mul nm2X norm_xi -n6_pow xn_def. Qed.
Lemma xi_pp_n n : (xi2 ^+ (n * xn)) ^+ pn * xi2 ^+ (n * xn) = e2 (ph n6 ^+ n).
Proof. by rewrite (mulnC n) (exprM xi2 xn n) (exprAC _ n pn) -exprMn (mulrC (_ ^+ pn)) xi_pp e2X. Qed.
Lemma frob6_2 x y z : (mk6 x y z ^+ pn) ^+ pn = mk6 (x * e2 (ph n6 ^+ 4)) (y * e2 (ph n6 ^+ 2)) z.
Proof. by rewrite !frob6 !exprMn !frob2_2 -!mulrA !xi_pp_n. Qed.
Lemma v6_FrobeniusP2 a : v6 (gfP6_FrobeniusP2 a) = (v6 a ^+ pn) ^+ pn.
Proof. by rewrite !v6E frob6_2 /= !v2_MulScalar s4_n6 s3_n6. Qed.
Lemma frob12_2 x y : (mk12 x y ^+ pn) ^+ pn = mk12 ((x ^+ pn) ^+ pn * e6 (e2 (ph n6))) ((y ^+ pn) ^+ pn).
Proof.
rewrite !frob12 exprMn -!mulrA -e6X -e6M. congr mk12. congr (_ * e6 _).
by rewrite mulrC xi_pp.
Qed.
Lemma v12_FrobeniusP2 a : v12 (gfP12_FrobeniusP2 a) = (v12 a ^+ pn) ^+ pn.
Proof. by rewrite !v12E frob12_2 /= v6_MulGFP !v6_FrobeniusP2 s6_n6. Qed.

(** x^(p^6) is the conjugation of K12 *)
Definition fr2 (x : K12) : K12 := (x ^+ pn) ^+ pn.
Lemma frob6_6 (x : K6) : ((((((x ^+ pn) ^+ pn) ^+ pn) ^+ pn) ^+ pn) ^+ pn) = x.
Proof.
have [a [b [c ->]]] := mk6_eta x. rewrite !frob6_2 -!mulrA -!e2M -!exprD.
rewrite (_ : 4 + (4 + 4) = 3 * 4)%N // (_ : 2 + (2 + 2) = 3 * 2)%N // !exprM n6_cube.
by rewrite sqrrN expr1n (exprM _ 2 2) sqrrN !expr1n e2_1 !mulr1.
Qed.
Lemma fr2_mk x y : fr2 (mk12 x y) = mk12 ((x ^+ pn) ^+ pn * e6 (e2 (ph n6))) ((y ^+ pn) ^+ pn).
Proof. exact: frob12_2. Qed.
Lemma n6_fr : (e6 (e2 (ph n6)) ^+ pn) = e6 (e2 (ph n6)).
Proof. by rewrite -e6X -e2X fermatn. Qed.
Lemma conj12 x y : fr2 (fr2 (fr2 (mk12 x y))) = mk12 (- x) y.
Proof.
rewrite !fr2_mk !(exprMn, n6_fr) !frob6_6 -!mulrA -!e6M -!e2M.
have -> : ph n6 * (ph n6 * ph n6) = ph n6 ^+ 3 by rewrite !exprS expr0 mulr1.
by rewrite n6_cube e2N e2_1 e6N e6_1 mulrN mulr1.
Qed.
Lemma v12_Conjugate a : v12 (gfP12_Conjugate a) = fr2 (fr2 (fr2 (v12 a))).
Proof. by rewrite !v12E conj12 /= v6_Negative. Qed.
Lemma fr2_12 (x : K12) : fr2 (fr2 (fr2 (fr2 (fr2 (fr2 x))))) = x.
Proof. have [a [b ->]] := mk12_eta x. apply: (etrans (congr1 (fun z => fr2 (fr2 (fr2 z))) (conj12 a b))). apply: (etrans (conj12 (- a) b)). by rewrite opprK. Qed.
