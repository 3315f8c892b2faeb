(** * Integers modulo a prime P as the MathComp field 'F_p. *)
From Coq Require Import ZArith Znumtheory Lia.
From mathcomp Require Import all_ssreflect all_algebra.
Set Implicit Arguments.
Unset Strict Implicit.
Unset Printing Implicit Defensive.
Import GRing.Theory.
Local Open Scope ring_scope.
Delimit Scope Z_scope with Z.

Lemma dvdnZ (a d : nat) : (d %| a)%N <-> (Z.of_nat d | Z.of_nat a)%Z.
Proof.
split.
- move/dvdnP => [k ->]. exists (Z.of_nat k). by rewrite -Nat2Z.inj_mul.
- case=> k E. case: a E => [|a] E; first by rewrite dvdn0.
  apply/dvdnP. exists (Z.to_nat k).
  have k0 : (0 <= k)%Z by case: k E => //= p; case: d => //.
  apply: Nat2Z.inj. by rewrite -multE Nat2Z.inj_mul Z2Nat.id.
Qed.

Lemma prime_Z_nat (P : Z) : Znumtheory.prime P -> prime.prime (Z.to_nat P).
Proof.
move=> H. have P2 : (2 <= P)%Z by apply: prime_ge_2.
apply/primeP; split.
  by apply/ltP; apply/Nat2Z.inj_lt; rewrite Z2Nat.id; lia.
move=> d /dvdnZ. rewrite Z2Nat.id; last by lia.
move/(prime_divisors _ H) => [|[|[|]]] E; apply/orP.
- exfalso; lia.
- left; apply/eqP; lia.
- right; apply/eqP; lia.
- exfalso; lia.
Qed.

Lemma prime_nat_Z (n : nat) : prime.prime n -> Znumtheory.prime (Z.of_nat n).
Proof.
move=> /primeP [n1 H]. have n1' : (1 < n)%coq_nat by apply/ltP.
apply: prime_intro; first by lia.
move=> m Hm. apply/Zgcd_1_rel_prime.
set g := Z.gcd m (Z.of_nat n).
have g0 : (0 <= g)%Z by apply: Z.gcd_nonneg.
have D : (Z.to_nat g %| n)%N.
  apply/dvdnZ. rewrite Z2Nat.id //. exact: Z.gcd_divide_r.
case/orP: (H _ D) => /eqP E; first by lia.
have : (g | m)%Z by apply: Z.gcd_divide_l.
have -> : g = Z.of_nat n by lia.
move/Z.divide_pos_le. lia.
Qed.

Section Phi.
Variable P : Z.
Hypothesis hP : Znumtheory.prime P.
Local Notation p := (Z.to_nat P).

Lemma P_pos : (1 < P)%Z. Proof. have := prime_ge_2 _ hP; lia. Qed.
Lemma p_pr : prime.prime p. Proof. exact: prime_Z_nat. Qed.
Lemma p_Z : Z.of_nat p = P. Proof. rewrite Z2Nat.id //. have := P_pos; lia. Qed.

Definition phi (z : Z) : 'F_p := (Z.to_nat (z mod P)%Z)%:R.

Lemma nat_dvd_F n : (n%:R == 0 :> 'F_p) = (p %| n)%N.
Proof. by rewrite -(dvdn_charf (char_Fp p_pr)). Qed.

Lemma phi_nat z : (0 <= z)%Z -> phi z = (Z.to_nat z)%:R.
Proof.
move=> z0. have Pp := P_pos. have M := Z_mod_lt z P ltac:(lia).
have D0 : (0 <= z / P)%Z by apply: Z.div_pos; lia.
have -> : Z.to_nat z = (Z.to_nat (z mod P)%Z + p * Z.to_nat (z / P)%Z)%N.
  apply: Nat2Z.inj. rewrite -plusE -multE Nat2Z.inj_add Nat2Z.inj_mul !Z2Nat.id; try lia.
  have := Z_div_mod_eq_full z P. lia.
rewrite natrD natrM.
have -> : (p%:R : 'F_p) = 0 by apply/eqP; rewrite nat_dvd_F.
by rewrite mul0r addr0.
Qed.

Lemma phi_mod z : phi (z mod P)%Z = phi z.
Proof. rewrite /phi Zmod_mod //. Qed.
Lemma phi_eq_mod a b : (a mod P = b mod P)%Z -> phi a = phi b.
Proof. by rewrite /phi => ->. Qed.

Lemma phi_add a b : phi (a + b)%Z = phi a + phi b.
Proof.
have Pp := P_pos. have A := Z_mod_lt a P ltac:(lia). have B := Z_mod_lt b P ltac:(lia).
rewrite (phi_eq_mod (Zplus_mod a b P)) phi_nat; last by lia.
by rewrite Z2Nat.inj_add ?natrD; try lia.
Qed.
Lemma phi_mul a b : phi (a * b)%Z = phi a * phi b.
Proof.
have Pp := P_pos. have A := Z_mod_lt a P ltac:(lia). have B := Z_mod_lt b P ltac:(lia).
rewrite (phi_eq_mod (Zmult_mod a b P)) phi_nat; last by nia.
by rewrite Z2Nat.inj_mul ?natrM; try lia.
Qed.
Lemma phi0 : phi 0 = 0. Proof. by rewrite phi_nat. Qed.
Lemma phi1 : phi 1 = 1. Proof. by rewrite phi_nat. Qed.
Lemma phi_pos n : phi (Z.of_nat n) = n%:R.
Proof. rewrite phi_nat ?Nat2Z.id //. lia. Qed.
Lemma phi_opp a : phi (- a)%Z = - phi a.
Proof. apply/eqP; rewrite -subr_eq0 opprK -phi_add. have -> : (- a + a = 0)%Z by lia. by rewrite phi0. Qed.
Lemma phi_sub a b : phi (a - b)%Z = phi a - phi b.
Proof. by rewrite -Z.add_opp_r phi_add phi_opp. Qed.
Lemma phi_pow a n : phi (a ^ Z.of_nat n)%Z = phi a ^+ n.
Proof.
elim: n => [|n IH]; first by rewrite phi1 expr0.
rewrite Nat2Z.inj_succ Z.pow_succ_r; last by lia. by rewrite phi_mul IH exprS.
Qed.
Lemma phi_powZ a e : (0 <= e)%Z -> phi (a ^ e)%Z = phi a ^+ (Z.to_nat e).
Proof. move=> e0. by rewrite -phi_pow Z2Nat.id. Qed.

Lemma phi_eq0 a : phi a = 0 <-> (a mod P = 0)%Z.
Proof.
have Pp := P_pos. have A := Z_mod_lt a P ltac:(lia).
split=> [H|H]; last by rewrite -phi_mod H phi0.
move/eqP: H. rewrite /phi nat_dvd_F => /dvdnZ. rewrite p_Z Z2Nat.id; last by lia.
case: (Z.eq_dec (a mod P) 0) => // n /Z.divide_pos_le. lia.
Qed.
Lemma phi_inj a b : phi a = phi b <-> (a mod P = b mod P)%Z.
Proof.
have Pp := P_pos. split; last exact: phi_eq_mod.
move=> E. have : phi (a - b)%Z = 0 by rewrite phi_sub E subrr.
move/phi_eq0 => H.
have : (((a - b) mod P + b) mod P = a mod P)%Z by rewrite Zplus_mod_idemp_l; congr Z.modulo; lia.
by rewrite H.
Qed.
Lemma phi_injr a b : (0 <= a < P)%Z -> (0 <= b < P)%Z -> phi a = phi b -> a = b.
Proof. move=> A B /phi_inj. by rewrite !Zmod_small. Qed.

(** the reduced representative *)
Definition psi (x : 'F_p) : Z := Z.of_nat (nat_of_ord x).
Lemma psiK x : phi (psi x) = x.
Proof. by rewrite /psi phi_pos natr_Zp. Qed.
Lemma psi_range x : (0 <= psi x < P)%Z.
Proof.
rewrite /psi. split; first by lia.
have H : (nat_of_ord x < p)%N by have := ltn_ord x; rewrite {2}Fp_cast ?p_pr.
move/ltP: H. have := p_Z. lia.
Qed.
Lemma phiK z : psi (phi z) = (z mod P)%Z.
Proof.
apply: phi_injr; first exact: psi_range.
  apply: Z_mod_lt; have := P_pos; lia.
by rewrite psiK phi_mod.
Qed.
Lemma card_F : #|'F_p| = p.
Proof. by rewrite card_Fp ?p_pr. Qed.
End Phi.
