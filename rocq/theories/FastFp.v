(** * The base field of bn256 over the limbs of Limb.v

    Like Limb.v, this file models nothing: it only makes a computation feasible. *)
From Coq Require Import ZArith Lia Bool List PrimInt63 Uint63.
From mathcomp Require Import all_ssreflect all_algebra.
From Verif Require Import Limb Base BaseFacts SpecCurve ZField MCRing FieldExt BB BN256 BNTower BNField.
Set Implicit Arguments.
Unset Strict Implicit.
Unset Printing Implicit Defensive.
Import GRing.Theory.
Delimit Scope Z_scope with Z.
Local Open Scope ring_scope.
Local Arguments Z.mul : simpl never.
Local Arguments Z.add : simpl never.
Local Arguments Z.sub : simpl never.

Add Field K1T : (mc_field K1).

(** ** the prime field *)
Definition T : Type := list PrimInt63.int.
Definition bn_np : T := Eval vm_compute in limbs 5 bn_P.
Definition bn_n0 : PrimInt63.int := Eval vm_compute in Uint63.of_Z (match ModInverse (- bn_P) wb with Some i => i | None => 0%Z end).
Definition bn_iw : Z := Eval vm_compute in match ModInverse wb bn_P with Some i => i | None => 0%Z end.
Definition bn_k1 : T := Eval vm_compute in limbs 5 (2 ^ 4 * bn_P).
Definition bn_km : T := Eval vm_compute in limbs 5 (2 ^ 18 * bn_P).
Definition bn_kb : T := Eval vm_compute in limbs 5 (2 ^ 28 * bn_P).
Definition bn_k2 : T := Eval vm_compute in limbs 5 (2 ^ 45 * bn_P).
Definition bn_rr : Z := Eval vm_compute in (bn_iw ^ 5 mod bn_P)%Z.
Definition tm : T -> T -> T := mmul bn_P bn_np bn_n0 bn_iw.
Definition ta : T -> T -> T := madd.
Definition ts : T -> T -> T := msub bn_P bn_k1 bn_k2.
Definition tsm : T -> T -> T := msub bn_P bn_km bn_k2.
Definition tsb : T -> T -> T := msub bn_P bn_kb bn_k2.
Definition t0 : T := nil.
Definition tof (z : Z) : T := limbs 5 ((z * wb ^ 5) mod bn_P).
Definition t1 : T := Eval vm_compute in tof 1.
(** the element a list of limbs stands for *)
Definition tv (a : T) : K1 := ph (lval a) * ph bn_rr.

Lemma p_range : (0 < bn_P < wb ^ 5)%Z. Proof. by vm_compute. Qed.
Lemma npE : lval bn_np = bn_P. Proof. by vm_compute. Qed.
Lemma iwE : ((bn_iw * wb) mod bn_P = 1 mod bn_P)%Z. Proof. by vm_compute. Qed.
Lemma k1E : (lval bn_k1 mod bn_P = 0)%Z. Proof. by vm_compute. Qed.
Lemma kmE : (lval bn_km mod bn_P = 0)%Z. Proof. by vm_compute. Qed.
Lemma kbE : (lval bn_kb mod bn_P = 0)%Z. Proof. by vm_compute. Qed.
Lemma k2E : (lval bn_k2 mod bn_P = 0)%Z. Proof. by vm_compute. Qed.
Lemma rrE : ((wb ^ 5 * bn_rr) mod bn_P = 1 mod bn_P)%Z. Proof. by vm_compute. Qed.
Lemma ph_rr : ph (wb ^ 5) * ph bn_rr = 1. Proof. rewrite -phM -ph1. apply/ph_eq. exact: rrE. Qed.
Lemma tof_val z : lval (tof z) = ((z * wb ^ 5) mod bn_P)%Z.
Proof.
apply: limbsE. have L := p_range. have := Z.mod_pos_bound (z * wb ^ 5) bn_P (proj1 L).
by case=> A B; split=> //; apply: (Z.lt_trans _ _ _ B); case: L.
Qed.
Lemma t1E : t1 = tof 1. Proof. by vm_compute. Qed.
Lemma ph_Mod a : ph (a mod bn_P) = ph a. Proof. exact: phmod. Qed.
Local Opaque bn_P bn_np bn_n0 bn_iw bn_k1 bn_km bn_kb bn_k2 bn_rr wb mmul madd msub lval limbs tof t1.
Lemma tv_m a b : tv (tm a b) = tv a * tv b.
Proof.
have /ph_eq := @mmulE _ _ bn_n0 _ p_range npE iwE a b. rewrite (phM (wb ^ 5)) (phM (lval a)) => E. rewrite /tv /tm.
have -> : ph (lval a) * ph bn_rr * (ph (lval b) * ph bn_rr) = (ph (lval a) * ph (lval b)) * (ph bn_rr * ph bn_rr) by mcfr K1.
rewrite -E. have -> : ph (wb ^ 5) * ph (lval (mmul bn_P bn_np bn_n0 bn_iw a b)) * (ph bn_rr * ph bn_rr) =
  (ph (wb ^ 5) * ph bn_rr) * (ph (lval (mmul bn_P bn_np bn_n0 bn_iw a b)) * ph bn_rr) by mcfr K1.
by rewrite ph_rr mul1r.
Qed.
Lemma tv_a a b : tv (ta a b) = tv a + tv b.
Proof. by rewrite /tv /ta maddE phD mulrDl. Qed.
Lemma tv_s a b : tv (ts a b) = tv a - tv b.
Proof. rewrite /tv /ts. have /ph_eq -> := @msubE _ _ _ p_range k1E k2E a b. by rewrite phB mulrBl. Qed.
Lemma tv_sm a b : tv (tsm a b) = tv a - tv b.
Proof. rewrite /tv /tsm. have /ph_eq -> := @msubE _ _ _ p_range kmE k2E a b. by rewrite phB mulrBl. Qed.
Lemma tv_sb a b : tv (tsb a b) = tv a - tv b.
Proof. rewrite /tv /tsb. have /ph_eq -> := @msubE _ _ _ p_range kbE k2E a b. by rewrite phB mulrBl. Qed.
Lemma tv_0 : tv t0 = 0. Proof. by rewrite /tv (_ : lval t0 = 0%Z) // ph0 mul0r. Qed.
Lemma tv_of z : tv (tof z) = ph z.
Proof. by rewrite /tv tof_val ph_Mod phM -mulrA ph_rr mulr1. Qed.
Lemma tv_1 : tv t1 = 1. Proof. by rewrite t1E tv_of ph1. Qed.
Lemma tv_eq a b : (lval a mod bn_P = lval b mod bn_P)%Z -> tv a = tv b.
Proof. by move/ph_eq => E; rewrite /tv E. Qed.
Lemma tv_neq a b : (lval a mod bn_P <> lval b mod bn_P)%Z -> tv a <> tv b.
Proof.
move=> N E. apply: N. apply/ph_eq. move: E. rewrite /tv => E. apply: (mulIf _ E).
apply/eqP => Z. move: ph_rr. rewrite Z mulr0 => /eqP. by rewrite eq_sym oner_eq0.
Qed.
Local Opaque tm ta ts tsm tsb t0 tv.
Definition tvs := (tv_m, tv_a, tv_s).

