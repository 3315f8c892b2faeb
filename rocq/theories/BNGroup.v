(** * The bn256 group G1: instantiation of the generic curve results. *)
From Coq Require Import ZArith Znumtheory List Bool.
From mathcomp Require Import all_ssreflect all_algebra.
From Verif Require Import Base BB BN256 PrimesBN Pock SpecCurve ZCurve ZOrder CertBN.
Set Implicit Arguments.
Unset Strict Implicit.
Unset Printing Implicit Defensive.
Delimit Scope Z_scope with Z.
Local Open Scope Z_scope.

Definition bnGx : Z := 1.
Definition bnGy : Z := bn_P - 2.
Lemma bnP_pr : Znumtheory.prime bn_P.
Proof. exact bn_P_prime. Qed.
Lemma bnN_pr : Znumtheory.prime bnOrder.
Proof. exact bn_r_prime. Qed.
Lemma bnP_3 : (3 < bn_P)%Z. Proof. by vm_compute. Qed.
Lemma bn_b : (3 mod bn_P <> 0)%Z. Proof. by vm_compute. Qed.
Lemma bn_G_on : zon bn_P 3 (Some (bnGx, bnGy)).
Proof. by vm_compute; split; [|split]; [split| |]. Qed.
Lemma bn_Gy0 : bnGy <> 0%Z. Proof. by vm_compute. Qed.

Lemma bn_chain_ok : crun bn_P bnGx bnGy bn_chain (1, bnGx, bnGy)%Z
  = Some (bnOrder - 1, bnGx, bn_P - bnGy)%Z.
Proof. by vm_compute. Qed.
Lemma bn_GN : zmul bn_P bnOrder (Some (bnGx, bnGy)) = None.
Proof. exact: (order_cert bnP_pr bnP_3 bn_b bn_G_on bn_Gy0 bn_chain_ok). Qed.

Lemma bn_B3 : (2 * bn_P + 1 < 3 * bnOrder)%Z. Proof. by vm_compute. Qed.
Lemma bn_e0 : (0 <= bn_cube_exp)%Z. Proof. by vm_compute. Qed.
Lemma bn_e3 : (bn_P - 1 = 3 * bn_cube_exp)%Z. Proof. by vm_compute. Qed.
Lemma bn_cube_pw : (pw bn_P (-3) (Z.to_pos bn_cube_exp) bn_cube_hints).1 = bn_cube_value.
Proof. by vm_compute. Qed.
Lemma cong_sym N a b : cong N a b -> cong N b a.
Proof. by move=> [k ->]; exists (- k)%Z; ring. Qed.
Lemma bn_cube : cong bn_P ((- (3)) ^ bn_cube_exp) bn_cube_value.
Proof.
apply: cong_sym. rewrite -bn_cube_pw.
have -> : (bn_cube_exp = Zpos (Z.to_pos bn_cube_exp))%Z by rewrite Z2Pos.id.
exact: pw_ok.
Qed.
Lemma bn_cube1 : (bn_cube_value mod bn_P <> 1)%Z. Proof. by vm_compute. Qed.

Local Notation G := (Some (bnGx, bnGy)).

(** N kills every point, the base point generates, multiples of it agree iff
    the scalars do modulo N. *)
Lemma bn_order q : zon bn_P 3 q -> zmul bn_P bnOrder q = None.
Proof. exact: (zmul_order bnP_pr bnP_3 bn_b bn_G_on bnN_pr bn_GN bn_B3 bn_e0 bn_e3 bn_cube bn_cube1). Qed.
Lemma bn_gen q : zon bn_P 3 q -> exists k : Z, (0 <= k < bnOrder)%Z /\ q = zmul bn_P k G.
Proof. exact: (zmul_gen bnP_pr bnP_3 bn_b bn_G_on bnN_pr bn_GN bn_B3 bn_e0 bn_e3 bn_cube bn_cube1). Qed.
Lemma bn_inj k k' : zmul bn_P k G = zmul bn_P k' G <-> (k mod bnOrder = k' mod bnOrder)%Z.
Proof. exact: (zmul_G_inj bnP_pr bnP_3 bn_b bn_G_on bnN_pr bn_GN). Qed.
