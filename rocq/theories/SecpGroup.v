(** * The secp256k1 group: instantiation of the generic curve results. *)
From Coq Require Import ZArith Znumtheory List Bool.
From mathcomp Require Import all_ssreflect all_algebra.
From Verif Require Import Base P256 PrimesSecp Pock SpecCurve ZCurve ZOrder CertSecp.
Set Implicit Arguments.
Unset Strict Implicit.
Unset Printing Implicit Defensive.
Delimit Scope Z_scope with Z.
Local Open Scope Z_scope.

Lemma secp_P_pr : Znumtheory.prime secp_P.
Proof. exact secp_P_prime. Qed.
Lemma secp_N_pr : Znumtheory.prime secp_N.
Proof. exact secp_N_prime. Qed.
Lemma secp_P3 : (3 < secp_P)%Z. Proof. by vm_compute. Qed.
Lemma secp_b : (7 mod secp_P <> 0)%Z. Proof. by vm_compute. Qed.
Lemma secp_G_on : zon secp_P 7 (Some (secp_Gx, secp_Gy)).
Proof. by vm_compute; split; [|split]; [split| |]. Qed.
Lemma secp_Gy0 : secp_Gy <> 0%Z. Proof. by vm_compute. Qed.

Lemma secp_chain_ok : crun secp_P secp_Gx secp_Gy secp_chain (1, secp_Gx, secp_Gy)%Z
  = Some (secp_N - 1, secp_Gx, secp_P - secp_Gy)%Z.
Proof. by vm_compute. Qed.
Lemma secp_GN : zmul secp_P secp_N (Some (secp_Gx, secp_Gy)) = None.
Proof. exact: (order_cert secp_P_pr secp_P3 secp_b secp_G_on secp_Gy0 secp_chain_ok). Qed.

Lemma secp_B3 : (2 * secp_P + 1 < 3 * secp_N)%Z. Proof. by vm_compute. Qed.
Lemma secp_e0 : (0 <= secp_cube_exp)%Z. Proof. by vm_compute. Qed.
Lemma secp_e3 : (secp_P - 1 = 3 * secp_cube_exp)%Z. Proof. by vm_compute. Qed.
Lemma secp_cube_pw : (pw secp_P (-7) (Z.to_pos secp_cube_exp) secp_cube_hints).1 = secp_cube_value.
Proof. by vm_compute. Qed.
Lemma cong_sym N a b : cong N a b -> cong N b a.
Proof. by move=> [k ->]; exists (- k)%Z; ring. Qed.
Lemma secp_cube : cong secp_P ((- (7)) ^ secp_cube_exp) secp_cube_value.
Proof.
apply: cong_sym. rewrite -secp_cube_pw.
have -> : (secp_cube_exp = Zpos (Z.to_pos secp_cube_exp))%Z by rewrite Z2Pos.id.
exact: pw_ok.
Qed.
Lemma secp_cube1 : (secp_cube_value mod secp_P <> 1)%Z. Proof. by vm_compute. Qed.

Local Notation G := (Some (secp_Gx, secp_Gy)).

(** N kills every point, the base point generates, multiples of it agree iff
    the scalars do modulo N. *)
Lemma secp_order q : zon secp_P 7 q -> zmul secp_P secp_N q = None.
Proof. exact: (zmul_order secp_P_pr secp_P3 secp_b secp_G_on secp_N_pr secp_GN secp_B3 secp_e0 secp_e3 secp_cube secp_cube1). Qed.
Lemma secp_gen q : zon secp_P 7 q -> exists k : Z, (0 <= k < secp_N)%Z /\ q = zmul secp_P k G.
Proof. exact: (zmul_gen secp_P_pr secp_P3 secp_b secp_G_on secp_N_pr secp_GN secp_B3 secp_e0 secp_e3 secp_cube secp_cube1). Qed.
Lemma secp_inj k k' : zmul secp_P k G = zmul secp_P k' G <-> (k mod secp_N = k' mod secp_N)%Z.
Proof. exact: (zmul_G_inj secp_P_pr secp_P3 secp_b secp_G_on secp_N_pr secp_GN). Qed.
