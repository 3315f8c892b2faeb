(** * Properties of bbsignatures and ccs08 over crypto/bn256 itself: C62

    PropCCS.v proves the properties of the two packages over every group that
    satisfies the contract [bilinear] (SpecCCS.v).  Here the group is the model of
    crypto/bn256 ([bn_ops], BNOps.v), and nothing is assumed about it. *)
From Coq Require Import ZArith List Bool.
From mathcomp Require Import all_ssreflect all_algebra.
From Verif Require Import Base Util SpecCurve EC PtGroup BB BN256 BNTower BNField SpecBN BNG1 BNG2 CCS08 SpecCCS BNOps BNInst BNNegRuns EndProofs CCSExamples.
Import ListNotations.
Delimit Scope Z_scope with Z.
Local Open Scope Z_scope.

(** ** C62: the packages together *)
(** bn256 satisfies the contract: R1 p x says that p represents x times the
    generator, and so on; e0 is the pairing of the generators. *)
Theorem C62_bn256_satisfies_contract : exists W : bilinear bn_ops,
  (forall p x, R1 W p x <-> g1_ok p /\ g1v p = zmul bn_P x g1_gen) /\
  (forall q y, R2 W q y <-> g2_ok q /\ g2v q = ptmul y g2_gen) /\
  (forall q, pairable W q <-> (tpz q = gfP2_One -> v2 (tpt q) = 1%R)) /\
  (forall k, scalar W k <-> 0 <= k) /\
  exists e0, PairBN curveGen twistGen = Ok e0 /\ v12 e0 <> 1%R /\
    forall e x, RT W e x <-> v12 e = (v12 e0 ^+ Z.to_nat (x mod bnOrder))%R.
Proof. exact contract. Qed.
Print Assumptions C62_bn256_satisfies_contract.

(** Boneh-Boyen signatures: the key pair comes with an error (C32); Sign panics
    on the message -k only; the signature verifies under the public key, and no
    other message does.  The message equal to the private key is excluded: the
    verifier then adds two equal points in place (C45). *)
Theorem C62_signatures : forall m k, exists pub, Keygen bn_ops k = (Keypair bn_ops (Some pub) k, true) /\
  ((m + k) mod bnOrder = 0 -> Sign bn_ops m k = Panic) /\
  ((m + k) mod bnOrder <> 0 -> exists s, Sign bn_ops m k = Ok s /\
     (m mod bnOrder <> k mod bnOrder \/ m mod bnOrder = 0 -> verify bn_ops s m pub = Ok true) /\
     forall m', m' mod bnOrder <> k mod bnOrder -> m' mod bnOrder <> m mod bnOrder -> verify bn_ops s m' pub = Ok false).
Proof. exact signature. Qed.
Print Assumptions C62_signatures.

(** Set membership. *)
Theorem C62_set_membership : forall sha k s p tp x r, hash_bytes sha -> SetupSet bn_ops k s = Ok p ->
  tapeSet_range tp ->
  (~ In x s -> ProveSet bn_ops sha tp x r p = Err) /\
  (In x s -> exists pr, ProveSet bn_ops sha tp x r p = Ok pr /\
     (set_nondegenerate bn_bilinear hExp x r pr -> VerifySet bn_ops pr p = Ok true)).
Proof. exact membership. Qed.
Print Assumptions C62_set_membership.
(** where [set_nondegenerate] is a condition on the fields of the proof *)
Theorem C62_nondegenerate_means : forall h x r (pr : proofSet bn_ops), set_nondegenerate bn_bilinear h x r pr <->
  (tpz (sp_V bn_ops pr) = gfP2_One -> v2 (tpt (sp_V bn_ops pr)) = 1%R) /\ 0 <= x /\ 0 <= r /\
  chain (h * sp_m bn_ops pr) [sp_s bn_ops pr] /\ chain x [h * r] /\
  chain ((x + h * r) * sp_c bn_ops pr) [h * sp_zr bn_ops pr; sp_zsig bn_ops pr].
Proof. exact nondegenerate_means. Qed.
Print Assumptions C62_nondegenerate_means.
Example C62_honest_run : exists p pr, SetupSet bn_ops 5 [3; 8; 10] = Ok p /\
  ProveSet bn_ops sha_one honest_tape 8 11 p = Ok pr /\ set_nondegenerate bn_bilinear hExp 8 11 pr /\
  VerifySet bn_ops pr p = Ok true.
Proof. exact honest_run. Qed.

(** The interval proof. *)
Theorem C62_interval : forall sha k a b z tp1 tp2 x r, hash_bytes sha -> Setup bn_ops k a b = Ok z ->
  tapeUL_ok tp1 (pu_l bn_ops (pa_p bn_ops z)) -> tapeUL_ok tp2 (pu_l bn_ops (pa_p bn_ops z)) -> tape_range tp1 -> tape_range tp2 ->
  0 <= a -> b < 2 ^ 63 -> - 2 ^ 250 < x < 2 ^ 250 ->
  exists pr, Prove bn_ops sha tp1 tp2 x r z = Ok pr /\
  let ul := 57 ^ pu_l bn_ops (pa_p bn_ops z) in
  (ul_nondegenerate bn_bilinear 57 hExp (x - b + ul) r (pf_p1 bn_ops pr) ->
  ul_nondegenerate bn_bilinear 57 hExp (x - a) r (pf_p2 bn_ops pr) ->
  ~ eqm (up_c bn_ops (pf_p1 bn_ops pr)) 0 -> ~ eqm (up_c bn_ops (pf_p2 bn_ops pr)) 0 ->
  exists v, Verify bn_ops pr z = Ok v /\ (v = true <-> a <= x < b)).
Proof. exact interval. Qed.
Print Assumptions C62_interval.
(** [10,100): 42 is accepted, 142 is rejected *)
Example C62_interval_runs :
  (exists z pr, Setup bn_ops 5 10 100 = Ok z /\ Prove bn_ops sha_one bn_tape1 bn_tape2 42 11 z = Ok pr /\
    Verify bn_ops pr z = Ok true) /\
  (exists z pr, Setup bn_ops 5 10 100 = Ok z /\ Prove bn_ops sha_one bn_tape1 bn_tape2 142 11 z = Ok pr /\
    Verify bn_ops pr z = Ok false).
Proof. exact run_42_142. Qed.

(** Soundness fails on the real group as well: for every set and every value
    there is an accepted proof for a commitment to the value. *)
Theorem C62_set_soundness_refuted : forall k s x r, (forall m, In m s -> (m + k) mod bnOrder <> 0) ->
  exists p f, SetupSet bn_ops k s = Ok p /\ VerifySet bn_ops f p = Ok true /\
    sp_C bn_ops f = Commit bn_ops x r (ps_H bn_ops p).
Proof. exact forgery. Qed.
Print Assumptions C62_set_soundness_refuted.

(** Completeness fails for negative values: G2 multiplies by a negative scalar
    wrongly (C46).  An honest proof for the element -3 of {-3, 8} is rejected, and
    so is one for -3150 in [-3400, 100) (an interval wider than 57^2).  A secret
    below the interval is still rejected.  The tapes draw 0 for the blinding values
    m and r, which removes H from the computation, and the hash is constantly 1. *)
Theorem C62_negative_element_refuted : exists p pr, SetupSet bn_ops 5 [-3; 8] = Ok p /\ In (-3) [-3; 8] /\
  ProveSet bn_ops sha_one neg_tape (-3) 0 p = Ok pr /\ VerifySet bn_ops pr p = Ok false.
Proof. exact negative_element. Qed.
Print Assumptions C62_negative_element_refuted.
Theorem C62_wide_interval_refuted : exists z pr, Setup bn_ops 5 (-3400) 100 = Ok z /\ -3400 <= -3150 < 100 /\
  Prove bn_ops sha_one neg_tape1 neg_tape2 (-3150) 0 z = Ok pr /\ Verify bn_ops pr z = Ok false.
Proof. exact wide_interval. Qed.
Print Assumptions C62_wide_interval_refuted.
Example C62_below_interval : exists z pr, Setup bn_ops 5 10 100 = Ok z /\
  Prove bn_ops sha_one neg_tape1 neg_tape2 9 0 z = Ok pr /\ Verify bn_ops pr z = Ok false.
Proof. exact below_interval. Qed.
