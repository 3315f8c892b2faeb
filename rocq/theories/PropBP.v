(** * Properties C18-C30: vectors, the inner product argument and range proofs *)
From Coq Require Import ZArith List Bool Lia.
From Verif Require Import Base ByteConv Util SpecCodec SpecCurve P256 Pedersen SpecSecp SecpLaws Vector Bulletproofs SpecBP
  VecLaws BipLaws BpProofs BpLaws BpMore BpSetup BpExamples.
Import ListNotations.
Open Scope Z_scope.
Local Opaque secp_P secp_N secp_Gx secp_Gy ORDER value valid Multiply ScalarMult ScalarBaseMult Add Neg CommitG1 bmod
  ModInverse HashBP IsZero gadd gmul gen MapToGroup Prove Verify ipVerify Setup.

(** C18: vectors of scalars; secp_N is the order ORDER. *)
Theorem C18_VectorAdd : forall a b, (length a <> length b -> VectorAdd a b = Err) /\
  (length a = length b -> exists c, VectorAdd a b = Ok c /\ length c = length a /\
     forall i, (i < length a)%nat -> nth i c 0 = (nth i a 0 + nth i b 0) mod secp_N).
Proof. exact VectorAdd_spec. Qed.
Print Assumptions C18_VectorAdd.
Theorem C18_VectorSub : forall a b, (length a <> length b -> VectorSub a b = Err) /\
  (length a = length b -> exists c, VectorSub a b = Ok c /\ length c = length a /\
     forall i, (i < length a)%nat -> nth i c 0 = (nth i a 0 - nth i b 0) mod secp_N).
Proof. exact VectorSub_spec. Qed.
Print Assumptions C18_VectorSub.
Theorem C18_VectorMul : forall a b, (length a <> length b -> VectorMul a b = Err) /\
  (length a = length b -> exists c, VectorMul a b = Ok c /\ length c = length a /\
     forall i, (i < length a)%nat -> nth i c 0 = (nth i a 0 * nth i b 0) mod secp_N).
Proof. exact VectorMul_spec. Qed.
Print Assumptions C18_VectorMul.
Theorem C18_VectorScalarMul : forall a b, exists c, VectorScalarMul a (Some b) = Ok c /\ length c = length a /\
  forall i, (i < length a)%nat -> nth i c 0 = (nth i a 0 * b) mod secp_N.
Proof. exact VectorScalarMul_spec. Qed.
Print Assumptions C18_VectorScalarMul.
Theorem C18_VectorCopy : forall a (n : nat), exists c, VectorCopy a (Z.of_nat n) = Ok c /\ length c = n /\
  forall i, (i < n)%nat -> nth i c 0 = a.
Proof. exact VectorCopy_spec. Qed.
Print Assumptions C18_VectorCopy.
Theorem C18_VectorConvertToBig : forall a, VectorConvertToBig a (len a) = Ok a.
Proof. exact VectorConvert_spec. Qed.
Print Assumptions C18_VectorConvertToBig.
Theorem C18_powerOf : forall x (n : nat), exists c, powerOf x (Z.of_nat n) = Ok c /\ length c = n /\
  forall i, (i < n)%nat -> nth i c 0 = (x ^ Z.of_nat i) mod secp_N.
Proof. exact powerOf_spec. Qed.
Print Assumptions C18_powerOf.
Theorem C18_ScalarProduct : forall a b, (length a <> length b -> ScalarProduct a b = Err) /\
  (length a = length b -> ScalarProduct a b = Ok (dot a b mod secp_N)).
Proof. exact ScalarProduct_spec. Qed.
Print Assumptions C18_ScalarProduct.
(** C18: vectors of points. *)
Theorem C18_VectorExp : forall E, ext_ok E -> forall g a, all_valid g ->
  (length g <> length a -> VectorExp E g a = Err) /\
  (length g = length a -> exists R, VectorExp E g a = Ok R /\ valid R /\ value R = multiexp g a).
Proof. exact VectorExp_spec. Qed.
Print Assumptions C18_VectorExp.
Theorem C18_VectorECAdd : forall E, ext_ok E -> forall a b, all_valid a -> all_valid b ->
  (length a <> length b -> VectorECAdd E a b = Err) /\
  (length a = length b -> exists c, VectorECAdd E a b = Ok c /\ length c = length a /\ all_valid c /\
     forall i, value (nth i c None) = gadd (value (nth i a None)) (value (nth i b None))).
Proof. exact VectorECAdd_spec. Qed.
Print Assumptions C18_VectorECAdd.
Theorem C18_commitInnerProduct : forall E, ext_ok E -> forall g h a b, all_valid g -> all_valid h ->
  length g = length a -> length h = length b ->
  exists P, commitInnerProduct E g h a b = Ok P /\ valid P /\ value P = gadd (multiexp g a) (multiexp h b).
Proof. exact commitIP_spec. Qed.
Print Assumptions C18_commitInnerProduct.
Example C18_nonvacuous : all_valid (repeat gen 3) /\ dot [1; 2; 3] [4; 5; 6] = 32.
Proof. split; [exact (allv_rep 3)|reflexivity]. Qed.

(** C19 *)
Theorem C19_IsPowerOfTwo : forall x, int64 x ->
  (IsPowerOfTwo x = true <-> (exists k, 0 <= k <= 62 /\ x = 2 ^ k) \/ x = - 2 ^ 63).
Proof. exact IsPowerOfTwo_iff. Qed.
Print Assumptions C19_IsPowerOfTwo.
(** the claim of its comment is therefore wrong *)
Theorem C19_IsPowerOfTwo_only_powers_refuted : IsPowerOfTwo (- 2 ^ 63) = true /\ int64 (- 2 ^ 63) /\ forall k, 0 <= k -> - 2 ^ 63 <> 2 ^ k.
Proof. exact IsPowerOfTwo_min. Qed.
Print Assumptions C19_IsPowerOfTwo_only_powers_refuted.
Example C19_nonvacuous : int64 64 /\ IsPowerOfTwo 64 = true /\ IsPowerOfTwo 96 = false.
Proof. unfold int64. repeat split; lia. Qed.

(** C20: for every hash function for which hash-to-point succeeds. *)
Theorem C20_Setup_succeeds_iff : forall E sha b, h2p_ok sha -> int64 b ->
  ((exists ps, Setup E sha b = Ok ps) <-> In b [2; 4; 16; 256; 65536; 2 ^ 32]).
Proof. exact Setup_iff. Qed.
Print Assumptions C20_Setup_succeeds_iff.
Theorem C20_Setup_error : forall E sha b, h2p_ok sha -> int64 b ->
  ~ In b [2; 4; 16; 256; 65536; 2 ^ 32] -> b <> - 2 ^ 63 -> Setup E sha b = Err.
Proof. exact Setup_err. Qed.
Print Assumptions C20_Setup_error.
Theorem C20_Setup_panics : forall E sha, h2p_ok sha -> Setup E sha (- 2 ^ 63) = Panic.
Proof. exact Setup_min. Qed.
Print Assumptions C20_Setup_panics.
(** the generators are hash-to-point of SEEDH followed by the letter g (103) or h (104) and the index *)
Theorem C20_Setup_params : forall E sha b, h2p_ok sha -> In b [2; 4; 16; 256; 65536; 2 ^ 32] ->
  exists ps, Setup E sha b = Ok ps /\ params_wf ps (Z.to_nat (Z.log2 b)) /\ sp_G ps = ScalarBaseMult E 1 /\
    value (sp_H ps) <> None /\ MapToGroup sha SEEDH = Ok (sp_H ps) /\
    (forall i, (i < Z.to_nat (Z.log2 b))%nat ->
       MapToGroup sha (SEEDH ++ [103] ++ [Z.of_nat i]) = Ok (nth i (sp_Gg ps) None) /\
       MapToGroup sha (SEEDH ++ [104] ++ [Z.of_nat i]) = Ok (nth i (sp_Hh ps) None)).
Proof. exact Setup_params. Qed.
Print Assumptions C20_Setup_params.
Example C20_nonvacuous : h2p_ok (fun _ => [1]) /\ int64 16 /\ int64 (- 2 ^ 63) /\ int64 8 /\ ~ In 8 range_ends.
Proof. split; [exact h2p_ok_sha1|]. unfold int64. repeat split; try lia. cbn. intuition discriminate. Qed.

(** C21: the two challenges are the same number. *)
Theorem C21_challenges_equal : forall sha A S, fst (HashBP sha A S) = snd (HashBP sha A S).
Proof. exact HashBP_same. Qed.
Print Assumptions C21_challenges_equal.

(** C22: the first transcript is ambiguous... *)
Theorem C22_HashBP_injective_refuted : exists A S A' S', (A, S) <> (A', S') /\
  forall sha, HashBP sha A S = HashBP sha A' S'.
Proof. exact HashBP_ambiguous. Qed.
Print Assumptions C22_HashBP_injective_refuted.
(** ... the second is not. *)
Theorem C22_hashIP_injective : forall g h P c g' h' P' c' (n : nat) i,
  length g = n -> length h = n -> length g' = n -> length h' = n ->
  hashIP_input g h P c (Z.of_nat n) = Ok i -> hashIP_input g' h' P' c' (Z.of_nat n) = Ok i ->
  g = g' /\ h = h' /\ P = P' /\ c = c'.
Proof. exact hashIP_input_inj. Qed.
Print Assumptions C22_hashIP_injective.
Example C22_nonvacuous : exists i, hashIP_input [Some (1, 2)] [None] (Some (3, 4)) 5 1 = Ok i.
Proof. eexists. reflexivity. Qed.

(** C23: completeness of the inner product argument, for every length 2^k. *)
Theorem C23_inner_product_complete : forall E, ext_ok E -> forall sha k q a b P pr,
  ip_params_wf q k -> length a = Nat.pow 2 k -> length b = Nat.pow 2 k -> valid P ->
  commitInnerProduct E (pp_Gg q) (pp_Hh q) a b = Ok P -> pp_Cc q mod secp_N = dot a b mod secp_N ->
  proveInnerProduct E sha a b P q = Ok pr -> exists pr', ipVerify E sha pr = Ok (true, pr').
Proof. exact ip_complete. Qed.
Print Assumptions C23_inner_product_complete.
(** the prover does return a proof, unless a challenge is 0 modulo the order *)
Theorem C23_prover_total : forall E, ext_ok E -> forall sha k a b q P,
  hash_ok sha -> ip_params_wf q k -> length a = Nat.pow 2 k -> length b = Nat.pow 2 k -> valid P ->
  exists pr, proveInnerProduct E sha a b P q = Ok pr.
Proof. exact bip_no_panic. Qed.
Print Assumptions C23_prover_total.
Example C23_nonvacuous : hash_ok sha1 /\ ip_params_wf (q_ex 2 70) 2 /\ pp_Cc (q_ex 2 70) = dot [1; 2; 3; 4] [5; 6; 7; 8] /\
  exists P pr x, commitInnerProduct ext_ref (pp_Gg (q_ex 2 70)) (pp_Hh (q_ex 2 70)) [1; 2; 3; 4] [5; 6; 7; 8] = Ok P /\ valid P /\
  hashIP sha1 (pp_Gg (q_ex 2 70)) (pp_Hh (q_ex 2 70)) P (pp_Cc (q_ex 2 70)) (pp_N (q_ex 2 70)) = Ok (Some x) /\ x mod secp_N <> 0 /\
  proveInnerProduct ext_ref sha1 [1; 2; 3; 4] [5; 6; 7; 8] P (q_ex 2 70) = Ok pr.
Proof. split; [exact hash_ok_sha1|]. split; [exact (q_ex_wf 2 70)|]. split; [reflexivity|]. exact (@ip_ex ext_ref ext_ref_ok 2 70 [1;2;3;4] [5;6;7;8] eq_refl eq_refl). Qed.

(** C24: with the commitment g^a h^b, the proof is accepted iff c = <a,b>. *)
Theorem C24_inner_product_exact : forall E, ext_ok E -> forall sha k q a b P pr x,
  ip_params_wf q k -> length a = Nat.pow 2 k -> length b = Nat.pow 2 k -> valid P ->
  commitInnerProduct E (pp_Gg q) (pp_Hh q) a b = Ok P ->
  hashIP sha (pp_Gg q) (pp_Hh q) P (pp_Cc q) (pp_N q) = Ok (Some x) -> x mod secp_N <> 0 -> value (pp_Uu q) <> None ->
  proveInnerProduct E sha a b P q = Ok pr ->
  exists acc pr', ipVerify E sha pr = Ok (acc, pr') /\ (acc = true <-> pp_Cc q mod secp_N = dot a b mod secp_N).
Proof. exact ip_exact. Qed.
Print Assumptions C24_inner_product_exact.
(** for any commitment P: accepted iff P u^(xc) = g^a h^b u^(x<a,b>) *)
Theorem C24_inner_product_general : forall E, ext_ok E -> forall sha k q a b P pr x,
  ip_params_wf q k -> length a = Nat.pow 2 k -> length b = Nat.pow 2 k -> valid P ->
  hashIP sha (pp_Gg q) (pp_Hh q) P (pp_Cc q) (pp_N q) = Ok (Some x) -> proveInnerProduct E sha a b P q = Ok pr ->
  exists acc pr', ipVerify E sha pr = Ok (acc, pr') /\
  (acc = true <-> gadd (value P) (gmul (x * pp_Cc q) (value (pp_Uu q))) =
     gadd (gadd (multiexp (pp_Gg q) a) (multiexp (pp_Hh q) b)) (gmul (x * dot a b) (value (pp_Uu q)))).
Proof. exact ip_general. Qed.
Print Assumptions C24_inner_product_general.
Example C24_nonvacuous : ip_params_wf (q_ex 2 69) 2 /\ value (pp_Uu (q_ex 2 69)) <> None /\
  exists P pr x, commitInnerProduct ext_ref (pp_Gg (q_ex 2 69)) (pp_Hh (q_ex 2 69)) [1; 2; 3; 4] [5; 6; 7; 8] = Ok P /\ valid P /\
  hashIP sha1 (pp_Gg (q_ex 2 69)) (pp_Hh (q_ex 2 69)) P (pp_Cc (q_ex 2 69)) (pp_N (q_ex 2 69)) = Ok (Some x) /\ x mod secp_N <> 0 /\
  proveInnerProduct ext_ref sha1 [1; 2; 3; 4] [5; 6; 7; 8] P (q_ex 2 69) = Ok pr.
Proof. split; [exact (q_ex_wf 2 69)|]. split; [exact value_G|]. exact (@ip_ex ext_ref ext_ref_ok 2 69 [1;2;3;4] [5;6;7;8] eq_refl eq_refl). Qed.

(** C25: Verify overwrites the commitment in the proof: the second call accepts
    iff the commitment of the fresh proof was infinity; the third call repeats
    the first. *)
Theorem C25_Verify_history : forall E, ext_ok E -> forall sha pr acc pr', ip_wf pr -> ipVerify E sha pr = Ok (acc, pr') ->
  (acc = true <-> value (pp_P (ip_Params pr')) = None) /\
  exists acc2 pr2, ipVerify E sha pr' = Ok (acc2, pr2) /\ (acc2 = true <-> value (pp_P (ip_Params pr)) = None) /\
  value (pp_P (ip_Params pr2)) = value (pp_P (ip_Params pr)) /\
  exists acc3 pr3, ipVerify E sha pr2 = Ok (acc3, pr3) /\ acc3 = acc.
Proof. exact verify_repeat. Qed.
Print Assumptions C25_Verify_history.
Theorem C25_Verify_repeatable_refuted : forall E, ext_ok E -> exists sha pr pr' pr'',
  ip_wf pr /\ ipVerify E sha pr = Ok (true, pr') /\ ipVerify E sha pr' = Ok (false, pr'').
Proof. exact verify_repeatable_refuted. Qed.
Print Assumptions C25_Verify_repeatable_refuted.
(** the same for range proofs *)
Theorem C25_range_Verify_twice : forall E, ext_ok E -> forall sha pr pr', ip_wf (bp_IP pr) -> Verify E sha pr = Ok (true, pr') ->
  exists acc2 pr2, Verify E sha pr' = Ok (acc2, pr2) /\ (acc2 = true <-> value (pp_P (ip_Params (bp_IP pr))) = None).
Proof. exact Verify_twice. Qed.
Print Assumptions C25_range_Verify_twice.
Example C25_nonvacuous : ext_ok ext_ref /\ exists pr pr', ip_wf pr /\ ipVerify ext_ref sha1 pr = Ok (true, pr') /\
  value (pp_P (ip_Params pr)) <> None.
Proof. split; [exact ext_ref_ok|]. exact (repeat_ex ext_ref_ok). Qed.

(** C26: completeness of the range proof for N = 2^k bits. *)
Theorem C26_range_proof_complete : forall E, ext_ok E -> forall sha k ps secret t pr,
  params_wf ps (Nat.pow 2 k) -> tape_ok t (Nat.pow 2 k) -> Prove E sha secret ps t = Ok pr ->
  0 <= secret < 2 ^ Z.of_nat (Nat.pow 2 k) -> nondegenerate sha pr -> exists pr', Verify E sha pr = Ok (true, pr').
Proof. exact honest_complete. Qed.
Print Assumptions C26_range_proof_complete.
Theorem C26_Prove_total : forall E, ext_ok E -> forall sha k ps secret t,
  params_wf ps (Nat.pow 2 k) -> tape_ok t (Nat.pow 2 k) -> hash_ok sha ->
  (exists U, MapToGroup sha SEEDU = Ok U) -> exists pr, Prove E sha secret ps t = Ok pr.
Proof. exact Prove_total. Qed.
Print Assumptions C26_Prove_total.
(** without the non-degeneracy condition completeness fails: with gamma = 0 the
    commitment to a secret in range is infinity and the proof is rejected *)
Theorem C26_all_randomness_refuted : forall E, ext_ok E -> forall sha k ps secret t pr,
  params_wf ps (Nat.pow 2 k) -> tape_ok t (Nat.pow 2 k) -> Prove E sha secret ps t = Ok pr ->
  r_gamma t mod secp_N = 0 -> 0 < secret < 2 ^ Z.of_nat (Nat.pow 2 k) -> secret mod secp_N <> 0 ->
  fst (HashBP sha (bp_A pr) (bp_S pr)) mod secp_N <> 0 ->
  value (bp_T1 pr) <> None -> value (bp_T2 pr) <> None ->
  summable (gmul (bp_Tprime pr) gen) (gmul (bp_Taux pr) (value (sp_H ps))) ->
  exists pr', Verify E sha pr = Ok (false, pr').
Proof. exact honest_gamma0. Qed.
Print Assumptions C26_all_randomness_refuted.
Example C26_nonvacuous : forall k, (k < 6)%nat -> exists ps, Setup ext_ref sha1 (2 ^ 2 ^ Z.of_nat k) = Ok ps /\
  params_wf ps (Nat.pow 2 k) /\ forall secret,
  (exists t pr, tape_ok t (Nat.pow 2 k) /\ Prove ext_ref sha1 secret ps t = Ok pr /\ nondegenerate sha1 pr /\
    fst (HashBP sha1 (bp_A pr) (bp_S pr)) mod secp_N <> 0) /\
  exists t pr, tape_ok t (Nat.pow 2 k) /\ Prove ext_ref sha1 secret ps t = Ok pr /\ r_gamma t = 0 /\
    fst (HashBP sha1 (bp_A pr) (bp_S pr)) mod secp_N <> 0 /\
    value (bp_T1 pr) <> None /\ value (bp_T2 pr) <> None /\
    summable (gmul (bp_Tprime pr) gen) (gmul (bp_Taux pr) (value (sp_H ps))).
Proof.
  intros k Hk. destruct (@setup_ex ext_ref k) as (ps & H1 & H2 & H3); [now apply lt_ssr|]. exists ps. split; [exact H1|]. split; [exact H2|].
  intros secret. split; [exact (nd_exists ext_ref_ok secret H2 H3)|exact (g0_exists ext_ref_ok secret H2 H3)].
Qed.

(** C27: which secrets an honest prover can prove. *)
Theorem C27_accepted_iff : forall E, ext_ok E -> forall sha k ps secret t pr,
  params_wf ps (Nat.pow 2 k) -> tape_ok t (Nat.pow 2 k) -> Prove E sha secret ps t = Ok pr ->
  nondegenerate sha pr -> fst (HashBP sha (bp_A pr) (bp_S pr)) mod secp_N <> 0 ->
  exists acc pr', Verify E sha pr = Ok (acc, pr') /\
    (acc = true <-> secret mod secp_N = (secret mod 2 ^ Z.of_nat (Nat.pow 2 k)) mod secp_N).
Proof. exact honest_exact. Qed.
Print Assumptions C27_accepted_iff.
Theorem C27_in_range : forall E, ext_ok E -> forall sha k ps secret t pr,
  params_wf ps (Nat.pow 2 k) -> tape_ok t (Nat.pow 2 k) -> Prove E sha secret ps t = Ok pr ->
  nondegenerate sha pr -> fst (HashBP sha (bp_A pr) (bp_S pr)) mod secp_N <> 0 ->
  - (secp_N - 2 ^ Z.of_nat (Nat.pow 2 k)) < secret < secp_N ->
  exists acc pr', Verify E sha pr = Ok (acc, pr') /\ (acc = true <-> 0 <= secret < 2 ^ Z.of_nat (Nat.pow 2 k)).
Proof. exact honest_window. Qed.
Print Assumptions C27_in_range.
Example C27_nonvacuous : exists ps, Setup ext_ref sha1 (2 ^ 32) = Ok ps /\ params_wf ps (Nat.pow 2 5) /\ forall secret,
  exists t pr, tape_ok t (Nat.pow 2 5) /\ Prove ext_ref sha1 secret ps t = Ok pr /\ nondegenerate sha1 pr /\
    fst (HashBP sha1 (bp_A pr) (bp_S pr)) mod secp_N <> 0.
Proof.
  destruct (@setup_ex ext_ref 5) as (ps & H1 & H2 & H3); [reflexivity|]. exists ps. split; [exact H1|]. split; [exact H2|].
  intros secret. exact (nd_exists ext_ref_ok secret H2 H3).
Qed.

(** C28: for every integer v there is a commitment to v and a proof, made with
    public operations only, that Verify accepts for the given parameters. *)
Theorem C28_soundness_refuted : forall E, ext_ok E -> forall sha ps n v A S,
  params_wf ps n -> (0 < n)%nat -> value (sp_H ps) <> None -> valid A -> valid S ->
  fst (HashBP sha A S) mod secp_N <> 0 ->
  exists gamma pr pr', (gamma = 1 \/ gamma = 2 \/ gamma = 3) /\ forge E sha ps v gamma A S trivial_ip = Ok pr /\
    bp_Params pr = ps /\ value (bp_V pr) = pedersen v gamma (sp_H ps) /\ Verify E sha pr = Ok (true, pr').
Proof. exact forge_trivial. Qed.
Print Assumptions C28_soundness_refuted.
(** any accepted inner product proof will do *)
Theorem C28_inner_product_unbound : forall E, ext_ok E -> forall sha ps n v A S ip ip',
  params_wf ps n -> (0 < n)%nat -> value (sp_H ps) <> None -> valid A -> valid S ->
  fst (HashBP sha A S) mod secp_N <> 0 -> ipVerify E sha ip = Ok (true, ip') ->
  exists gamma pr pr', (gamma = 1 \/ gamma = 2 \/ gamma = 3) /\ forge E sha ps v gamma A S ip = Ok pr /\
    bp_Params pr = ps /\ value (bp_V pr) = pedersen v gamma (sp_H ps) /\ Verify E sha pr = Ok (true, pr').
Proof. exact forge_accepted'. Qed.
Print Assumptions C28_inner_product_unbound.
Example C28_nonvacuous : exists ps, Setup ext_ref sha1 (2 ^ 32) = Ok ps /\ params_wf ps (Nat.pow 2 5) /\
  value (sp_H ps) <> None /\ valid gen /\ fst (HashBP sha1 gen gen) mod secp_N <> 0.
Proof.
  destruct (@setup_ex ext_ref 5) as (ps & H1 & H2 & H3); [reflexivity|]. exists ps. split; [exact H1|]. split; [exact H2|].
  split; [exact H3|]. split; [exact valid_G|]. rewrite HashBP_sha1. exact one_mod_N.
Qed.

(** C29: the generic range proof. *)
Theorem C29_accepted_iff : forall E, ext_ok E -> forall sha A B secret t1 t2 params pr,
  h2p_ok sha -> SetupGeneric E sha A B = Ok params -> tape_ok t1 32 -> tape_ok t2 32 ->
  ProveGeneric E sha secret params t1 t2 = Ok pr ->
  nondegenerate sha (gpr_P1 pr) -> nondegenerate sha (gpr_P2 pr) ->
  fst (HashBP sha (bp_A (gpr_P1 pr)) (bp_S (gpr_P1 pr))) mod secp_N <> 0 ->
  fst (HashBP sha (bp_A (gpr_P2 pr)) (bp_S (gpr_P2 pr))) mod secp_N <> 0 ->
  int64 A -> int64 B -> - 2 ^ 254 <= secret <= 2 ^ 254 ->
  exists acc pr', VerifyGeneric E sha pr = Ok (acc, pr') /\
   (acc = true <-> (B - 2 ^ 32 <= secret < B /\ A <= secret < A + 2 ^ 32)).
Proof. exact generic_exact. Qed.
Print Assumptions C29_accepted_iff.
(** hence exactly [A,B) when 0 < B - A <= 2^32, nothing when B <= A (which
    SetupGeneric accepts), and not all of [A,B) when B - A > 2^32 *)
Theorem C29_interval : forall E, ext_ok E -> forall sha A B secret t1 t2 params pr,
  h2p_ok sha -> SetupGeneric E sha A B = Ok params -> tape_ok t1 32 -> tape_ok t2 32 ->
  ProveGeneric E sha secret params t1 t2 = Ok pr ->
  nondegenerate sha (gpr_P1 pr) -> nondegenerate sha (gpr_P2 pr) ->
  fst (HashBP sha (bp_A (gpr_P1 pr)) (bp_S (gpr_P1 pr))) mod secp_N <> 0 ->
  fst (HashBP sha (bp_A (gpr_P2 pr)) (bp_S (gpr_P2 pr))) mod secp_N <> 0 ->
  int64 A -> int64 B -> - 2 ^ 254 <= secret <= 2 ^ 254 -> B - A <= 2 ^ 32 ->
  exists acc pr', VerifyGeneric E sha pr = Ok (acc, pr') /\ (acc = true <-> A <= secret < B).
Proof. exact generic_interval. Qed.
Print Assumptions C29_interval.
Theorem C29_wide_interval_refuted : forall E, ext_ok E -> forall sha A B t1 t2 params pr,
  h2p_ok sha -> SetupGeneric E sha A B = Ok params -> tape_ok t1 32 -> tape_ok t2 32 ->
  ProveGeneric E sha A params t1 t2 = Ok pr ->
  nondegenerate sha (gpr_P1 pr) -> nondegenerate sha (gpr_P2 pr) ->
  fst (HashBP sha (bp_A (gpr_P1 pr)) (bp_S (gpr_P1 pr))) mod secp_N <> 0 ->
  fst (HashBP sha (bp_A (gpr_P2 pr)) (bp_S (gpr_P2 pr))) mod secp_N <> 0 ->
  int64 A -> int64 B -> 2 ^ 32 < B - A ->
  exists pr', VerifyGeneric E sha pr = Ok (false, pr').
Proof. exact generic_wide. Qed.
Print Assumptions C29_wide_interval_refuted.
Theorem C29_SetupGeneric : forall E sha A B, h2p_ok sha -> exists params, SetupGeneric E sha A B = Ok params.
Proof. exact SetupGeneric_ok. Qed.
Print Assumptions C29_SetupGeneric.
Example C29_nonvacuous : h2p_ok sha1 /\ forall A B secret, exists params t1 t2 pr, SetupGeneric ext_ref sha1 A B = Ok params /\
  tape_ok t1 32 /\ tape_ok t2 32 /\ ProveGeneric ext_ref sha1 secret params t1 t2 = Ok pr /\
  nondegenerate sha1 (gpr_P1 pr) /\ nondegenerate sha1 (gpr_P2 pr) /\
  fst (HashBP sha1 (bp_A (gpr_P1 pr)) (bp_S (gpr_P1 pr))) mod secp_N <> 0 /\
  fst (HashBP sha1 (bp_A (gpr_P2 pr)) (bp_S (gpr_P2 pr))) mod secp_N <> 0.
Proof. split; [exact h2p_ok_sha1|]. exact (generic_ex ext_ref_ok). Qed.

(** C30: the halves are checked separately, and A and B are not looked at. *)
Theorem C30_halves_unbound : forall E sha pr1 pr2 pr1' pr2',
  Verify E sha pr1 = Ok (true, pr1') -> Verify E sha pr2 = Ok (true, pr2') ->
  VerifyGeneric E sha (GProof pr1 pr2) = Ok (true, GProof pr1' pr2').
Proof. exact generic_unbound. Qed.
Print Assumptions C30_halves_unbound.
(** even from honest provers: proofs for any two secrets below 2^32 combine *)
Theorem C30_binding_refuted : forall E, ext_ok E -> forall sha ps s1 s2 t1 t2 pr1 pr2,
  params_wf ps 32 -> tape_ok t1 32 -> tape_ok t2 32 ->
  Prove E sha s1 ps t1 = Ok pr1 -> Prove E sha s2 ps t2 = Ok pr2 ->
  0 <= s1 < 2 ^ 32 -> 0 <= s2 < 2 ^ 32 -> nondegenerate sha pr1 -> nondegenerate sha pr2 ->
  exists pr', VerifyGeneric E sha (GProof pr1 pr2) = Ok (true, pr').
Proof. exact halves_differ. Qed.
Print Assumptions C30_binding_refuted.
Example C30_nonvacuous : exists ps, Setup ext_ref sha1 (2 ^ 32) = Ok ps /\ params_wf ps 32 /\ forall secret,
  exists t pr, tape_ok t 32 /\ Prove ext_ref sha1 secret ps t = Ok pr /\ nondegenerate sha1 pr /\
    fst (HashBP sha1 (bp_A pr) (bp_S pr)) mod secp_N <> 0.
Proof. exact C27_nonvacuous. Qed.
