(** * Properties C31-C38 and C54-C58: Boneh-Boyen signatures and ccs08

    Everything is for any bilinear group satisfying the contract [bilinear]
    (SpecCCS.v); [R1 W p x] reads "the object p represents g1^x". *)
From Coq Require Import ZArith Znumtheory List Bool.
From Verif Require Import Base ByteConv SpecCodec Util BB CCS08 SpecCCS CCSProofs CCSRange CCSLaws CCSInterval CCSExamples.
Import ListNotations.
Open Scope Z_scope.

(** There is a group satisfying the contract. *)
Theorem C31_contract_satisfiable : exists W : bilinear toy, (forall k, R1 W (G1_ScalarBaseMult toy k) k) /\
  ~ (forall k, R1 W (G1_ScalarBaseMult toy k) 0).
Proof. exact toy_contract. Qed.
Print Assumptions C31_contract_satisfiable.

(** C31: a signature verifies under its public key... *)
Theorem C31_signature_verifies : forall B (W : bilinear B) m k pub s,
  R1 W pub k -> addable m k -> Sign B m k = Ok s -> verify B s m pub = Ok true.
Proof. exact sig_verifies. Qed.
Print Assumptions C31_signature_verifies.
(** ... no other group element does ... *)
Theorem C31_signature_unique : forall B (W : bilinear B) m k pub s w,
  R1 W pub k -> addable m k -> R2 W s w -> pairable W s -> verify B s m pub = Ok true ->
  exists s', Sign B m k = Ok s' /\ G2_Marshal B s' = G2_Marshal B s.
Proof. exact verify_unique. Qed.
Print Assumptions C31_signature_unique.
(** ... and Sign panics exactly on the message -k. *)
Theorem C31_sign_panics_iff : forall B (W : bilinear B) m k, Sign B m k = Panic <-> (m + k) mod bnOrder = 0.
Proof. exact sign_panics_iff. Qed.
Print Assumptions C31_sign_panics_iff.
Theorem C31_sign_total : forall B (W : bilinear B) m k, (m + k) mod bnOrder <> 0 -> exists s, Sign B m k = Ok s.
Proof. exact sign_total. Qed.
Print Assumptions C31_sign_total.
Example C31_nonvacuous : R1 toy_bilinear 5 5 /\ addable 12 5 /\ (12 + 5) mod bnOrder <> 0.
Proof. exact c31_example. Qed.

(** C32: a correct key pair always comes with a non-nil error (the [true]). *)
Theorem C32_keygen_error_inverted : forall B (W : bilinear B) k, exists pub,
  Keygen B k = (Keypair B (Some pub) k, true) /\ R1 W pub k.
Proof. exact Keygen_spec. Qed.
Print Assumptions C32_keygen_error_inverted.

(** C33: set membership. *)
Theorem C33_setup_iff : forall B (W : bilinear B) k s,
  (exists p, SetupSet B k s = Ok p) <-> (forall m, In m s -> (m + k) mod bnOrder <> 0).
Proof. exact setup_set_iff. Qed.
Print Assumptions C33_setup_iff.
Theorem C33_prove_fails_iff : forall B sha (W : bilinear B), hash_bytes sha ->
  forall k s p tp x r, SetupSet B k s = Ok p ->
  (ProveSet B sha tp x r p = Err <-> ~ In x s) /\ (In x s -> exists pr, ProveSet B sha tp x r p = Ok pr).
Proof. exact set_fails. Qed.
Print Assumptions C33_prove_fails_iff.
Theorem C33_completeness : forall B sha (W : bilinear B), hash_bytes sha ->
  forall k s p tp x r pr, SetupSet B k s = Ok p -> tapeSet_range tp ->
  ProveSet B sha tp x r p = Ok pr -> set_nondegenerate W hExp x r pr -> VerifySet B pr p = Ok true.
Proof. exact set_complete. Qed.
Print Assumptions C33_completeness.
(** The equations that VerifySet checks, for every proof object. *)
Theorem C33_verification_equations : forall B (W : bilinear B) pr p pub k h y w d a,
  kp_Pubk B (ps_kp B p) = Some pub -> R1 W pub k -> R2 W (ps_H B p) h ->
  R2 W (sp_C B pr) y -> R2 W (sp_V B pr) w -> pairable W (sp_V B pr) ->
  R2 W (sp_D B pr) d -> RT W (sp_a B pr) a ->
  0 <= sp_c B pr -> 0 <= sp_zr B pr -> 0 <= sp_zsig B pr -> 0 <= sp_zv B pr ->
  chain (y * sp_c B pr) [h * sp_zr B pr; sp_zsig B pr] ->
  exists b, VerifySet B pr p = Ok b /\
    (b = true <-> eqm (y * sp_c B pr + h * sp_zr B pr + sp_zsig B pr) d /\
                  eqm (w * (k * sp_c B pr - sp_zsig B pr) + sp_zv B pr) a).
Proof. exact VerifySet_iff. Qed.
Print Assumptions C33_verification_equations.
Example C33_nonvacuous : hash_bytes sha_one /\ exists p pr, SetupSet toy 5 [3; 8; 10] = Ok p /\
  ProveSet toy sha_one ex_tape 8 11 p = Ok pr /\ set_nondegenerate toy_bilinear hExp 8 11 pr /\
  ~ eqm (sp_c toy pr) 0 /\ VerifySet toy pr p = Ok true.
Proof. exact (conj sha_one_ok set_example). Qed.

(** C34: the range proof for [0, u^l). *)
Theorem C34_prove_never_fails : forall B sha (W : bilinear B), hash_bytes sha ->
  forall k u l p tp x r, SetupUL B k u l = Ok p -> 0 < u -> 0 <= l -> tapeUL_ok tp l ->
  exists pr, ProveUL B sha tp x r p = Ok pr.
Proof. exact ul_never_fails. Qed.
Print Assumptions C34_prove_never_fails.
Theorem C34_accepts_iff_truncation : forall B sha (W : bilinear B), hash_bytes sha ->
  forall k u l p tp x r pr, SetupUL B k u l = Ok p -> 0 < u -> 0 <= l -> tapeUL_ok tp l -> tape_range tp ->
  ProveUL B sha tp x r p = Ok pr -> ul_nondegenerate W u hExp x r pr ->
  exists b, VerifyUL B pr p = Ok b /\ (b = true <-> eqm (up_c B pr * (x - x mod u ^ l)) 0).
Proof. exact ul_exact_eqm. Qed.
Print Assumptions C34_accepts_iff_truncation.
Theorem C34_accepts_iff_in_range : forall B sha (W : bilinear B), hash_bytes sha ->
  forall k u l p tp x r pr, SetupUL B k u l = Ok p -> 0 < u -> 0 <= l -> tapeUL_ok tp l -> tape_range tp ->
  ProveUL B sha tp x r p = Ok pr -> ul_nondegenerate W u hExp x r pr -> ~ eqm (up_c B pr) 0 ->
  - (bnOrder - u ^ l) < x < bnOrder ->
  exists b, VerifyUL B pr p = Ok b /\ (b = true <-> 0 <= x < u ^ l).
Proof. exact ul_exact. Qed.
Print Assumptions C34_accepts_iff_in_range.
Theorem C34_verification_equations : forall B (W : bilinear B) pr p pub k h y d w al n,
  pu_l B p = Z.of_nat n ->
  kp_Pubk B (pu_kp B p) = Some pub -> R1 W pub k -> R2 W (pu_H B p) h ->
  length (up_V B pr) = n -> length (up_zsig B pr) = n -> length (up_zv B pr) = n -> length (up_a B pr) = n ->
  R2 W (up_C B pr) y -> R2 W (up_D B pr) d -> Forall2 (R2 W) (up_V B pr) w -> Forall2 (RT W) (up_a B pr) al ->
  Forall (pairable W) (up_V B pr) -> 0 <= up_c B pr -> 0 <= up_zr B pr ->
  Forall (fun z => 0 <= z) (up_zsig B pr) -> Forall (fun z => 0 <= z) (up_zv B pr) ->
  chain (y * up_c B pr) (h * up_zr B pr :: weighted (pu_u B p) 0 (up_zsig B pr)) ->
  exists b, VerifyUL B pr p = Ok b /\
    (b = true <-> eqm (y * up_c B pr + h * up_zr B pr + le_value (pu_u B p) (up_zsig B pr)) d /\
                  pair_eqs k (up_c B pr) w (up_zsig B pr) (up_zv B pr) al).
Proof. exact VerifyUL_iff. Qed.
Print Assumptions C34_verification_equations.
(** u = 57, l = 2: 57^2 - 1 is accepted and 57^2 is rejected. *)
Example C34_nonvacuous : forall x out, (x, out) = (3248, true) \/ (x, out) = (3249, false) ->
  exists p pr, SetupUL toy 5 57 2 = Ok p /\ tapeUL_ok ex_tape1 2 /\ tape_range ex_tape1 /\
  ProveUL toy sha_one ex_tape1 x 11 p = Ok pr /\ ul_nondegenerate toy_bilinear 57 hExp x 11 pr /\
  ~ eqm (up_c toy pr) 0 /\ VerifyUL toy pr p = Ok out.
Proof. exact c34_example. Qed.

(** C35: forgeries.  No hypothesis on the group, on C or on the challenge: for
    every commitment and all response values there is an accepted proof object,
    computed from the public key and H alone. *)
Theorem C35_forge_set : forall B p pub C V c zr zsig zv,
  kp_Pubk B (ps_kp B p) = Some pub ->
  let f := forgeSet B (ps_H B p) pub C V c zr zsig zv in
  VerifySet B f p = Ok true /\ sp_C B f = C.
Proof. exact forge_set. Qed.
Print Assumptions C35_forge_set.
Theorem C35_forge_ul : forall B p pub C c zr digits,
  kp_Pubk B (pu_kp B p) = Some pub -> pu_l B p = Z.of_nat (length digits) ->
  let f := forgeUL B (pu_H B p) pub (pu_u B p) C c zr digits in
  VerifyUL B f p = Ok true /\ up_C B f = C.
Proof. exact forge_ul. Qed.
Print Assumptions C35_forge_ul.
(** So membership is not enforced: 9 is not in the set. *)
Theorem C35_soundness_refuted : exists p f, SetupSet toy 5 [3; 8; 10] = Ok p /\
  VerifySet toy f p = Ok true /\ sp_C toy f = Commit toy 9 11 (ps_H toy p) /\ ~ In 9 [3; 8; 10].
Proof. exact forge_example. Qed.
Print Assumptions C35_soundness_refuted.

(** C36: the secret and the blinding factor from the fields of the proof. *)
Theorem C36_set_proof_reveals_secret : forall B sha tp x r p pr, ProveSet B sha tp x r p = Ok pr -> ~ eqm (sp_c B pr) 0 ->
  recover (sp_s B pr) (sp_zsig B pr) (sp_c B pr) = x mod bnOrder /\
  recover (sp_m B pr) (sp_zr B pr) (sp_c B pr) = r mod bnOrder.
Proof. exact leak_set. Qed.
Print Assumptions C36_set_proof_reveals_secret.
Theorem C36_ul_proof_reveals_secret : forall B sha tp x r p pr, ProveUL B sha tp x r p = Ok pr -> ~ eqm (up_c B pr) 0 ->
  0 < pu_u B p <= bnOrder -> 0 <= pu_l B p -> 0 <= x < pu_u B p ^ pu_l B p ->
  x = le_value (pu_u B p)
        (map (fun e => recover (fst e) (snd e) (up_c B pr)) (combine (up_s B pr) (up_zsig B pr))).
Proof. exact leak_ul_value. Qed.
Print Assumptions C36_ul_proof_reveals_secret.
Theorem C36_ul_proof_reveals_blinding : forall B sha tp x r p pr, ProveUL B sha tp x r p = Ok pr -> ~ eqm (up_c B pr) 0 ->
  recover (up_m B pr) (up_zr B pr) (up_c B pr) = r mod bnOrder.
Proof. exact leak_ul_r. Qed.
Print Assumptions C36_ul_proof_reveals_blinding.

(** C37: Setup. *)
Theorem C37_setup_error : forall B k a b, a > b \/ b = 1 -> Setup B k a b = Err.
Proof. exact Setup_err. Qed.
Print Assumptions C37_setup_error.
Theorem C37_setup_ok : forall B (W : bilinear B) k a b, a <= b -> b <> 1 -> no_clash k 57 ->
  exists z, Setup B k a b = Ok z /\ pa_a B z = a /\ pa_b B z = b /\ pu_u B (pa_p B z) = 57 /\
    (b <= 0 -> pu_l B (pa_p B z) = 0) /\
    (0 < b -> 1 <= pu_l B (pa_p B z) /\ 57 ^ (pu_l B (pa_p B z) - 1) <= b < 57 ^ pu_l B (pa_p B z)).
Proof. exact Setup_ok. Qed.
Print Assumptions C37_setup_ok.

(** C38: the interval proof. *)
Theorem C38_prove_total : forall B sha (W : bilinear B), hash_bytes sha ->
  forall k a b z tp1 tp2 x r, Setup B k a b = Ok z ->
  tapeUL_ok tp1 (pu_l B (pa_p B z)) -> tapeUL_ok tp2 (pu_l B (pa_p B z)) ->
  exists pr, Prove B sha tp1 tp2 x r z = Ok pr.
Proof. exact Prove_ok. Qed.
Print Assumptions C38_prove_total.
Theorem C38_accepts_iff : forall B sha (W : bilinear B), hash_bytes sha ->
  forall k a b z tp1 tp2 x r pr, Setup B k a b = Ok z ->
  tapeUL_ok tp1 (pu_l B (pa_p B z)) -> tapeUL_ok tp2 (pu_l B (pa_p B z)) -> tape_range tp1 -> tape_range tp2 ->
  - 2 ^ 63 <= a -> b < 2 ^ 63 -> - 2 ^ 250 < x < 2 ^ 250 ->
  Prove B sha tp1 tp2 x r z = Ok pr ->
  let ul := 57 ^ pu_l B (pa_p B z) in
  ul_nondegenerate W 57 hExp (x - b + ul) r (pf_p1 B pr) ->
  ul_nondegenerate W 57 hExp (x - a) r (pf_p2 B pr) ->
  ~ eqm (up_c B (pf_p1 B pr)) 0 -> ~ eqm (up_c B (pf_p2 B pr)) 0 ->
  exists v, Verify B pr z = Ok v /\ (v = true <-> b - ul <= x < b /\ a <= x < a + ul).
Proof. exact interval_exact. Qed.
Print Assumptions C38_accepts_iff.
Theorem C38_accepts_iff_interval : forall B sha (W : bilinear B), hash_bytes sha ->
  forall k a b z tp1 tp2 x r pr, Setup B k a b = Ok z ->
  tapeUL_ok tp1 (pu_l B (pa_p B z)) -> tapeUL_ok tp2 (pu_l B (pa_p B z)) -> tape_range tp1 -> tape_range tp2 ->
  0 <= a -> b < 2 ^ 63 -> - 2 ^ 250 < x < 2 ^ 250 ->
  Prove B sha tp1 tp2 x r z = Ok pr ->
  let ul := 57 ^ pu_l B (pa_p B z) in
  ul_nondegenerate W 57 hExp (x - b + ul) r (pf_p1 B pr) ->
  ul_nondegenerate W 57 hExp (x - a) r (pf_p2 B pr) ->
  ~ eqm (up_c B (pf_p1 B pr)) 0 -> ~ eqm (up_c B (pf_p2 B pr)) 0 ->
  exists v, Verify B pr z = Ok v /\ (v = true <-> a <= x < b).
Proof. exact interval_nonneg. Qed.
Print Assumptions C38_accepts_iff_interval.
Theorem C38_wide_interval_refuted : forall B sha (W : bilinear B), hash_bytes sha ->
  forall k a b z tp1 tp2 r pr, Setup B k a b = Ok z ->
  tapeUL_ok tp1 (pu_l B (pa_p B z)) -> tapeUL_ok tp2 (pu_l B (pa_p B z)) -> tape_range tp1 -> tape_range tp2 ->
  - 2 ^ 63 <= a -> b < 2 ^ 63 ->
  let ul := 57 ^ pu_l B (pa_p B z) in
  a < b - ul ->
  Prove B sha tp1 tp2 a r z = Ok pr ->
  ul_nondegenerate W 57 hExp (a - b + ul) r (pf_p1 B pr) ->
  ul_nondegenerate W 57 hExp (a - a) r (pf_p2 B pr) ->
  ~ eqm (up_c B (pf_p1 B pr)) 0 -> ~ eqm (up_c B (pf_p2 B pr)) 0 ->
  Verify B pr z = Ok false.
Proof. exact interval_wide. Qed.
Print Assumptions C38_wide_interval_refuted.
(** [10,100): 42 is accepted, 7 is rejected. *)
Example C38_nonvacuous : forall x out, (x, out) = (42, true) \/ (x, out) = (7, false) ->
  exists z pr, Setup toy 5 10 100 = Ok z /\ pu_l toy (pa_p toy z) = 2 /\
  tapeUL_ok ex_tape1 2 /\ tapeUL_ok ex_tape2 2 /\ tape_range ex_tape1 /\ tape_range ex_tape2 /\
  Prove toy sha_one ex_tape1 ex_tape2 x 11 z = Ok pr /\
  ul_nondegenerate toy_bilinear 57 hExp (x - 100 + 57 ^ 2) 11 (pf_p1 toy pr) /\
  ul_nondegenerate toy_bilinear 57 hExp (x - 10) 11 (pf_p2 toy pr) /\
  ~ eqm (up_c toy (pf_p1 toy pr)) 0 /\ ~ eqm (up_c toy (pf_p2 toy pr)) 0 /\
  Verify toy pr z = Ok out.
Proof. exact c38_example. Qed.
Example C38_wide_nonvacuous : exists z pr, Setup toy 5 (-100) 20 = Ok z /\ -100 < 20 - 57 ^ pu_l toy (pa_p toy z) /\
  Prove toy sha_one wide_tape1 wide_tape2 (-100) 11 z = Ok pr /\
  ul_nondegenerate toy_bilinear 57 hExp (-100 - 20 + 57 ^ pu_l toy (pa_p toy z)) 11 (pf_p1 toy pr) /\
  ul_nondegenerate toy_bilinear 57 hExp (-100 - -100) 11 (pf_p2 toy pr) /\
  ~ eqm (up_c toy (pf_p1 toy pr)) 0 /\ ~ eqm (up_c toy (pf_p2 toy pr)) 0 /\
  Verify toy pr z = Ok false.
Proof. exact wide_example. Qed.

(** C54: the logarithm of H is a constant of the source, so every commitment
    can be opened to every value. *)
Theorem C54_commitment_binding_refuted : forall B (W : bilinear B) x r x',
  let r' := (r + (x - x') * invm hExp) mod bnOrder in
  0 <= x -> 0 <= r -> 0 <= x' -> chain x [hExp * r] -> chain x' [hExp * r'] ->
  G2_Marshal B (Commit B x r (setupH B)) = G2_Marshal B (Commit B x' r' (setupH B)).
Proof. exact equivocate. Qed.
Print Assumptions C54_commitment_binding_refuted.
Example C54_nonvacuous : chain 5 [hExp * 6] /\ chain 9 [hExp * ((6 + (5 - 9) * invm hExp) mod bnOrder)].
Proof. exact c54_example. Qed.

(** C55: the parameters given to the prover contain the signing key, with which
    the prover makes an accepted proof for any element. *)
Theorem C55_params_contain_signing_key : forall B sha (W : bilinear B), hash_bytes sha ->
  forall k s p tp x r, SetupSet B k s = Ok p -> ~ eqm (x + k) 0 -> tapeSet_range tp ->
  exists sig pr, Sign B x (kp_Privk B (ps_kp B p)) = Ok sig /\
    ProveSet B sha tp x r (ParamsSet B [(big_String x, Some sig)] (ps_H B p) (ps_kp B p)) = Ok pr /\
    sp_C B pr = Commit B x r (ps_H B p) /\
    (set_nondegenerate W hExp x r pr -> VerifySet B pr p = Ok true).
Proof. exact signing_key_attack. Qed.
Print Assumptions C55_params_contain_signing_key.
(** 9 is not in the set. *)
Example C55_nonvacuous : exists p sig pr, SetupSet toy 5 [3; 8; 10] = Ok p /\ Sign toy 9 5 = Ok sig /\
  ProveSet toy sha_one ex_tape 9 11 (ParamsSet toy [(big_String 9, Some sig)] (ps_H toy p) (ps_kp toy p)) = Ok pr /\
  set_nondegenerate toy_bilinear hExp 9 11 pr.
Proof. exact c55_example. Qed.

(** C56: two accepted answers to different challenges, for the same first
    message, give an opening of the commitment and a blinded signature on the
    opened value (a signature when the blinding v is not 0). *)
Theorem C56_special_soundness : forall B (W : bilinear B) p pub k h p1 p2 y w d a,
  kp_Pubk B (ps_kp B p) = Some pub -> R1 W pub k -> R2 W (ps_H B p) h ->
  sp_C B p2 = sp_C B p1 -> sp_V B p2 = sp_V B p1 -> sp_D B p2 = sp_D B p1 -> sp_a B p2 = sp_a B p1 ->
  R2 W (sp_C B p1) y -> R2 W (sp_V B p1) w -> pairable W (sp_V B p1) -> R2 W (sp_D B p1) d -> RT W (sp_a B p1) a ->
  (forall q, q = p1 \/ q = p2 -> (0 <= sp_c B q /\ 0 <= sp_zr B q /\ 0 <= sp_zsig B q /\ 0 <= sp_zv B q) /\
     chain (y * sp_c B q) [h * sp_zr B q; sp_zsig B q] /\ VerifySet B q p = Ok true) ->
  ~ eqm (sp_c B p1 - sp_c B p2) 0 ->
  let x := extract (sp_zsig B p1) (sp_zsig B p2) (sp_c B p1) (sp_c B p2) in
  let r := extract (sp_zr B p1) (sp_zr B p2) (sp_c B p1) (sp_c B p2) in
  let v := extract (sp_zv B p1) (sp_zv B p2) (sp_c B p1) (sp_c B p2) in
  eqm y (x + h * r) /\ eqm (w * (x + k)) v.
Proof. exact special_soundness. Qed.
Print Assumptions C56_special_soundness.
Example C56_nonvacuous : exists p p1 p2, SetupSet toy 5 [3; 8; 10] = Ok p /\
  sp_C toy p2 = sp_C toy p1 /\ sp_V toy p2 = sp_V toy p1 /\ sp_D toy p2 = sp_D toy p1 /\ sp_a toy p2 = sp_a toy p1 /\
  (forall q, q = p1 \/ q = p2 -> (0 <= sp_c toy q /\ 0 <= sp_zr toy q /\ 0 <= sp_zsig toy q /\ 0 <= sp_zv toy q) /\
     chain (sp_C toy p1 * sp_c toy q) [hExp * sp_zr toy q; sp_zsig toy q] /\ VerifySet toy q p = Ok true) /\
  ~ eqm (sp_c toy p1 - sp_c toy p2) 0.
Proof. exact c56_example. Qed.

(** C57: the verifier does not reject V = identity, with which everybody can
    prove membership of every x, with an honestly computed challenge. *)
Theorem C57_identity_attack : forall B sha (W : bilinear B), hash_bytes sha ->
  forall k s p m sv t x r, SetupSet B k s = Ok p -> 0 <= m -> 0 <= sv -> 0 <= t -> 0 <= x -> 0 <= r ->
  exists pr, ProveSet B sha (TapeSet m 0 sv t) x r
      (ParamsSet B [(big_String x, Some (G2_SetInfinity B))] (ps_H B p) (ps_kp B p)) = Ok pr /\
    sp_C B pr = Commit B x r (ps_H B p) /\
    (chain (hExp * m) [sv] -> chain x [hExp * r] ->
     chain ((x + hExp * r) * sp_c B pr) [hExp * sp_zr B pr; sp_zsig B pr] ->
     VerifySet B pr p = Ok true).
Proof. exact identity_attack. Qed.
Print Assumptions C57_identity_attack.
Example C57_nonvacuous : exists p pr, SetupSet toy 5 [3; 8; 10] = Ok p /\
  ProveSet toy sha_one (TapeSet 7 0 13 15) 9 11
      (ParamsSet toy [(big_String 9, Some (G2_SetInfinity toy))] (ps_H toy p) (ps_kp toy p)) = Ok pr /\
  chain (hExp * 7) [13] /\ chain 9 [hExp * 11] /\
  chain ((9 + hExp * 11) * sp_c toy pr) [hExp * sp_zr toy pr; sp_zsig toy pr].
Proof. exact c57_example. Qed.

(** C58: every transcript of the simulator [forgeSet], for a random V, is the
    transcript of the honest prover for some random tape (given explicitly), up
    to the representation of the group elements: given the challenge, the values
    checked by the verifier carry no information on x. *)
Theorem C58_simulation : forall B sha (W : bilinear B), hash_bytes sha ->
  forall p pub k h x r A i c zr zsig zv om tp pr,
  kp_Pubk B (ps_kp B p) = Some pub -> R1 W pub k -> R2 W (ps_H B p) h ->
  lookup B (ps_signatures B p) (big_String x) = Some (Some A) -> R2 W A i -> eqm (i * (x + k)) 1 ->
  0 <= c < bnOrder -> 0 <= zr < bnOrder -> 0 <= zsig < bnOrder -> 0 <= zv < bnOrder -> 0 <= om ->
  pairable W (G2_ScalarBaseMult B om) ->
  tp = TapeSet ((zr + r * c) mod bnOrder) ((om * (x + k)) mod bnOrder) ((zsig + x * c) mod bnOrder)
               ((zv + om * (x + k) * c) mod bnOrder) ->
  ProveSet B sha tp x r p = Ok pr -> sp_c B pr = c -> set_nondegenerate W h x r pr ->
  let f := forgeSet B (ps_H B p) pub (Commit B x r (ps_H B p)) (G2_ScalarBaseMult B om) c zr zsig zv in
  sp_zr B pr = zr /\ sp_zsig B pr = zsig /\ sp_zv B pr = zv /\
  G2_Marshal B (sp_V B pr) = G2_Marshal B (sp_V B f) /\ G2_Marshal B (sp_D B pr) = G2_Marshal B (sp_D B f) /\
  GT_Marshal B (sp_a B pr) = GT_Marshal B (sp_a B f) /\ sp_C B pr = sp_C B f.
Proof. exact simulate'. Qed.
Print Assumptions C58_simulation.
(** c = 1, zr = 21, zsig = 22, zv = 23, V = g2^24, x = 8, r = 11, k = 5 *)
Example C58_nonvacuous : exists p pr, SetupSet toy 5 [3; 8; 10] = Ok p /\ ProveSet toy sha_one sim_tape 8 11 p = Ok pr /\
  sp_c toy pr = 1 /\ set_nondegenerate toy_bilinear hExp 8 11 pr.
Proof. exact c58_example. Qed.
