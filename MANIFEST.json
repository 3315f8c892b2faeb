{
 "claims": [
  {
   "property": "C01",
   "status": "proved",
   "theorems": [
    "C01_byte_codec_roundtrip",
    "C01_ToByteArray_represents"
   ],
   "note": ""
  },
  {
   "property": "C02",
   "status": "proved",
   "theorems": [
    "C02_FromByteArray_twos_complement"
   ],
   "note": ""
  },
  {
   "property": "C03",
   "status": "proved",
   "theorems": [
    "C03_ToByteArray_minimal_iff",
    "C03_ToByteArray_minimal_refuted"
   ],
   "note": "the documented minimality is false for x=-2^(8k+7) (refuted theorem); the exact set of exceptions is proved"
  },
  {
   "property": "C04",
   "status": "proved",
   "theorems": [
    "C04_ConvertToBigInt_rejects_iff",
    "C04_ConvertToBigInt_digits",
    "C04_ConvertToBigInt_minus",
    "C04_every_input_is_a_list_of_fields",
    "C04_ParseInput_fields",
    "C04_ParseInput_rejects_iff",
    "C04_ParseInput_roundtrip"
   ],
   "note": ""
  },
  {
   "property": "C05",
   "status": "proved",
   "theorems": [
    "C05_Decompose_length",
    "C05_Decompose_digits",
    "C05_Decompose_value",
    "C05_Decompose_exact_iff"
   ],
   "note": ""
  },
  {
   "property": "C06",
   "status": "proved",
   "theorems": [
    "C06_ModPow_nonneg",
    "C06_ModPow_negative",
    "C06_ModPow_not_invertible"
   ],
   "note": ""
  },
  {
   "property": "C07",
   "status": "proved",
   "theorems": [
    "C07_CalculateHash_single_injective",
    "C07_CalculateHash_pair_refuted"
   ],
   "note": "injective for one argument; for two arguments refuted by an explicit collision for every hash function"
  },
  {
   "property": "C08",
   "status": "proved",
   "theorems": [
    "C08_secp_parameters"
   ],
   "note": ""
  },
  {
   "property": "C09",
   "status": "proved",
   "theorems": [
    "C09_MapToGroup_valid",
    "C09_MapToGroup_fails_iff",
    "C09_MapToGroup_first"
   ],
   "note": ""
  },
  {
   "property": "C10",
   "status": "proved",
   "theorems": [
    "C10_CURVE_Add_distinct",
    "C10_CURVE_Add_equal_refuted"
   ],
   "note": ""
  },
  {
   "property": "C11",
   "status": "proved",
   "theorems": [
    "C11_contract_satisfiable",
    "C11_Multiply_is_group_law",
    "C11_Multiply_abelian_group"
   ],
   "note": ""
  },
  {
   "property": "C12",
   "status": "proved",
   "theorems": [
    "C12_Add_exact_iff",
    "C12_Add_refuted"
   ],
   "note": ""
  },
  {
   "property": "C13",
   "status": "proved",
   "theorems": [
    "C13_order",
    "C13_N_points",
    "C13_every_point_generates"
   ],
   "note": ""
  },
  {
   "property": "C14",
   "status": "proved",
   "theorems": [
    "C14_ScalarMult",
    "C14_ScalarBaseMult",
    "C14_action"
   ],
   "note": ""
  },
  {
   "property": "C15",
   "status": "proved",
   "theorems": [
    "C15_Neg",
    "C15_Neg_in_place",
    "C15_Neg_wrong_iff_refuted"
   ],
   "note": ""
  },
  {
   "property": "C16",
   "status": "proved",
   "theorems": [
    "C16_CommitG1",
    "C16_CommitG1_refuted",
    "C16_CommitG1_exact_iff"
   ],
   "note": ""
  },
  {
   "property": "C17",
   "status": "proved",
   "theorems": [
    "C17_hiding",
    "C17_hiding_ideal",
    "C17_binding",
    "C17_homomorphic",
    "C17_binding_refuted"
   ],
   "note": ""
  },
  {
   "property": "C18",
   "status": "proved",
   "theorems": [
    "C18_VectorAdd",
    "C18_VectorSub",
    "C18_VectorMul",
    "C18_VectorScalarMul",
    "C18_VectorCopy",
    "C18_VectorConvertToBig",
    "C18_powerOf",
    "C18_ScalarProduct",
    "C18_VectorExp",
    "C18_VectorECAdd",
    "C18_commitInnerProduct"
   ],
   "note": ""
  },
  {
   "property": "C19",
   "status": "proved",
   "theorems": [
    "C19_IsPowerOfTwo",
    "C19_IsPowerOfTwo_only_powers_refuted"
   ],
   "note": "exact characterization proved; the documented claim (powers of two only) is refuted at the minimum int64"
  },
  {
   "property": "C20",
   "status": "proved",
   "theorems": [
    "C20_Setup_succeeds_iff",
    "C20_Setup_error",
    "C20_Setup_panics",
    "C20_Setup_params"
   ],
   "note": ""
  },
  {
   "property": "C21",
   "status": "proved",
   "theorems": [
    "C21_challenges_equal"
   ],
   "note": ""
  },
  {
   "property": "C22",
   "status": "proved",
   "theorems": [
    "C22_HashBP_injective_refuted",
    "C22_hashIP_injective"
   ],
   "note": "HashBP: explicit collision of the transcript for every hash function; hashIP: injective"
  },
  {
   "property": "C23",
   "status": "proved",
   "theorems": [
    "C23_inner_product_complete",
    "C23_prover_total"
   ],
   "note": ""
  },
  {
   "property": "C24",
   "status": "proved",
   "theorems": [
    "C24_inner_product_exact",
    "C24_inner_product_general"
   ],
   "note": ""
  },
  {
   "property": "C25",
   "status": "proved",
   "theorems": [
    "C25_Verify_history",
    "C25_Verify_repeatable_refuted",
    "C25_range_Verify_twice"
   ],
   "note": "exact behaviour of the 1st, 2nd and 3rd call proved for every proof object; repeatability refuted"
  },
  {
   "property": "C26",
   "status": "proved",
   "theorems": [
    "C26_range_proof_complete",
    "C26_Prove_total",
    "C26_all_randomness_refuted"
   ],
   "note": "complete outside an explicit, checkable degenerate set; refuted when gamma = 0 mod ORDER"
  },
  {
   "property": "C27",
   "status": "proved",
   "theorems": [
    "C27_accepted_iff",
    "C27_in_range"
   ],
   "note": ""
  },
  {
   "property": "C28",
   "status": "proved",
   "theorems": [
    "C28_soundness_refuted",
    "C28_inner_product_unbound"
   ],
   "note": "soundness refuted: explicit forgery for every v, every generator set, every hash function"
  },
  {
   "property": "C29",
   "status": "proved",
   "theorems": [
    "C29_accepted_iff",
    "C29_interval",
    "C29_wide_interval_refuted",
    "C29_SetupGeneric"
   ],
   "note": "exact acceptance set proved; refuted for B-A > 2^32"
  },
  {
   "property": "C30",
   "status": "proved",
   "theorems": [
    "C30_halves_unbound",
    "C30_binding_refuted"
   ],
   "note": "binding refuted"
  },
  {
   "property": "C31",
   "status": "proved",
   "theorems": [
    "C31_contract_satisfiable",
    "C31_signature_verifies",
    "C31_signature_unique",
    "C31_sign_panics_iff",
    "C31_sign_total"
   ],
   "note": "for every bilinear group satisfying the contract of SpecCCS.v (satisfiable); m = k mod Order excluded because the in-place addition of equal points is wrong in bn256 (C45)"
  },
  {
   "property": "C32",
   "status": "proved",
   "theorems": [
    "C32_keygen_error_inverted"
   ],
   "note": ""
  },
  {
   "property": "C33",
   "status": "proved",
   "theorems": [
    "C33_setup_iff",
    "C33_prove_fails_iff",
    "C33_completeness",
    "C33_verification_equations"
   ],
   "note": "completeness outside the explicit set where an in-place addition meets equal points"
  },
  {
   "property": "C34",
   "status": "proved",
   "theorems": [
    "C34_prove_never_fails",
    "C34_accepts_iff_truncation",
    "C34_accepts_iff_in_range",
    "C34_verification_equations"
   ],
   "note": "exact, outside the explicit set where an in-place addition meets equal points"
  },
  {
   "property": "C35",
   "status": "proved",
   "theorems": [
    "C35_forge_set",
    "C35_forge_ul",
    "C35_soundness_refuted"
   ],
   "note": "soundness refuted: explicit forgery for every commitment, group and parameter set"
  },
  {
   "property": "C36",
   "status": "proved",
   "theorems": [
    "C36_set_proof_reveals_secret",
    "C36_ul_proof_reveals_secret",
    "C36_ul_proof_reveals_blinding"
   ],
   "note": "explicit recovery functions"
  },
  {
   "property": "C37",
   "status": "proved",
   "theorems": [
    "C37_setup_error",
    "C37_setup_ok"
   ],
   "note": "exact for keys for which no digit is minus the key (no_clash)"
  },
  {
   "property": "C38",
   "status": "proved",
   "theorems": [
    "C38_prove_total",
    "C38_accepts_iff",
    "C38_accepts_iff_interval",
    "C38_wide_interval_refuted"
   ],
   "note": "exact acceptance set for all a; the claim [a,b) holds for a >= 0 and is refuted for wide intervals with a < 0"
  },
  {
   "property": "C39",
   "status": "proved",
   "theorems": [
    "C39_bn_parameters",
    "C39_bn_generators",
    "C39_frobenius_constants"
   ],
   "note": ""
  },
  {
   "property": "C40",
   "status": "proved",
   "theorems": [
    "C40_gfP2_field",
    "C40_gfP2_arithmetic",
    "C40_gfP2_Invert",
    "C40_gfP2_aliasing",
    "C40_MulScalar_overlap_refuted"
   ],
   "note": "values in PropBN.v; aliasing of receiver and operands and stale scratch integers in PropHeap.v"
  },
  {
   "property": "C41",
   "status": "proved",
   "theorems": [
    "C41_gfP6_field",
    "C41_gfP12_field",
    "C41_gfP6_arithmetic",
    "C41_gfP12_arithmetic",
    "C41_Exp"
   ],
   "note": ""
  },
  {
   "property": "C42",
   "status": "proved",
   "theorems": [
    "C42_frobenius"
   ],
   "note": ""
  },
  {
   "property": "C43",
   "status": "proved",
   "theorems": [
    "C43_finalExponentiation",
    "C43_multiplicative",
    "C43_Pair_order"
   ],
   "note": "exponent is exactly (p^12-1)/Order"
  },
  {
   "property": "C44",
   "status": "proved",
   "theorems": [
    "C44_G1_Add",
    "C44_G1_Add_in_place",
    "C44_G1_Neg",
    "C44_G1_ScalarMult",
    "C44_G1_ScalarBaseMult",
    "C44_G1_SetInfinity_IsZero",
    "C44_G1_order",
    "C44_G1_scalars"
   ],
   "note": ""
  },
  {
   "property": "C45",
   "status": "proved",
   "theorems": [
    "C45_G1_double_in_place",
    "C45_G1_double_in_place_refuted",
    "C45_G2_double_in_place",
    "C45_G2_double_in_place_refuted"
   ],
   "note": "exact condition under which in-place doubling happens to be right, and concrete refutations at both generators"
  },
  {
   "property": "C46",
   "status": "proved",
   "theorems": [
    "C46_G2_Add",
    "C46_G2_Add_in_place",
    "C46_G2_Neg",
    "C46_G2_ScalarMult",
    "C46_G2_ScalarBaseMult",
    "C46_G2_ScalarMult_negative",
    "C46_G2_ScalarBaseMult_negative",
    "C46_G2_ScalarBaseMult_refuted",
    "C46_G2_Neg_in_place_refuted",
    "C46_G2_negative_sum",
    "C46_G2_SetInfinity_IsZero",
    "C46_G2_scalars"
   ],
   "note": "the claim for all scalars is false of the code: negative scalars and negation in place are refuted"
  },
  {
   "property": "C47",
   "status": "proved",
   "theorems": [
    "C47_G1_Marshal",
    "C47_G1_roundtrip",
    "C47_G1_canonical",
    "C47_G1_strings",
    "C47_G1_Unmarshal",
    "C47_G1_length",
    "C47_G1_unreduced_refuted"
   ],
   "note": "non-canonical encodings are accepted (refutation of injectivity of Unmarshal)"
  },
  {
   "property": "C48",
   "status": "proved",
   "theorems": [
    "C48_G2_Marshal",
    "C48_G2_Marshal_infinity",
    "C48_G2_roundtrip",
    "C48_G2_canonical",
    "C48_G2_strings",
    "C48_G2_Unmarshal",
    "C48_G2_length",
    "C48_G2_Unmarshal_subgroup_refuted"
   ],
   "note": "acceptance is exactly the curve equation; a concrete accepted point of order 10069 refutes subgroup membership"
  },
  {
   "property": "C49",
   "status": "proved",
   "theorems": [
    "C49_GT_roundtrip",
    "C49_GT_canonical",
    "C49_GT_Unmarshal_any",
    "C49_GT_IsZero_IsOne",
    "C49_GT_group",
    "C49_GT_ScalarMult",
    "C49_GT_ScalarMult_negative_refuted",
    "C49_GT_Exp"
   ],
   "note": ""
  },
  {
   "property": "C50",
   "status": "proved",
   "theorems": [
    "C50_Pair_infinity",
    "C50_PairingCheck",
    "C50_PairingCheck_short_panics",
    "C50_Pair_after_Marshal_refuted"
   ],
   "note": "for objects satisfying the invariants g1_ok/g2_ok, which every constructor establishes"
  },
  {
   "property": "C51",
   "status": "proved",
   "theorems": [
    "C51_digits",
    "C51_running_point"
   ],
   "note": ""
  },
  {
   "property": "C52",
   "status": "proved",
   "theorems": [
    "C52_Pair_Neg_refuted",
    "C52_Pair_Neg_projective",
    "C52_Pair_Neg_after_encoding"
   ],
   "note": "refuted at the generators by an in-kernel computation of two pairings; the law holds for non-affine points and after a round trip through the encoding"
  },
  {
   "property": "C53",
   "status": "proved",
   "theorems": [
    "C53_Get",
    "C53_Put",
    "C53_gfP2_model",
    "C53_gfP6_model",
    "C53_gfP12_model",
    "C53_pool_independent",
    "C53_curve_Mul",
    "C53_twist_Mul"
   ],
   "note": "for every store, every pool content and every aliasing the code allows; Mul of curve.go and twist.go may return another representation of the same point"
  },
  {
   "property": "C54",
   "status": "proved",
   "theorems": [
    "C54_commitment_binding_refuted"
   ],
   "note": "binding refuted"
  },
  {
   "property": "C55",
   "status": "proved",
   "theorems": [
    "C55_params_contain_signing_key"
   ],
   "note": ""
  },
  {
   "property": "C56",
   "status": "proved",
   "theorems": [
    "C56_special_soundness"
   ],
   "note": ""
  },
  {
   "property": "C57",
   "status": "proved",
   "theorems": [
    "C57_identity_attack"
   ],
   "note": ""
  },
  {
   "property": "C58",
   "status": "proved",
   "theorems": [
    "C58_simulation"
   ],
   "note": ""
  },
  {
   "property": "C59",
   "status": "proved",
   "theorems": [
    "C59_Pair_is_optimal_ate",
    "C59_Pair_representation"
   ],
   "note": ""
  },
  {
   "property": "C60",
   "status": "proved",
   "theorems": [
    "C60_Pair_additive_G1",
    "C60_Pair_additive_G2",
    "C60_Pair_scalars",
    "C60_Pair_base"
   ],
   "note": ""
  },
  {
   "property": "C61",
   "status": "proved",
   "theorems": [
    "C61_Pair_nondegenerate",
    "C61_Pair_equal",
    "C61_PairingCheck"
   ],
   "note": "uses the primitive 63-bit integers of the standard library (Uint63) for one pairing computed in the kernel"
  },
  {
   "property": "C62",
   "status": "proved",
   "theorems": [
    "C62_bn256_satisfies_contract",
    "C62_signatures",
    "C62_set_membership",
    "C62_nondegenerate_means",
    "C62_interval",
    "C62_set_soundness_refuted",
    "C62_negative_element_refuted",
    "C62_wide_interval_refuted"
   ],
   "note": "the contract of C31-C38 and C54-C58 is met by the bn256 model itself; uses Uint63 through C61"
  },
  {
   "property": "C63",
   "status": "proved",
   "theorems": [
    "C63_gfP6_aliasing",
    "C63_gfP12_aliasing",
    "C63_gfP12_Conjugate",
    "C63_gfP12_tests",
    "C63_gfP12_MulScalar"
   ],
   "note": ""
  },
  {
   "property": "C64",
   "status": "proved",
   "theorems": [
    "C64_curve",
    "C64_twist",
    "C64_MakeAffine"
   ],
   "note": "aliased calls are the separate functions of BN256.v (DoubleSelf, AddTo, NegativeSelf)"
  },
  {
   "property": "C65",
   "status": "proved",
   "theorems": [
    "C65_G1",
    "C65_G2",
    "C65_ScalarBaseMult",
    "C65_GT",
    "C65_Marshal",
    "C65_Pair",
    "C65_PairingCheck"
   ],
   "note": "called without a pool, as exported methods are; arguments valid objects"
  },
  {
   "property": "C66",
   "status": "proved",
   "theorems": [
    "C66_fields_balanced",
    "C66_points_balanced",
    "C66_Add",
    "C66_Add_balanced_refuted",
    "C66_Mul",
    "C66_pairing"
   ],
   "note": "Add and Mul are not balanced (refuted)"
  },
  {
   "property": "C67",
   "status": "proved",
   "theorems": [
    "C67_knowledge_soundness"
   ],
   "note": "special soundness with four challenges per round; the challenges come from the hash (accepted: for some hash function), the forking argument which produces the tree is not modelled"
  },
  {
   "property": "C68",
   "status": "proved",
   "theorems": [
    "C68_RandomG1",
    "C68_RandomG2",
    "C68_rand_Int",
    "C68_rand_Int_small",
    "C68_no_bias"
   ],
   "note": "rand.Int of the Go library is modelled from its documented algorithm (it is not part of the repository); the reader is the list of bytes it delivers before it fails, reads of partial blocks are merged by io.ReadFull"
  },
  {
   "property": "C69",
   "status": "proved",
   "theorems": [
    "C69_bulletproofs_drawn",
    "C69_set_drawn",
    "C69_interval_drawn",
    "C69_bulletproofs_all",
    "C69_set_all",
    "C69_interval_all",
    "C69_bulletproofs_order",
    "C69_set_order",
    "C69_interval_order",
    "C69_ccs08_ranges",
    "C69_range_proof_from_reader"
   ],
   "note": "a failing reader stops the model with an error, where the code goes on with a nil pointer; draws for elements and digits without a signature are not used by the provers"
  },
  {
   "property": "C70",
   "status": "proved",
   "theorems": [
    "C70_Real_Imag",
    "C70_Real_Imag_as_named",
    "C70_Real_refuted",
    "C70_G1_CurvePoints",
    "C70_G2_CurvePoints",
    "C70_G1_affine_refuted"
   ],
   "note": "the naming of Real and Imag is refuted; the pointers CurvePoints hands out alias the point (not modelled)"
  }
 ]
}