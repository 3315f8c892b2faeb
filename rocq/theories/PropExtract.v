(** * Property C67: knowledge soundness of the inner product argument

    The vocabulary (trees of runs, the extractor, what it finds) is that of
    SpecExtract.v. *)
From Coq Require Import ZArith List Bool.
From Verif Require Import Base SpecCurve P256 SpecSecp SecpLaws Pedersen Vector Bulletproofs SpecBP SpecExtract ExtractProofs ExtractExamples.
Import ListNotations.
Open Scope Z_scope.

(** C67: from a tree of runs which Verify accepts, four challenges in each round,
    the extractor reads an opening (a, b) of the commitment, P = g^a h^b u^<a,b>,
    or else a non-trivial relation between the generators, for every length 2^k. *)
Theorem C67_knowledge_soundness : forall E, ext_ok E -> forall k q t, ip_params_wf q k -> valid (pp_P q) -> tree_ok k t ->
  (forall r, In r (runs t) -> accepted E q r) -> found q (extract t).
Proof. exact extract_found. Qed.
Print Assumptions C67_knowledge_soundness.
(** The tree of an honest prover gives back the vectors. *)
Example C67_honest : ip_params_wf q21 1 /\ tree_ok 1 (ex_tree honest) /\
  (forall r, In r (runs (ex_tree honest)) -> accepted ext_ref q21 r) /\ extract (ex_tree honest) = Witness [1; 2] [3; 4].
Proof. exact (conj q21_wf (conj (ex_tree_ok honest) (conj (ex_accepted honest_eq) honest_out))). Qed.
(** A prover who knows that the generators are equal gives a relation. *)
Example C67_cheating : ip_params_wf q21 1 /\ tree_ok 1 (ex_tree cheating) /\
  (forall r, In r (runs (ex_tree cheating)) -> accepted ext_ref q21 r) /\ exists r, extract (ex_tree cheating) = Relation r.
Proof. exact (conj q21_wf (conj (ex_tree_ok cheating) (conj (ex_accepted cheating_eq) cheating_out))). Qed.
