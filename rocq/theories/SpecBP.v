(** * Specification vocabulary for the bulletproofs package *)
From Coq Require Import ZArith List Bool.
From Verif Require Import Base SpecCurve P256 SpecSecp Pedersen Vector Bulletproofs.
Import ListNotations.
Open Scope Z_scope.

(** a_0 b_0 + a_1 b_1 + ... *)
Definition dot (a b : list Z) : Z := fold_right Z.add 0 (map (fun p => fst p * snd p) (combine a b)).
(** a_0 + a_1 + ... *)
Definition total (a : list Z) : Z := fold_right Z.add 0 a.
(** the group element g_0^a_0 g_1^a_1 ... *)
Definition multiexp (g : list point) (a : list Z) : zpt :=
  fold_right gadd None (map (fun p => gmul (snd p) (value (fst p))) (combine g a)).

(** all points of a list, of an inner product proof, of a range proof are
    curve points (or infinity) *)
Definition all_valid (l : list point) : Prop := Forall valid l.
Definition ip_wf (p : ip_proof) : Prop :=
  all_valid (ip_Ls p) /\ all_valid (ip_Rs p) /\ valid (ip_U p) /\
  all_valid (pp_Gg (ip_Params p)) /\ all_valid (pp_Hh (ip_Params p)) /\ valid (pp_P (ip_Params p)).
Definition params_wf (ps : bp_params) (N : nat) : Prop :=
  sp_N ps = Z.of_nat N /\ length (sp_Gg ps) = N /\ length (sp_Hh ps) = N /\
  all_valid (sp_Gg ps) /\ all_valid (sp_Hh ps) /\ valid (sp_H ps).

(** the digest never is 0 modulo the group order, and is a non-empty byte string *)
Definition hash_ok (sha : list Z -> list Z) : Prop :=
  forall l, sha l <> [] /\ Forall byte_ok (sha l) /\ SetBytes (sha l) mod secp_N <> 0.

(** parameters of the inner product argument for vectors of length 2^k *)
Definition ip_params_wf (q : ip_params) (k : nat) : Prop :=
  pp_N q = Z.of_nat (Nat.pow 2 k) /\ length (pp_Gg q) = Nat.pow 2 k /\ length (pp_Hh q) = Nat.pow 2 k /\
  all_valid (pp_Gg q) /\ all_valid (pp_Hh q) /\ valid (pp_Uu q).

(** P256.Add returns the group sum exactly for these pairs (C12) *)
Definition summable (a b : zpt) : Prop := a = None \/ (b <> None /\ a <> b).

(** The non-degenerate proof objects: the three commitments are not the point
    at infinity, and the Add calls of Verify (one in CommitG1, two on A) are on
    pairs for which Add is right.  All of it can be checked on the proof. *)
Definition nondegenerate (sha : list Z -> list Z) (pr : bp_proof) : Prop :=
  let ps := bp_Params pr in
  let x := fst (HashBP sha (bp_T1 pr) (bp_T2 pr)) in
  let z := fst (HashBP sha (bp_A pr) (bp_S pr)) in
  let AS := gadd (value (bp_A pr)) (gmul x (value (bp_S pr))) in
  value (bp_V pr) <> None /\ value (bp_T1 pr) <> None /\ value (bp_T2 pr) <> None /\
  summable (gmul (bp_Tprime pr) gen) (gmul (bp_Taux pr) (value (sp_H ps))) /\
  summable (value (bp_A pr)) (gmul x (value (bp_S pr))) /\
  summable AS (multiexp (sp_Gg ps) (repeat (- z) (length (sp_Gg ps)))).

(** the random tape fits the parameters *)
Definition tape_ok (t : tape) (N : nat) : Prop := length (r_sL t) = N /\ length (r_sR t) = N.

(** ** The attack of C28
    An inner product proof for the empty statement: all points are infinity *)
Definition trivial_ip : ip_proof :=
  IPProof 1 [] [] None None None None 0 0 (IPParams 1 0 None None [None] [None] None).
(** [forge ps v gamma A S ip] is a range proof for the commitment g^v h^gamma,
    made with public operations from any points A and S and any inner product
    proof [ip], which has nothing to do with v. *)
Definition forge (E : ext) (sha : list Z -> list Z) (ps : bp_params) (v gamma : Z) (A S : point)
    (ip : ip_proof) : res bp_proof :=
  let N := sp_N ps in
  let g := ScalarBaseMult E 1 in
  let x := fst (HashBP sha g g) in
  let z := fst (HashBP sha A S) in
  let* hp := updateGenerators E (sp_Hh ps) z N in
  let* d := delta N z z in
  let* vmz := VectorCopy (ORDER - z) N in
  let* gm := VectorExp E (sp_Gg ps) vmz in
  let* vz := VectorCopy z N in
  let* vy := powerOf z N in
  let* zyn := VectorMul vy vz in
  let* p2n := powerOf 2 N in
  let* z22n := VectorScalarMul p2n (Some (z * z)) in
  let* w := VectorAdd zyn z22n in
  let* he := VectorExp E hp w in
  let lP := Add (Add (Add A (ScalarMult E S x)) gm) he in
  Ok (BPProof (CommitG1 E v gamma (sp_H ps)) A S g g (gamma * (z * z)) 0 (v * (z * z) + d + x + x * x) ip lP ps).

(** hash-to-point succeeds on every string *)
Definition h2p_ok (sha : list Z -> list Z) : Prop := forall m, exists p, MapToGroup sha m = Ok p.
(** 64-bit integers *)
Definition int64 (x : Z) : Prop := - 2 ^ 63 <= x < 2 ^ 63.
