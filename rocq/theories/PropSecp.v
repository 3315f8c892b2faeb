(** * Properties C08-C17: the secp256k1 group and Pedersen commitments *)
From Coq Require Import ZArith Znumtheory List.
From Verif Require Import Base ByteConv SpecCodec SpecCurve P256 Pedersen SpecSecp SecpMain SecpLaws.
Import ListNotations.
Open Scope Z_scope.

(** C08: the parameters. *)
Theorem C08_secp_parameters :
  secp_P = 2 ^ 256 - 2 ^ 32 - 977 /\ prime secp_P /\ prime secp_N /\
  on_secp gen /\ (4 * 0 ^ 3 + 27 * secp_B ^ 2) mod secp_P <> 0 /\ secp_B = 7.
Proof. exact secp_parameters. Qed.
Print Assumptions C08_secp_parameters.

(** C09: a returned point is reduced, on the curve and not infinity. *)
Theorem C09_MapToGroup_valid : forall sha m p, MapToGroup sha m = Ok p ->
  exists x y, p = Some (x, y) /\ value p = p /\ valid p.
Proof. exact MapToGroup_valid. Qed.
Print Assumptions C09_MapToGroup_valid.

(** C09: the abscissa of candidate [i] for the string [m]. *)
Definition candidate (sha : list Z -> list Z) (m : list Z) (i : Z) : Z :=
  twos_value (sha (big_String i ++ m)) mod secp_P.
(** it fails iff none of the 256 candidates gives a square... *)
Theorem C09_MapToGroup_fails_iff : forall sha m, (forall l, sha l <> [] /\ Forall byte (sha l)) ->
  (MapToGroup sha m = Err <->
   forall i, 0 <= i < 256 -> ~ is_square (candidate sha m i ^ 3 + 7)).
Proof. exact MapToGroup_fails_iff. Qed.
Print Assumptions C09_MapToGroup_fails_iff.

(** ... and otherwise returns the first candidate that does, without panic. *)
Theorem C09_MapToGroup_first : forall sha m, (forall l, sha l <> [] /\ Forall byte (sha l)) ->
  MapToGroup sha m <> Panic /\
  forall p, MapToGroup sha m = Ok p -> exists i y, 0 <= i < 256 /\ p = Some (candidate sha m i, y) /\
    forall j, 0 <= j < i -> ~ is_square (candidate sha m j ^ 3 + 7).
Proof. exact MapToGroup_first. Qed.
Print Assumptions C09_MapToGroup_first.
Example C09_nonvacuous : (forall l : list Z, [1] <> [] /\ Forall byte [1]) /\
  is_square (candidate (fun _ => [1]) [] 0 ^ 3 + 7).
Proof. exact MapToGroup_example. Qed.

(** C10: CURVE.Add on affine curve points. *)
Theorem C10_CURVE_Add_distinct : forall x1 y1 x2 y2,
  on_secp (Some (x1, y1)) -> on_secp (Some (x2, y2)) -> (x1, y1) <> (x2, y2) ->
  value (Some (CURVE_Add x1 y1 x2 y2)) = gadd (Some (x1, y1)) (Some (x2, y2)).
Proof. exact CURVE_Add_value'. Qed.
Print Assumptions C10_CURVE_Add_distinct.

Theorem C10_CURVE_Add_equal_refuted : forall x y, on_secp (Some (x, y)) ->
  CURVE_Add x y x y = (0, 0) /\ gadd (Some (x, y)) (Some (x, y)) <> None.
Proof. exact CURVE_Add_equal. Qed.
Print Assumptions C10_CURVE_Add_equal_refuted.
Example C10_nonvacuous : on_secp gen /\ on_secp (gneg gen) /\ gneg gen <> gen.
Proof. exact C10_example. Qed.

(** Every result below is for any implementation of the go-ethereum contract;
    there is one. *)
Theorem C11_contract_satisfiable : ext_ok ext_ref.
Proof. exact ext_ref_ok. Qed.
Print Assumptions C11_contract_satisfiable.

(** C11: Multiply is the group law. *)
Theorem C11_Multiply_is_group_law : forall E, ext_ok E -> forall a b, valid a -> valid b ->
  valid (Multiply E a b) /\ value (Multiply E a b) = gadd (value a) (value b).
Proof. exact Multiply_law. Qed.
Print Assumptions C11_Multiply_is_group_law.

Theorem C11_Multiply_abelian_group : forall E, ext_ok E ->
  (forall a b, valid a -> valid b -> value (Multiply E a b) = value (Multiply E b a)) /\
  (forall a b c, valid a -> valid b -> valid c ->
     value (Multiply E (Multiply E a b) c) = value (Multiply E a (Multiply E b c))) /\
  (forall a o, valid a -> value o = None -> value (Multiply E o a) = value a /\ value (Multiply E a o) = value a) /\
  (forall a, valid a -> exists b, valid b /\ value (Multiply E a b) = None).
Proof. exact Multiply_group. Qed.
Print Assumptions C11_Multiply_abelian_group.
Example C11_nonvacuous : valid gen /\ valid None /\ valid (Some (0, 0)) /\ valid (gneg gen).
Proof. exact C11_example. Qed.

(** C12: Add is the group sum except in two cases. *)
Theorem C12_Add_exact_iff : forall a b, valid a -> valid b ->
  (value (Add a b) = gadd (value a) (value b) <->
   value a = None \/ (value b <> None /\ value a <> value b)).
Proof. exact Add_exact. Qed.
Print Assumptions C12_Add_exact_iff.

Theorem C12_Add_refuted : forall a b, valid a -> valid b -> value a <> None ->
  (value b = None \/ value a = value b) ->
  value (Add a b) = None /\ gadd (value a) (value b) <> None.
Proof. exact Add_wrong. Qed.
Print Assumptions C12_Add_refuted.
Example C12_nonvacuous : valid gen /\ value gen <> None /\ value (Add gen None) = None /\ value (Add gen gen) = None.
Proof. exact C12_example. Qed.

(** C13: the group has prime order N: N kills every point, k -> k*G is a
    bijection from [0,N) to the points, every other point generates. *)
Theorem C13_order : forall q, on_secp q -> gmul secp_N q = None.
Proof. exact secp_order'. Qed.
Print Assumptions C13_order.
Theorem C13_N_points : forall q, on_secp q -> exists! k, 0 <= k < secp_N /\ gmul k gen = q.
Proof. exact secp_bijection. Qed.
Print Assumptions C13_N_points.
Theorem C13_every_point_generates : forall q r, on_secp q -> on_secp r -> q <> None ->
  exists k, 0 <= k < secp_N /\ gmul k q = r.
Proof. exact secp_generates. Qed.
Print Assumptions C13_every_point_generates.
Example C13_nonvacuous : on_secp gen /\ gen <> None.
Proof. split; [exact (proj1 C10_example)|discriminate]. Qed.

(** C14: ScalarMult. *)
Theorem C14_ScalarMult : forall E, ext_ok E -> forall a n, valid a ->
  valid (ScalarMult E a n) /\ value (ScalarMult E a n) = gmul n (value a).
Proof. exact ScalarMult_law. Qed.
Print Assumptions C14_ScalarMult.
Theorem C14_ScalarBaseMult : forall E, ext_ok E -> forall n,
  valid (ScalarBaseMult E n) /\ value (ScalarBaseMult E n) = gmul n gen.
Proof. exact ScalarBaseMult_law. Qed.
Print Assumptions C14_ScalarBaseMult.
Theorem C14_action : forall E, ext_ok E -> forall a m n, valid a ->
  value (ScalarMult E a (m + n)) = value (Multiply E (ScalarMult E a m) (ScalarMult E a n)) /\
  value (ScalarMult E a (m * n)) = value (ScalarMult E (ScalarMult E a m) n) /\
  value (ScalarMult E a (m mod secp_N)) = value (ScalarMult E a m) /\
  value (ScalarMult E a 1) = value a.
Proof. exact ScalarMult_action. Qed.
Print Assumptions C14_action.

(** C15: p.Neg(a), [p] being the old value of the receiver. *)
Theorem C15_Neg : forall E, ext_ok E -> forall p a, valid p -> valid a ->
  value (Neg E p a) = match value a with None => None | Some _ => gneg (value p) end.
Proof. exact Neg_law. Qed.
Print Assumptions C15_Neg.
Theorem C15_Neg_in_place : forall E, ext_ok E -> forall a, valid a -> value (Neg E a a) = gneg (value a).
Proof. exact Neg_in_place. Qed.
Print Assumptions C15_Neg_in_place.
Theorem C15_Neg_wrong_iff_refuted : forall E, ext_ok E -> forall p a, valid p -> valid a ->
  (value (Neg E p a) <> gneg (value a) <-> value a <> None /\ value p <> value a).
Proof. exact Neg_wrong. Qed.
Print Assumptions C15_Neg_wrong_iff_refuted.
Example C15_witness : value (Neg ext_ref None gen) = None /\ gneg (value gen) <> None.
Proof. exact C15_example. Qed.

(** C16: CommitG1. *)
Theorem C16_CommitG1 : forall E, ext_ok E -> forall h, valid h -> forall x r,
  valid (CommitG1 E x r h) /\
  (gmul r (value h) <> None -> gmul x gen <> gmul r (value h) ->
   value (CommitG1 E x r h) = pedersen x r h).
Proof. exact CommitG1_law. Qed.
Print Assumptions C16_CommitG1.
Theorem C16_CommitG1_refuted : forall E, ext_ok E -> forall h, valid h -> forall x r,
  gmul r (value h) = None \/ gmul x gen = gmul r (value h) ->
  value (CommitG1 E x r h) = None.
Proof. exact CommitG1_wrong. Qed.
Print Assumptions C16_CommitG1_refuted.
(** exactly when the commitment is g^x h^r *)
Theorem C16_CommitG1_exact_iff : forall E, ext_ok E -> forall h, valid h -> forall x r,
  (value (CommitG1 E x r h) = pedersen x r h <->
   x mod secp_N = 0 \/ (gmul r (value h) <> None /\ gmul x gen <> gmul r (value h))).
Proof. exact CommitG1_exact. Qed.
Print Assumptions C16_CommitG1_exact_iff.
Example C16_nonvacuous : gmul 1 (value (gmul 2 gen)) <> None /\ gmul 1 gen <> gmul 1 (value (gmul 2 gen)) /\
  gmul secp_N (value gen) = None /\ valid gen /\ valid (gmul 2 gen).
Proof. exact C16_example. Qed.

(** C17: hiding. Which values can be opened to x. *)
Theorem C17_hiding : forall E, ext_ok E -> forall h, valid h -> forall x C, value h <> None -> on_secp C ->
  ((exists r, 0 <= r < secp_N /\ value (CommitG1 E x r h) = C) <->
   C = None \/ x mod secp_N = 0 \/ (C <> gmul x gen /\ C <> gmul (2 * x) gen)).
Proof. exact hiding. Qed.
Print Assumptions C17_hiding.
(** the textbook commitment g^x h^r is perfectly hiding *)
Theorem C17_hiding_ideal : forall h, valid h -> forall x C, value h <> None -> on_secp C ->
  exists! r, 0 <= r < secp_N /\ pedersen x r h = C.
Proof. exact hiding_ideal. Qed.
Print Assumptions C17_hiding_ideal.
(** C17: binding: two openings of a value other than infinity give log h. *)
Theorem C17_binding : forall E, ext_ok E -> forall h, valid h -> forall x r x' r',
  value (CommitG1 E x r h) = value (CommitG1 E x' r' h) -> value (CommitG1 E x r h) <> None ->
  x mod secp_N <> x' mod secp_N ->
  gmul ((x - x') * inv_mod secp_N (r' - r)) gen = value h.
Proof. exact binding. Qed.
Print Assumptions C17_binding.
(** C17: homomorphic when no exceptional case occurs. *)
Theorem C17_homomorphic : forall E, ext_ok E -> forall h, valid h -> forall x r x' r',
  value (CommitG1 E x r h) <> None -> value (CommitG1 E x' r' h) <> None ->
  value (CommitG1 E (x + x') (r + r') h) <> None ->
  value (Multiply E (CommitG1 E x r h) (CommitG1 E x' r' h)) = value (CommitG1 E (x + x') (r + r') h).
Proof. exact homomorphic. Qed.
Print Assumptions C17_homomorphic.
(** C17: with r = 0 mod N everything commits to infinity. *)
Theorem C17_binding_refuted : forall E, ext_ok E -> forall h, valid h -> forall x x' k,
  value (CommitG1 E x (k * secp_N) h) = None /\
  value (CommitG1 E x (k * secp_N) h) = value (CommitG1 E x' (k * secp_N) h).
Proof. exact binding_broken. Qed.
Print Assumptions C17_binding_refuted.
Example C17_nonvacuous : value (CommitG1 ext_ref 1 1 (gmul 2 gen)) = gmul 3 gen /\ gmul 3 gen <> None.
Proof. exact C17_example. Qed.
