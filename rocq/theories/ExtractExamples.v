(** * Trees of accepted proofs *)
From Coq Require Import ZArith Znumtheory List Bool Lia.
From mathcomp Require Import all_ssreflect all_algebra.
From Verif Require Import Base BaseFacts ByteConv MCRing ZField SpecCurve P256 Pedersen SpecSecp SecpGroup SecpProofs SecpDL SecpLaws Vector Bulletproofs SpecBP VecProofs BipProofs BpExamples SpecExtract ExtractProofs.
Set Implicit Arguments.
Unset Strict Implicit.
Unset Printing Implicit Defensive.
Import GRing.Theory.
Local Open Scope ring_scope.
Delimit Scope Z_scope with Z.
Local Arguments Z.mul : simpl never.
Local Arguments Z.add : simpl never.
Local Arguments Z.sub : simpl never.
Local Arguments Z.modulo : simpl never.
Local Arguments Z.of_nat : simpl never.
Local Arguments Z.quot : simpl never.
Local Arguments Nat.pow : simpl never.
Local Notation ph := (zph zfN).
Local Notation pow2 := (Nat.pow 2).

(** the statement: generators g, g of h, g of u; the commitment g^21 *)
Definition q21 : ip_params := IPParams 2 0 gen gen [:: gen; gen] [:: gen; gen] (ScalarBaseMult ext_ref 21).
Definition hash_to (x : Z) : list Z -> list Z := fun _ => [:: x].
(** what Verify tests *)
Definition eq21 (x a b : Z) : bool :=
  let i := inv_mod secp_N x in
  (((i + x) * a + (x + i) * b + a * b - (21 + x * x * 9 + i * i * 11)) mod secp_N =? 0)%Z.
Definition ex_tree (f : Z -> Z * Z) : tree :=
  let leaf x := Leaf (fst (f x)) (snd (f x)) in
  Node (ScalarBaseMult ext_ref 9) (ScalarBaseMult ext_ref 11) 1 2 3 5 (leaf 1%Z) (leaf 2%Z) (leaf 3%Z) (leaf 5%Z).
(** the honest prover, with a = (1, 2) and b = (3, 4) *)
Definition honest (x : Z) : Z * Z :=
  let i := inv_mod secp_N x in ((x * 1 + i * 2) mod secp_N, (i * 3 + x * 4) mod secp_N)%Z.
(** a prover who uses that the generators are equal, when the challenge is 5 *)
Definition cheating (x : Z) : Z * Z :=
  if (x =? 5)%Z then
    let i := inv_mod secp_N x in (((21 + x * x * 9 + i * i * 11) * inv_mod secp_N (x + i)) mod secp_N, 0)%Z
  else honest x.
Lemma honest_eq : forallb (fun x => eq21 x (fst (honest x)) (snd (honest x))) [:: 1; 2; 3; 5]%Z = true.
Proof. by vm_compute. Qed.
Lemma cheating_eq : forallb (fun x => eq21 x (fst (cheating x)) (snd (cheating x))) [:: 1; 2; 3; 5]%Z = true.
Proof. by vm_compute. Qed.
Lemma honest_out : extract (ex_tree honest) = Witness [:: 1; 2]%Z [:: 3; 4]%Z.
Proof. by vm_compute. Qed.
Lemma cheating_out : exists r, extract (ex_tree cheating) = Relation r.
Proof. eexists. vm_compute. reflexivity. Qed.

Lemma gmul1 : gmul 1 gen = gen.
Proof. by vm_compute. Qed.
Local Opaque secp_P secp_N secp_Gx secp_Gy ORDER value valid dl Multiply ScalarMult ScalarBaseMult Add Neg CommitG1 bmod ModInverse IsZero gen gmul gadd.
Lemma valid_base n : valid (ScalarBaseMult ext_ref n).
Proof. exact: (ScalarBaseMult_valid ext_ref_ok). Qed.
Lemma valid_2 : all_valid [:: gen; gen].
Proof. exact: (List.Forall_cons _ valid_G (List.Forall_cons _ valid_G (List.Forall_nil _))). Qed.
Lemma q21_wf : ip_params_wf q21 1.
Proof. exact: (conj erefl (conj erefl (conj erefl (conj valid_2 (conj valid_2 valid_G))))). Qed.
Lemma sqs : List.map sq [:: 1; 2; 3; 5]%Z = [:: 1; 4; 9; 25]%Z.
Proof. by vm_compute. Qed.
Lemma ex_tree_ok f : tree_ok 1 (ex_tree f).
Proof.
have n0 : ~ List.In 0%Z (List.map sq [:: 1; 2; 3; 5]%Z) by rewrite sqs => -[|[|[|[|[]]]]].
have nd : List.NoDup (List.map sq [:: 1; 2; 3; 5]%Z).
  rewrite sqs. repeat constructor; rewrite /=; intuition discriminate.
exact: (conj (valid_base 9) (conj (valid_base 11) (conj n0 (conj nd (conj I (conj I (conj I I))))))).
Qed.
Lemma dl_gen : dl gen = 1.
Proof. Local Transparent dl value. by rewrite /dl value_gen -gmul1 dlz_gmul zph_1. Local Opaque dl value. Qed.
Lemma ex_ring (F : fieldType) (X A B c l r c' l' r' g : F) : c' = c -> l' = l -> r' = r -> g = 1 -> (X^-1 + X) * A + (X + X^-1) * B + A * B = c + X * X * l + X^-1 * X^-1 * r ->
  c' + X * X * l' + (X * X)^-1 * r' = (X^-1 * g + X * g) * A + (X * g + X^-1 * g) * B + g * (A * B).
Proof. move=> -> -> -> ->. by rewrite !mulr1 mul1r invfM. Qed.
Lemma eq21_accepted x a b : (0 < x < 256)%Z -> eq21 x a b = true ->
  accepted ext_ref q21 (Run [:: ScalarBaseMult ext_ref 9] [:: ScalarBaseMult ext_ref 11] [:: x] a b).
Proof.
move=> rx /Z.eqb_eq /(zph_eq0 zfN). rewrite zph_sub => /eqP. rewrite subr_eq0 !(zph_add, zph_mul) (zph_inv secp_N_pr) => /eqP E.
have x0 : ph x != 0 by apply: zph_neq0; rewrite Z.mod_small; have := N_gt1001; lia.
have Hx : List.map (fun LR : point * point => fst (HashBP (hash_to x) (fst LR) (snd LR)))
   (List.combine [:: ScalarBaseMult ext_ref 9] [:: ScalarBaseMult ext_ref 11]) = [:: x] by rewrite /= /HashBP /hash_to /SetBytes /=; congr (_ :: _); lia.
have A := @path_accept ext_ref ext_ref_ok (hash_to x) 1 q21 (Run [:: ScalarBaseMult ext_ref 9] [:: ScalarBaseMult ext_ref 11] [:: x] a b)
  q21_wf (valid_base 21).
apply: A; last 1 first.
- change (dl (ScalarBaseMult ext_ref 21) + ph x * ph x * dl (ScalarBaseMult ext_ref 9) + (ph x * ph x)^-1 * dl (ScalarBaseMult ext_ref 11) =
    ((ph x)^-1 * dl gen + ph x * dl gen) * ph a + (ph x * dl gen + (ph x)^-1 * dl gen) * ph b + dl gen * (ph a * ph b)).
  exact: (ex_ring (dl_ScalarBaseMult ext_ref_ok 21) (dl_ScalarBaseMult ext_ref_ok 9) (dl_ScalarBaseMult ext_ref_ok 11) dl_gen E).
- exact: (List.Forall_cons _ (valid_base 9) (List.Forall_nil _)).
- exact: (List.Forall_cons _ (valid_base 11) (List.Forall_nil _)).
- exact: (@List.Forall_cons _ (fun x => ph x != 0) x nil x0 (List.Forall_nil _)).
- exact: Hx.
Qed.
Lemma ex_accepted f : forallb (fun x => eq21 x (fst (f x)) (snd (f x))) [:: 1; 2; 3; 5]%Z = true ->
  forall r, List.In r (runs (ex_tree f)) -> accepted ext_ref q21 r.
Proof.
move=> /List.forallb_forall H r Hr.
have [x [Hx ->]] : exists x, List.In x [:: 1; 2; 3; 5]%Z /\
    r = Run [:: ScalarBaseMult ext_ref 9] [:: ScalarBaseMult ext_ref 11] [:: x] (fst (f x)) (snd (f x)).
  case: Hr => [<-|[<-|[<-|[<-|[]]]]]; eexists; split; try exact: erefl.
  - by left.
  - by right; left.
  - by right; right; left.
  - by right; right; right; left.
apply: eq21_accepted; last exact: H.
by case: Hx => [<-|[<-|[<-|[<-|[]]]]]; lia.
Qed.
