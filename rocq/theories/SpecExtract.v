(** * Vocabulary of the knowledge soundness of the inner product argument

    A tree of accepted proofs, an extractor which reads nothing but the numbers
    in the tree, and what its output has to satisfy. *)
From Coq Require Import ZArith List Bool.
From Verif Require Import Base SpecCurve P256 SpecSecp Pedersen Vector Bulletproofs SpecBP.
Import ListNotations.
Open Scope Z_scope.

(** Runs of a prover of InnerProductProof.Verify.  In every round it sends L and
    R, and is run on with four answers to the challenge; at the end it sends a
    and b. *)
Inductive tree : Type :=
| Leaf (a b : Z)
| Node (L R : point) (x1 x2 x3 x4 : Z) (t1 t2 t3 t4 : tree).
(** one run: what the prover sends, and the challenges *)
Record run : Type := Run { run_Ls : list point; run_Rs : list point; run_xs : list Z; run_a : Z; run_b : Z }.
Definition round1 (L R : point) (x : Z) (r : run) : run :=
  Run (L :: run_Ls r) (R :: run_Rs r) (x :: run_xs r) (run_a r) (run_b r).
Fixpoint runs (t : tree) : list run :=
  match t with
  | Leaf a b => [Run [] [] [] a b]
  | Node L R x1 x2 x3 x4 t1 t2 t3 t4 =>
      map (round1 L R x1) (runs t1) ++ map (round1 L R x2) (runs t2) ++
      map (round1 L R x3) (runs t3) ++ map (round1 L R x4) (runs t4)
  end.
(** the run as a proof for the statement of [q] *)
Definition run_proof (q : ip_params) (r : run) : ip_proof :=
  IPProof (pp_N q) (run_Ls r) (run_Rs r) (pp_Uu q) None None None (run_a r) (run_b r) q.
(** Verify accepts it, for a hash function which gives the challenges of the run *)
Definition accepted (E : ext) (q : ip_params) (r : run) : Prop :=
  exists sha pr', map (fun LR => fst (HashBP sha (fst LR) (snd LR))) (combine (run_Ls r) (run_Rs r)) = run_xs r /\
    ipVerify E sha (run_proof q r) = Ok (true, pr').
(** k rounds; valid points; the squares of the challenges of a node are different
    and not 0 *)
Definition sq (x : Z) : Z := (x * x) mod secp_N.
Fixpoint tree_ok (k : nat) (t : tree) : Prop :=
  match k, t with
  | O, Leaf _ _ => True
  | S k', Node L R x1 x2 x3 x4 t1 t2 t3 t4 =>
      valid L /\ valid R /\ ~ In 0 (map sq [x1; x2; x3; x4]) /\ NoDup (map sq [x1; x2; x3; x4]) /\
      tree_ok k' t1 /\ tree_ok k' t2 /\ tree_ok k' t3 /\ tree_ok k' t4
  | _, _ => False
  end.

(** ** The extractor *)
(** exponents of the generators g, h and of u *)
Definition rep : Type := (list Z * list Z * Z)%type.
Definition vscale (c : Z) (a : list Z) : list Z := map (fun v => (c * v) mod secp_N) a.
Fixpoint vadd (a b : list Z) : list Z :=
  match a, b with v :: a', w :: b' => (v + w) mod secp_N :: vadd a' b' | _, _ => [] end.
Definition rscale (c : Z) (r : rep) : rep := let '(a, b, z) := r in (vscale c a, vscale c b, (c * z) mod secp_N).
Definition radd (r s : rep) : rep := let '(a, b, z) := r in let '(a', b', z') := s in (vadd a a', vadd b b', (z + z') mod secp_N).
(** exponents for the folded generators give exponents for the generators *)
Definition rlift (x : Z) (r : rep) : rep :=
  let i := inv_mod secp_N x in
  let '(a, b, z) := r in (vscale i a ++ vscale x a, vscale x b ++ vscale i b, z).
Definition rzero (r : rep) : bool := let '(a, b, z) := r in forallb (fun v => v mod secp_N =? 0) (z :: a ++ b).
(** Witness: an opening of P; Relation: a relation between the generators *)
Inductive outcome : Type := Witness (a b : list Z) | Relation (r : rep).
(** exponents (L, P, R) from those of P L^y1 R^(1/y1), P L^y2 R^(1/y2), P L^y3 R^(1/y3) *)
Definition combine3 (w1 w2 w3 : Z) (r1 r2 r3 : rep) : rep := radd (rscale w1 r1) (radd (rscale w2 r2) (rscale w3 r3)).
Definition interpolate (y1 y2 y3 : Z) (r1 r2 r3 : rep) : rep * rep * rep :=
  let d1 := y1 * inv_mod secp_N ((y1 - y2) * (y1 - y3)) in
  let d2 := y2 * inv_mod secp_N ((y2 - y1) * (y2 - y3)) in
  let d3 := y3 * inv_mod secp_N ((y3 - y1) * (y3 - y2)) in
  (combine3 d1 d2 d3 r1 r2 r3,
   combine3 (- (d1 * (y2 + y3))) (- (d2 * (y1 + y3))) (- (d3 * (y1 + y2))) r1 r2 r3,
   combine3 (d1 * (y2 * y3)) (d2 * (y1 * y3)) (d3 * (y1 * y2)) r1 r2 r3).
Fixpoint extract (t : tree) : outcome :=
  match t with
  | Leaf a b => Witness [a] [b]
  | Node _ _ x1 x2 x3 x4 t1 t2 t3 t4 =>
      match extract t1, extract t2, extract t3, extract t4 with
      | Relation r, _, _, _ => Relation (rlift x1 r)
      | _, Relation r, _, _ => Relation (rlift x2 r)
      | _, _, Relation r, _ => Relation (rlift x3 r)
      | _, _, _, Relation r => Relation (rlift x4 r)
      | Witness a1 b1, Witness a2 b2, Witness a3 b3, Witness a4 b4 =>
          let r1 := rlift x1 (a1, b1, dot a1 b1) in
          let r2 := rlift x2 (a2, b2, dot a2 b2) in
          let r3 := rlift x3 (a3, b3, dot a3 b3) in
          let r4 := rlift x4 (a4, b4, dot a4 b4) in
          let '(rL, rP, rR) := interpolate (sq x1) (sq x2) (sq x3) r1 r2 r3 in
          let r := radd (radd (rscale (sq x4) rL) (radd rP (rscale (inv_mod secp_N (sq x4)) rR))) (rscale (-1) r4) in
          if rzero r then let '(a, b, _) := rP in Witness a b else Relation r
      end
  end.

(** ** What it finds *)
Definition product (g h : list point) (u : point) (r : rep) : zpt :=
  let '(a, b, z) := r in gadd (gadd (multiexp g a) (multiexp h b)) (gmul z (value u)).
Definition found (q : ip_params) (o : outcome) : Prop :=
  match o with
  | Witness a b => length a = length (pp_Gg q) /\ length b = length (pp_Hh q) /\
      value (pp_P q) = product (pp_Gg q) (pp_Hh q) (pp_Uu q) (a, b, dot a b)
  | Relation (a, b, z) => length a = length (pp_Gg q) /\ length b = length (pp_Hh q) /\
      rzero (a, b, z) = false /\ product (pp_Gg q) (pp_Hh q) (pp_Uu q) (a, b, z) = None
  end.
