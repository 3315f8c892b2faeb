(** * Property C69: the random tapes of the provers

    The theorems about the provers quantify over tapes.  Here the tapes are
    drawn from a reader (a list of bytes) by rand.Int, in the order of the code;
    [bp_range], [set_range], [ul_range] of SpecTape.v say that all values are
    reduced. *)
From Coq Require Import ZArith List.
From Verif Require Import Base P256 SpecSecp Vector Bulletproofs SpecBP BB CCS08 SpecCCS SpecCodec Rand RandTape SpecTape RandTapeProofs SpecOrder RandOrder PropBP.
Import ListNotations.
Open Scope Z_scope.

(** C69: the tapes which the provers draw are well formed and reduced, *)
Theorem C69_bulletproofs_drawn : forall N s t r, Forall byte s -> draw_tape N s = Ok (t, r) -> tape_ok t N /\ bp_range t.
Proof. exact draw_tape_ok. Qed.
Print Assumptions C69_bulletproofs_drawn.
Theorem C69_set_drawn : forall s t r, Forall byte s -> draw_tapeSet s = Ok (t, r) -> set_range t.
Proof. exact draw_set_ok. Qed.
Print Assumptions C69_set_drawn.
Theorem C69_interval_drawn : forall l s t r, Forall byte s -> draw_tapeUL l s = Ok (t, r) ->
  tapeUL_ok t (Z.of_nat l) /\ ul_range t.
Proof. exact draw_ul_ok. Qed.
Print Assumptions C69_interval_drawn.
(** and every such tape is drawn from some reader, whatever follows in it. *)
Theorem C69_bulletproofs_all : forall N t, tape_ok t N -> bp_range t -> exists b, Forall byte b /\
  forall r, Forall byte r -> draw_tape N (b ++ r) = Ok (t, r).
Proof. exact draw_tape_all. Qed.
Print Assumptions C69_bulletproofs_all.
Theorem C69_set_all : forall t, set_range t -> exists b, Forall byte b /\
  forall r, Forall byte r -> draw_tapeSet (b ++ r) = Ok (t, r).
Proof. exact draw_set_all. Qed.
Print Assumptions C69_set_all.
Theorem C69_interval_all : forall l t, tapeUL_ok t (Z.of_nat l) -> ul_range t -> exists b, Forall byte b /\
  forall r, Forall byte r -> draw_tapeUL l (b ++ r) = Ok (t, r).
Proof. exact draw_ul_all. Qed.
Print Assumptions C69_interval_all.
(** The values are the acceptable numbers of the reader in their order, none left
    out and none used twice; drawing fails exactly if there are too few. *)
Theorem C69_bulletproofs_order : forall N s, Forall byte s ->
  match draw_tape N s with
  | Ok (t, r) => accepted secp_N s = (r_gamma t :: r_alpha t :: r_sL t ++ r_sR t ++ [r_rho t; r_tau1 t; r_tau2 t]) ++ accepted secp_N r
  | Err => (length (accepted secp_N s) < 2 * N + 5)%nat
  | Panic => False
  end.
Proof. exact draw_tape_order. Qed.
Print Assumptions C69_bulletproofs_order.
Theorem C69_set_order : forall s, Forall byte s ->
  match draw_tapeSet s with
  | Ok (t, r) => accepted bnOrder s = [ts_m t; ts_v t; ts_s t; ts_t t] ++ accepted bnOrder r
  | Err => (length (accepted bnOrder s) < 4)%nat
  | Panic => False
  end.
Proof. exact draw_set_order. Qed.
Print Assumptions C69_set_order.
Theorem C69_interval_order : forall l s, Forall byte s ->
  match draw_tapeUL l s with
  | Ok (t, r) => accepted bnOrder s = (tu_m t :: flat_map (fun '(v, s, t) => [v; s; t]) (tu_digits t)) ++ accepted bnOrder r
  | Err => (length (accepted bnOrder s) < 3 * l + 1)%nat
  | Panic => False
  end.
Proof. exact draw_ul_order. Qed.
Print Assumptions C69_interval_order.
(** The ranges imply those the ccs08 theorems ask for. *)
Theorem C69_ccs08_ranges : (forall t, set_range t -> tapeSet_range t) /\ (forall t, ul_range t -> tape_range t).
Proof. exact (conj set_range_old ul_range_old). Qed.
Print Assumptions C69_ccs08_ranges.
(** Seven numbers, 1 to 7, the second one after a block not below the order; for
    N = 2 the reader is too short. *)
Example C69_runs : let b x := repeat 0 31 ++ [x] in
  let s := b 1 ++ repeat 255 32 ++ b 2 ++ b 3 ++ b 4 ++ b 5 ++ b 6 ++ b 7 ++ [9] in Forall byte s /\
  draw_tape 1 s = Ok (Tape 1 2 [3] [4] 5 6 7, [9]) /\ draw_tape 2 s = Err /\
  (exists r, draw_tapeSet s = Ok (TapeSet 1 2 3 4, r)) /\
  draw_tapeUL 2 s = Ok (TapeUL 1 [(2, 3, 4); (5, 6, 7)], [9]).
Proof. exact (conj ex_draws_bytes ex_tapes). Qed.

(** C69: completeness of the range proof from the reader to the verifier *)
Theorem C69_range_proof_from_reader : forall E, ext_ok E -> forall sha k ps secret s t r pr,
  params_wf ps (Nat.pow 2 k) -> Forall byte s -> draw_tape (Nat.pow 2 k) s = Ok (t, r) -> Bulletproofs.Prove E sha secret ps t = Ok pr ->
  0 <= secret < 2 ^ Z.of_nat (Nat.pow 2 k) -> nondegenerate sha pr -> exists pr', Bulletproofs.Verify E sha pr = Ok (true, pr').
Proof.
  exact (fun E HE sha k ps secret s t r pr P H D => C26_range_proof_complete E HE sha k ps secret t pr P (proj1 (draw_tape_ok _ _ _ _ H D))).
Qed.
Print Assumptions C69_range_proof_from_reader.
