(** * Lemmas for C68: the points *)
From Coq Require Import ZArith List Lia.
From Verif Require Import Base SpecCurve EC PtGroup BB BN256 SpecBN BNG1 BNG2 BNLaws SpecCodec SpecRand Rand RandProofs.
Import ListNotations.
Open Scope Z_scope.

Lemma RandomG1_spec s : Forall byte s ->
  (exists i p, first_hit 254 32 1 bnOrder s i /\ RandomG1 s = Ok (candidate 254 (block 32 i s), p, skipn (32 * S i) s) /\
     g1_ok p /\ g1v p = zmul bn_P (candidate 254 (block 32 i s)) g1_gen /\ g1v p <> None) \/
  (no_hit 254 32 1 bnOrder s /\ RandomG1 s = Err).
Proof.
  intros H. unfold RandomG1.
  destruct (random_loop_spec (S (length s)) s H) as [[i [F ->]]|[F ->]]; [lia| |]; cbn [bind]; [left|now right].
  set (c := candidate 254 (block 32 i s)). destruct (g1_base_ok newCurvePoint c) as [A B].
  exists i, (G1ScalarBaseMult newCurvePoint c). split; [easy|]. split; [easy|]. split; [easy|]. split; [easy|].
  rewrite B. intros C. pose proof (proj1 (g1_scalars c 0) C) as X. destruct F as [_ [F _]]. fold c in F.
  rewrite Z.mod_small, Zmod_0_l in X; lia.
Qed.
Lemma RandomG2_spec s : Forall byte s ->
  (exists i p, first_hit 254 32 1 bnOrder s i /\ RandomG2 s = Ok (candidate 254 (block 32 i s), p, skipn (32 * S i) s) /\
     g2_ok p /\ g2v p = ptmul (candidate 254 (block 32 i s)) g2_gen /\ g2v p <> Inf) \/
  (no_hit 254 32 1 bnOrder s /\ RandomG2 s = Err).
Proof.
  intros H. unfold RandomG2.
  destruct (random_loop_spec (S (length s)) s H) as [[i [F ->]]|[F ->]]; [lia| |]; cbn [bind]; [left|now right].
  set (c := candidate 254 (block 32 i s)). pose proof F as [_ [R _]]. fold c in R.
  assert (R0 : 0 <= c) by lia. destruct (g2_base_ok R0) as [A B].
  exists i, (G2ScalarBaseMult c). split; [easy|]. split; [easy|]. split; [easy|]. split; [easy|].
  rewrite B. intros C. pose proof (proj1 (proj2 g2_scalars c 0) C) as X.
  rewrite Z.mod_small, Zmod_0_l in X; lia.
Qed.

(** A stream of four blocks: 0, all ones (too large), 5 with the two top bits
    set, and an incomplete one. *)
Definition ex_stream : list Z := repeat 0 32 ++ repeat 255 32 ++ 192 :: repeat 0 30 ++ [5; 7].
Lemma ex_bytes : Forall byte ex_stream.
Proof. unfold ex_stream, byte. cbn [repeat app]. repeat (constructor; [lia|]). constructor. Qed.
Lemma ex_random : (exists p, RandomG1 ex_stream = Ok (5, p, [7])) /\ (exists p, RandomG2 ex_stream = Ok (5, p, [7])) /\
  RandomG1 (firstn 95 ex_stream) = Err /\ RandomG2 (firstn 95 ex_stream) = Err.
Proof.
  assert (L : S (length ex_stream) = 98%nat) by easy.
  assert (E : random_loop 98 ex_stream = Ok (5, [7])) by now vm_compute.
  assert (E' : random_loop (S (length (firstn 95 ex_stream))) (firstn 95 ex_stream) = Err) by now vm_compute.
  unfold RandomG1, RandomG2. rewrite L, E, E'. cbn [bind]. split; [eexists; reflexivity|]. split; [eexists; reflexivity|]. split; reflexivity.
Qed.
Lemma ex_Int : rand_Int 1000 [255; 255; 3; 231; 7; 208; 9] = Ok (999, [7; 208; 9]) /\ rand_Int 1000 [255; 255; 3] = Err.
Proof. split; now vm_compute. Qed.
