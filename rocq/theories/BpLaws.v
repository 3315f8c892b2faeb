(** * Proofs of C18-C22 and C26-C30 *)
From Coq Require Import ZArith Znumtheory List Bool Lia.
From mathcomp Require Import all_ssreflect all_algebra.
From Verif Require Import Base BaseFacts ByteConv Util SpecCodec CodecProofs MCRing SpecCurve ZField P256 Pedersen SpecSecp SecpGroup SecpProofs SecpDL SecpLaws Vector Bulletproofs SpecBP VecProofs BipProofs BipLaws BpProofs.
Set Implicit Arguments.
Unset Strict Implicit.
Unset Printing Implicit Defensive.
Import GRing.Theory.
Local Open Scope ring_scope.
Delimit Scope Z_scope with Z.
Local Arguments Z.mul : simpl never.
Local Arguments Z.add : simpl never.
Local Arguments Z.sub : simpl never.
Local Arguments Z.modulo : simpl never.
Local Arguments Z.of_nat : simpl never.
Local Arguments Z.quot : simpl never.
Local Opaque secp_P secp_N secp_Gx secp_Gy ORDER value valid dl Multiply ScalarMult ScalarBaseMult Add Neg CommitG1 bmod ModInverse HashBP IsZero gadd gmul gen.
Local Notation ph := (zph zfN).
Local Notation pow2 := (Nat.pow 2).

Section E.
Variable E : ext.
Hypothesis hE : ext_ok E.
Variable sha : list Z -> list Z.

Lemma dl_summable a b : valid a -> valid b -> summable (value a) (value b) -> dl (Add a b) = dl a + dl b.
Proof.
move=> va vb /(Add_exact va vb) H. Local Transparent dl. rewrite {1}/dl H dlz_add //. Local Opaque dl.
Qed.
Lemma dl_Commit_sum x r h : valid h -> summable (gmul x gen) (gmul r (value h)) ->
  dl (CommitG1 E x r h) = ph x + ph r * dl h.
Proof.
move=> v. Local Transparent CommitG1. rewrite /CommitG1. Local Opaque CommitG1.
have [v1 D1] := SMb hE x. have [v2 D2] := ScalarMultP_ok hE r v. move=> nz. rewrite -D1 -D2. apply: dl_summable => //.
have [_ ->] := ScalarBaseMult_law hE x. by have [_ ->] := ScalarMult_law hE r v.
Qed.

Lemma pv_repeat a m j : (j < m)%nat -> pv (List.repeat a m) j = ph a.
Proof. rewrite /pv. elim: m j => [|m IH] [|j] //=. exact: IH. Qed.

Section P.
Variables (k : nat) (ps : bp_params) (secret : Z) (t : tape) (pr : bp_proof).
Hypotheses (wf : params_wf ps (pow2 k)) (tk : tape_ok t (pow2 k)) (EP : Prove E sha secret ps t = Ok pr).
Let n := pow2 k.

Lemma Prove_post : prove_post E sha k ps secret t pr.
Proof.
case: tk => L1 L2. case: (Prove_cases hE sha secret wf L1 L2) => [[H _]|[pr' [H P]]]; first by rewrite EP in H.
rewrite EP in H. by case: H => ->.
Qed.

Lemma value_ScalarMult p x : valid p -> value (ScalarMult E p x) = gmul x (value p).
Proof. move=> v. by have [_ ->] := ScalarMult_law hE x v. Qed.

Lemma honest_c67 lP Sx gm he hp (x z : FN) R :
  valid (bp_A pr) -> valid Sx -> valid gm -> valid he ->
  lP = Add (Add (Add (bp_A pr) Sx) gm) he ->
  dl Sx = x * dl (bp_S pr) -> dl gm = \sum_(i < n) dv (sp_Gg ps) i * (- z) -> dl he = \sum_(i < n) dv hp i * zvec n z z i ->
  summable (value (bp_A pr)) (value Sx) -> summable (value (Add (bp_A pr) Sx)) (value gm) ->
  R = dl (bp_A pr) + x * dl (bp_S pr) + \sum_(i < n) dv (sp_Gg ps) i * (- z) + \sum_(i < n) dv hp i * zvec n z z i ->
  (dl lP == 0) || ((R != 0) && ((R == dl lP) || (R == - dl lP))) = true.
Proof.
move=> vA vS vg vh -> DS Dg Dh s1 s2 ER. have v1 := Add_v vA vS. have v2 := Add_v v1 vg.
rewrite (dl_Add v2 vh) (dl_summable v1 vg s2) (dl_summable vA vS s1) DS Dg Dh ER.
move: (dl (bp_A pr) + x * dl (bp_S pr) + _) (\sum_(i < n) dv hp i * _) => a b.
case: (eqVneq a 0) => [->|a0]; first by rewrite add0r eqxx /= andbT orbN.
case: (eqVneq b 0) => [->|b0] /=; first by rewrite eqxx.
case: (eqVneq a b) => [->|ab] /=; first by rewrite eqxx.
by rewrite eqxx /= andbT orbN.
Qed.

Lemma value_gm gm z : valid gm -> dl gm = \sum_(i < n) dv (sp_Gg ps) i * (- ph z) ->
  value gm = multiexp (sp_Gg ps) (List.repeat (- z)%Z (List.length (sp_Gg ps))).
Proof.
case: (wf) => [_ [Lg [_ [vg _]]]] v D. apply: dlz_inj; [exact: v|exact: on_multiexp|].
rewrite -dlE D dlz_multiexp // ?List.repeat_length // Lg. apply: eq_bigr => i _. congr (_ * _).
rewrite -zph_opp. by rewrite pv_repeat.
Qed.

Lemma honest_accept : nondegenerate sha pr -> exists pr',
  Verify E sha pr = Ok ((ph secret - ph (secret mod 2 ^ Z.of_nat n)%Z) *
     (ph (fst (HashBP sha (bp_A pr) (bp_S pr))) * ph (fst (HashBP sha (bp_A pr) (bp_S pr)))) == 0, pr').
Proof.
move=> [nV [nT1 [nT2 [sC [sA sG]]]]].
have [t1 [t2 [hp [[EP1 EV ET1 ET2] [[vA vS vC Eh] [[Q1 Q2 Q3] [wip [[ip' Eip] _]]]]]]]] := Prove_post.
case: (wf) => [EN [Lg [Lh [vg [vh vH]]]]].
have wfp : bp_wf pr (pow2 k).
  split; last by rewrite EP1. rewrite EV ET1 ET2. split=> //; exact: (Commit_v hE).
rewrite EP1 in sC sG. rewrite -EP1 in Eh.
have := Verify_char hE wfp Eh. rewrite EP1.
move: Q1 Q2 Q3 sC sA sG. move: (fst (HashBP sha (bp_T1 pr) (bp_T2 pr))) (fst (HashBP sha (bp_A pr) (bp_S pr))) => x z Q1 Q2 Q3 sC sA sG.
move=> [lP [Sx [gm [he [[ElP vSx vgm vhe vlP] [[DSx Dgm Dhe] ->]]]]]]. rewrite Eip /=.
have VS : value Sx = gmul x (value (bp_S pr)).
  apply: dlz_inj; [exact: vSx|exact: on_gmul|]. by rewrite -dlE DSx (dlz_mul _ (on_value vS)).
rewrite (honest_c67 vA vSx vgm vhe ElP DSx Dgm Dhe _ _ Q1); last 2 first.
- by rewrite VS.
- have -> : value (Add (bp_A pr) Sx) = gadd (value (bp_A pr)) (gmul x (value (bp_S pr))).
    rewrite -VS. apply/(Add_exact vA vSx). by rewrite VS.
  by rewrite (value_gm vgm Dgm).
rewrite !andbT. rewrite (dl_Commit_sum vH sC) Q2 Q3 EV ET1 ET2.
rewrite EV in nV. rewrite ET1 in nT1. rewrite ET2 in nT2.
rewrite (dl_Commit_nz hE vH nV) (dl_Commit_nz hE vH nT1) (dl_Commit_nz hE vH nT2).
rewrite c65_id. eexists. exact: erefl.
Qed.

Lemma honest_complete : (0 <= secret < 2 ^ Z.of_nat n)%Z -> nondegenerate sha pr ->
  exists pr', Verify E sha pr = Ok (true, pr').
Proof.
move=> Hs nd. have [pr' ->] := honest_accept nd. exists pr'. by rewrite Z.mod_small // subrr mul0r eqxx.
Qed.
Lemma honest_exact : nondegenerate sha pr -> (fst (HashBP sha (bp_A pr) (bp_S pr)) mod secp_N <> 0)%Z ->
  exists b pr', Verify E sha pr = Ok (b, pr') /\
   (b = true <-> (secret mod secp_N = (secret mod 2 ^ Z.of_nat n) mod secp_N)%Z).
Proof.
move=> nd z0. have [pr' ->] := honest_accept nd. do 2 eexists. split; first exact: erefl.
have {}z0 := zph_neq0 zfN z0. rewrite -(zph_eq zfN).
rewrite mulf_eq0 mulf_eq0 (negbTE z0) !orbF subr_eq0. split=> [/eqP//|->]. exact: eqxx.
Qed.
Lemma honest_window : nondegenerate sha pr -> (fst (HashBP sha (bp_A pr) (bp_S pr)) mod secp_N <> 0)%Z ->
  (- (secp_N - 2 ^ Z.of_nat n) < secret < secp_N)%Z ->
  exists b pr', Verify E sha pr = Ok (b, pr') /\ (b = true <-> (0 <= secret < 2 ^ Z.of_nat n)%Z).
Proof.
move=> nd z0 W. have [b [pr' [E1 Eb]]] := honest_exact nd z0. exists b, pr'. split; first exact: E1. rewrite Eb.
have P2 : (0 < 2 ^ Z.of_nat n)%Z by apply: Z.pow_pos_nonneg; [|exact: Nat2Z.is_nonneg].
have B := Z.mod_pos_bound secret _ P2. have N0 := SecpMain.N_pos. split=> [H|H]; last by rewrite [(secret mod 2 ^ _)%Z]Z.mod_small.
have D : ((secret - secret mod 2 ^ Z.of_nat n) mod secp_N = 0)%Z by rewrite Zminus_mod H Z.sub_diag Z.mod_0_l //; lia.
move: D B. set r := (secret mod _)%Z => D B. have N1 : secp_N <> 0%Z by lia.
have Hc := Z.div_mod (secret - r) secp_N N1. rewrite D Z.add_0_r in Hc. move: ((secret - r) / secp_N)%Z Hc => c Hc.
move: W B N0 P2 Hc {N1 D H Eb}. move: (2 ^ Z.of_nat n)%Z (secp_N) r => M N r W B N0 P2 Hc.
have c0 : (c = 0)%Z by nia. rewrite c0 Z.mul_0_r in Hc. lia.
Qed.

(** gamma = 0 : an honest prover with a non-zero secret is rejected *)
Lemma honest_gamma0 : (r_gamma t mod secp_N = 0)%Z -> (0 < secret < 2 ^ Z.of_nat n)%Z -> (secret mod secp_N <> 0)%Z ->
  (fst (HashBP sha (bp_A pr) (bp_S pr)) mod secp_N <> 0)%Z ->
  value (bp_T1 pr) <> None -> value (bp_T2 pr) <> None ->
  summable (gmul (bp_Tprime pr) gen) (gmul (bp_Taux pr) (value (sp_H ps))) ->
  exists pr', Verify E sha pr = Ok (false, pr').
Proof.
move=> g0 Hs s0 z0 nT1 nT2 sC.
have [t1 [t2 [hp [[EP1 EV ET1 ET2] [[vA vS vC Eh] [[Q1 Q2 Q3] [wip [[ip' Eip] _]]]]]]]] := Prove_post.
case: (wf) => [EN [Lg [Lh [vg [vh vH]]]]].
have wfp : bp_wf pr (pow2 k).
  split; last by rewrite EP1. rewrite EV ET1 ET2. split=> //; exact: (Commit_v hE).
rewrite -EP1 in Eh. have := Verify_char hE wfp Eh. rewrite EP1.
move: Q1 Q2 Q3 sC z0. move: (fst (HashBP sha (bp_T1 pr) (bp_T2 pr))) (fst (HashBP sha (bp_A pr) (bp_S pr))) => x z Q1 Q2 Q3 sC z0.
move=> [lP [Sx [gm [he [[ElP vSx vgm vhe vlP] [[DSx Dgm Dhe] ->]]]]]]. rewrite Eip /=.
rewrite (dl_Commit_sum vH sC) Q2 Q3 EV ET1 ET2. rewrite ET1 in nT1. rewrite ET2 in nT2.
rewrite (dl_Commit_nz hE vH nT1) (dl_Commit_nz hE vH nT2).
have g0' : ph (r_gamma t) = 0 by apply/zph_eq0.
have -> : dl (CommitG1 E secret (r_gamma t) (sp_H ps)) = 0.
  apply/(value_dl0 (Commit_v hE secret (r_gamma t) vH)). apply: (CommitG1_wrong hE vH). rewrite (gmul_h_eq0 vH) g0' mul0r. by left.
rewrite (c65_id0 _ _ _ _ _ _ _ _ _ g0'). rewrite oppr_eq0 mulf_eq0 mulf_eq0.
rewrite (negbTE (zph_neq0 zfN z0)) orbF orbF Z.mod_small; last by case: Hs => a b; split; [exact: Z.lt_le_incl|exact: b].
rewrite (negbTE (zph_neq0 zfN s0)). eexists. exact: erefl.
Qed.
End P.

Lemma Prove_total k ps secret t : params_wf ps (pow2 k) -> tape_ok t (pow2 k) -> hash_ok sha ->
  (exists U, MapToGroup sha SEEDU = Ok U) -> exists pr, Prove E sha secret ps t = Ok pr.
Proof.
move=> wf [L1 L2] H1 H2. case: (Prove_cases hE sha secret wf L1 L2) => [[_ H]|[pr' [H P]]]; first by case: H.
by exists pr'.
Qed.
End E.
