(** * Proofs of C20, C25 (range proofs), C28-C30 *)
From Coq Require Import ZArith Znumtheory List Bool Lia.
From mathcomp Require Import all_ssreflect all_algebra.
From Verif Require Import Base BaseFacts ByteConv Util SpecCodec CodecProofs MCRing SpecCurve ZField P256 Pedersen SpecSecp SecpGroup SecpProofs SecpDL SecpLaws Vector Bulletproofs SpecBP VecProofs BipProofs BipLaws BpProofs BpLaws.
Set Implicit Arguments.
Unset Strict Implicit.
Unset Printing Implicit Defensive.
Import GRing.Theory.
Local Open Scope ring_scope.
Delimit Scope Z_scope with Z.
Local Arguments Z.mul : simpl never.
Local Arguments Z.add : simpl never.
Local Arguments Z.sub : simpl never.
Local Arguments Z.modulo : simpl never.
Local Arguments Z.of_nat : simpl never.
Local Arguments Z.quot : simpl never.
Local Opaque secp_P secp_N secp_Gx secp_Gy ORDER value valid dl Multiply ScalarMult ScalarBaseMult Add Neg CommitG1 bmod ModInverse HashBP IsZero gadd gmul gen.
Local Notation ph := (zph zfN).
Local Notation pow2 := (Nat.pow 2).

Definition set_ip (pr : bp_proof) (ip : ip_proof) : bp_proof :=
  BPProof (bp_V pr) (bp_A pr) (bp_S pr) (bp_T1 pr) (bp_T2 pr) (bp_Taux pr) (bp_Mu pr) (bp_Tprime pr) ip
    (bp_Commit pr) (bp_Params pr).
Lemma set_ip_id pr : set_ip pr (bp_IP pr) = pr. Proof. by case: pr. Qed.

Section Alg.
Variable F : fieldType.
Add Field Ff2 : (mc_field F).
Lemma forge_ring (a g h zz d x y : F) : a + g * h * zz + d + x + y - (a + d + x + y + g * zz * h) = 0.
Proof. by mcfr F. Qed.
End Alg.
Lemma N_gt3 : (3 < secp_N)%Z. Proof. Local Transparent secp_N. by []. Qed.
Local Opaque secp_N.

Section E.
Variable E : ext.
Hypothesis hE : ext_ok E.
Variable sha : list Z -> list Z.

Lemma Verify_split pr : exists r : res bool, forall ip,
  Verify E sha (set_ip pr ip) =
  bind r (fun c => bind (ipVerify E sha ip) (fun '(ok, ip') => Ok (c && ok, set_ip pr ip'))).
Proof.
rewrite /Verify /set_ip /=. case: (HashBP sha (bp_A pr) (bp_S pr)) => y z.
move: (fst (HashBP sha (bp_T1 pr) (bp_T2 pr))) => x.
case: (updateGenerators _ _ _ _) => [hp| |] /=; [|by exists Err|by exists Panic].
case: (delta _ _ _) => [d| |] /=; [|by exists Err|by exists Panic].
case: (VectorCopy (ORDER - z) _) => [v1| |] /=; [|by exists Err|by exists Panic].
case: (must (VectorExp _ _ v1)) => [gm| |] /=; [|by exists Err|by exists Panic].
case: (VectorCopy z _) => [v2| |] /=; [|by exists Err|by exists Panic].
case: (powerOf y _) => [v3| |] /=; [|by exists Err|by exists Panic].
case: (ign_vec _) => [v4| |] /=; [|by exists Err|by exists Panic].
case: (powerOf 2 _) => [v5| |] /=; [|by exists Err|by exists Panic].
case: (VectorScalarMul _ _) => [v6| |] /=; [|by exists Err|by exists Panic].
case: (ign_vec _) => [v7| |] /=; [|by exists Err|by exists Panic].
case: (must _) => [v8| |] /=; [|by exists Err|by exists Panic].
by eexists (Ok _) => ip.
Qed.

Lemma Verify_twice pr pr' : ip_wf (bp_IP pr) -> Verify E sha pr = Ok (true, pr') ->
  exists b2 pr2, Verify E sha pr' = Ok (b2, pr2) /\ (b2 = true <-> value (pp_P (ip_Params (bp_IP pr))) = None).
Proof.
move=> wf. have [r H] := Verify_split pr. rewrite -{1}(set_ip_id pr) H.
case: r H => [c| |] //= H. case Ei : (ipVerify E sha (bp_IP pr)) => [[ok ip']| |] //= [Ec <-].
case/andP: Ec => Ec Eok. rewrite Ec Eok in Ei H. have [_ [b2 [pr2 [E2 [Eb2 _]]]]] := verify_repeat hE wf Ei.
rewrite H /= E2 /=. do 2 eexists. split; first exact: erefl. exact: Eb2.
Qed.

(** ** C28 *)
Lemma pickgamma (e a b : FN) : e != 0 -> exists2 g, (g = 1 \/ g = 2 \/ g = 3)%Z & ph g * e <> a /\ ph g * e <> b /\ ph g != 0.
Proof.
move=> e0. have B : (3 < secp_N)%Z by exact: N_gt3.
have D (i j : Z) : (0 <= i <= 3)%Z -> (0 <= j <= 3)%Z -> i <> j -> ph i <> ph j.
  move=> Hi Hj ne H. apply: ne. apply: (zph_small (f := zfN)) H; lia.
have M i j : ph i <> ph j -> ph i * e <> ph j * e by move=> ne /(mulIf e0).
have Z0 i : (0 < i <= 3)%Z -> ph i != 0 by move=> Hi; apply/eqP; rewrite -(zph_0 zfN); apply: D; lia.
have m12 : ph 1 * e <> ph 2 * e by apply: (M); apply: D.
have m13 : ph 1 * e <> ph 3 * e by apply: (M); apply: D.
have m23 : ph 2 * e <> ph 3 * e by apply: (M); apply: D.
case: (ph 1 * e =P a) => [E1a|n1a].
  case: (ph 2 * e =P b) => [E2b|n2b].
    exists 3%Z; first by right; right. rewrite -E1a -E2b. split; [by move/esym|split; [by move/esym|exact: Z0]].
  exists 2%Z; first by right; left. rewrite -E1a. split; [by move/esym|split; [exact: n2b|exact: Z0]].
case: (ph 1 * e =P b) => [E1b|n1b]; last by exists 1%Z; [left|split; [|split; [|exact: Z0]]].
case: (ph 2 * e =P a) => [E2a|n2a].
  exists 3%Z; first by right; right. rewrite -E1b -E2a. split; [by move/esym|split; [by move/esym|exact: Z0]].
exists 2%Z; first by right; left. rewrite -E1b. split; [exact: n2a|split; [by move/esym|exact: Z0]].
Qed.

Lemma dl_Add_congr a b a' b' : valid a -> valid b -> valid a' -> valid b' -> dl a = dl a' -> dl b = dl b' ->
  dl (Add a b) = dl (Add a' b').
Proof. move=> va vb va' vb' Ea Eb. by rewrite (dl_Add va vb) (dl_Add va' vb') Ea Eb. Qed.

Lemma forge_run ps n v gamma A S ip : params_wf ps n -> (0 < n)%nat -> valid A -> valid S ->
  let z := ph (fst (HashBP sha A S)) in
  let x := ph (fst (HashBP sha (ScalarBaseMult E 1) (ScalarBaseMult E 1))) in
  let d := (z - z * z) * (\sum_(i < n) z ^+ i) - z * z * z * (\sum_(i < n) ph 2%Z ^+ i) in
  z != 0 -> exists pr hp Sx gm he, forge E sha ps v gamma A S ip = Ok pr /\
   updateGenerators E (sp_Hh ps) (fst (HashBP sha A S)) (sp_N ps) = Ok hp /\
   [/\ bp_Params pr = ps, bp_V pr = CommitG1 E v gamma (sp_H ps), bp_A pr = A & bp_S pr = S] /\
   [/\ bp_T1 pr = ScalarBaseMult E 1, bp_T2 pr = ScalarBaseMult E 1, bp_Mu pr = 0%Z & bp_IP pr = ip] /\
   [/\ ph (bp_Tprime pr) = ph v * (z * z) + d + x + x * x, ph (bp_Taux pr) = ph gamma * (z * z) &
       bp_Commit pr = Add (Add (Add A Sx) gm) he] /\
   [/\ valid Sx, valid gm & valid he] /\
   [/\ dl Sx = x * dl S, dl gm = \sum_(i < n) dv (sp_Gg ps) i * (- z) & dl he = \sum_(i < n) dv hp i * zvec n z z i].
Proof.
move=> [EN [Lg [Lh [vg [vh vH]]]]] n0 vA vS z x d z0. have EN' := EN.
have [hp [Eh [Lhp [vhp Dhp]]]] := updateGen_ok hE vh Lh n0 z0.
rewrite /forge EN' Eh {1}/bind. rewrite /d /z /x {z0 Dhp}. clear d x z.
have [zz Ezz] : exists zz, fst (HashBP sha A S) = zz by eexists.
have [xz Exz] : exists xz, fst (HashBP sha (ScalarBaseMult E 1) (ScalarBaseMult E 1)) = xz by eexists.
rewrite Ezz Exz.
have [dd [-> Dd]] := delta_ok n zz zz. rewrite {1}/bind.
have [vm [-> [Lm Dm]]] := VectorCopy_ok (ORDER - zz) n. rewrite {1}/bind.
have [gm [-> [vgm Dgm]]] := VectorExp_ok hE (etrans Lg (esym Lm)) vg. rewrite {1}/bind.
have [vz [-> [Lz Dz]]] := VectorCopy_ok zz n. rewrite {1}/bind.
have [vy [-> [Ly Dy]]] := powerOf_ok zz n. rewrite {1}/bind.
have [zy [-> [Lzy Dzy]]] := VectorMul_ok (etrans Ly (esym Lz)). rewrite {1}/bind.
have [p2 [-> [L2 D2]]] := powerOf_ok 2 n. rewrite {1}/bind.
have [z22 [-> [L22 D22]]] := VectorScalarMul_ok p2 (zz * zz). rewrite {1}/bind.
have Lx : List.length zy = List.length z22 by rewrite Lzy Ly L22 L2.
have [w [-> [Lw Dw]]] := VectorAdd_ok Lx. rewrite {1}/bind.
have Lhw : List.length hp = List.length w by rewrite Lhp Lw Lzy Ly.
have [he [-> [vhe Dhe]]] := VectorExp_ok hE Lhw vhp. rewrite {1}/bind.
have [vSx DSx] := ScalarMultP_ok hE xz vS.
eexists. exists hp, (ScalarMult E S xz), gm, he. split; first exact: erefl. split; first by []. rewrite /=.
split; first by split. split; first by split. split.
  split; [by rewrite !zph_add !zph_mul Dd|by rewrite !zph_mul|by []].
split; first by split. split; first exact: DSx.
- rewrite Dgm Lg. apply: eq_bigr => i _. rewrite Dm // zph_sub. congr (_ * _).
  by rewrite (zph_P zfN) sub0r.
- rewrite Dhe Lhp. apply: eq_bigr => i _. rewrite /zvec Dw Dzy Dy // Dz // D22 D2 // zph_mul //.
Qed.

Lemma forge_accepted ps n v A S ip ip' : params_wf ps n -> (0 < n)%nat -> value (sp_H ps) <> None -> valid A -> valid S ->
  (fst (HashBP sha A S) mod secp_N <> 0)%Z -> ipVerify E sha ip = Ok (true, ip') ->
  exists gamma pr pr', (gamma = 1 \/ gamma = 2 \/ gamma = 3)%Z /\ forge E sha ps v gamma A S ip = Ok pr /\
    bp_Params pr = ps /\ value (bp_V pr) = pedersen v gamma (sp_H ps) /\ Verify E sha pr = Ok (true, pr').
Proof.
move=> wf n0 H0 vA vS z0 Eip. have {}z0 := zph_neq0 zfN z0. case: (wf) => [EN [Lg [Lh [vg [vh vH]]]]].
have e0 : dl (sp_H ps) != 0 by apply/eqP => /(value_dl0 vH).
move: z0. set z := ph (fst (HashBP sha A S)) => z0.
set x := ph (fst (HashBP sha (ScalarBaseMult E 1) (ScalarBaseMult E 1))).
set d := (z - z * z) * (\sum_(i < n) z ^+ i) - z * z * z * (\sum_(i < n) ph 2%Z ^+ i).
have [gamma Hg [na [nb g0]]] := pickgamma (ph v) ((ph v * (z * z) + d + x + x * x) / (z * z)) e0.
have [pr [hp [Sx [gm [he [EF [Eh [[F1 F2 F3 F4] [[F5 F6 F7 F8] [[F9 F10 F11] [[vSx vgm vhe] [D1 D2 D3]]]]]]]]]]]] :=
  forge_run v gamma ip wf n0 vA vS z0.
have S1 : summable (gmul v gen) (gmul gamma (value (sp_H ps))).
  right. rewrite (gmul_h_eq vH) (gmul_h_eq0 vH). split; first by apply/eqP; rewrite mulf_neq0. by move/esym.
have zz0 : z * z != 0 by rewrite mulf_neq0.
have S2 : summable (gmul (bp_Tprime pr) gen) (gmul (bp_Taux pr) (value (sp_H ps))).
  right. rewrite (gmul_h_eq vH) (gmul_h_eq0 vH) F9 F10. split; first by apply/eqP; rewrite !mulf_neq0.
  move=> H. apply: nb. rewrite -/z -/d -/x in H. by rewrite H mulrAC mulfK.
exists gamma, pr. have [vg1 Dg1] := SMb hE 1%Z.
have v1 := Add_v vA vSx. have v2 := Add_v v1 vgm. have v3 := Add_v v2 vhe.
have wfp : bp_wf pr n.
  split; first by rewrite F2 F3 F4 F5 F6; split=> //; exact: (Commit_v hE). split; first by rewrite F11. by rewrite F1.
have Eh' : updateGenerators E (sp_Hh (bp_Params pr)) (fst (HashBP sha (bp_A pr) (bp_S pr))) (sp_N (bp_Params pr)) = Ok hp.
  by rewrite F1 F3 F4.
have := Verify_char hE wfp Eh'. rewrite F1 F3 F4 F5 F6 F7 F8 Eip -/z -/x.
move=> [lP [Sx' [gm' [he' [[ElP vSx' vgm' vhe' vlP] [[DSx Dgm Dhe] EV]]]]]].
move: EV. rewrite /= => EV. eexists. split; first exact: Hg. split; first exact: EF. split; first by [].
split.
  rewrite F2. apply: (dlz_inj (on_value (Commit_v hE v gamma vH)) (on_pedersen vH v gamma)). rewrite -dlE (dlz_pedersen vH v gamma).
  exact: (dl_Commit_sum hE vH S1).
rewrite EV. have ED : dl lP = dl (bp_Commit pr).
  have w1 := Add_v vA vSx'. have w2 := Add_v w1 vgm'. rewrite ElP F11. apply: dl_Add_congr => //; last by rewrite Dhe D3.
  apply: dl_Add_congr => //; last by rewrite Dgm D2. apply: dl_Add_congr => //. by rewrite DSx D1.
rewrite zph_0 mul0r add0r ED. rewrite eqxx orTb !andbT orbN andbT.
rewrite (dl_Commit_sum hE vH S2) F9 F10 F2 (dl_Commit_sum hE vH S1) Dg1 ph1 -/d !mul1r mulrDl.
have -> : ph v * (z * z) + ph gamma * dl (sp_H ps) * (z * z) + d + x + x * x -
   (ph v * (z * z) + d + x + x * x + ph gamma * (z * z) * dl (sp_H ps)) = 0 by exact: (forge_ring).
by rewrite eqxx.
Qed.
End E.
