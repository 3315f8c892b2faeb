(** * ccs08 over bn256 with negative exponents: honest runs that are rejected *)
From Coq Require Import ZArith Znumtheory Lia Bool List.
From mathcomp Require Import all_ssreflect all_algebra.
From Verif Require CodecProofs.
From Verif Require Import Base ByteConv Util BaseFacts BB BN256 CCS08 SpecCCS CCSProofs CCSRange CCSLaws CCSInterval CCSExamples BNOps BNInst EndProofs.
Import ListNotations.
Delimit Scope Z_scope with Z.
Local Open Scope Z_scope.

(** the first comparison of the verifiers decides *)
Section Generic.
Variable B : bops.
Lemma VerifySet_D (pr : proofSet B) p pub : kp_Pubk B (ps_kp B p) = Some pub ->
  G2_Marshal B (G2_AddTo B (G2_AddTo B (G2_ScalarMult B (sp_C B pr) (sp_c B pr)) (G2_ScalarMult B (ps_H B p) (sp_zr B pr)))
     (G2_ScalarBaseMult B (sp_zsig B pr))) <> G2_Marshal B (sp_D B pr) ->
  VerifySet B pr p = Ok false.
Proof. move=> Ep H. rewrite /VerifySet Ep. case: list_eq_dec => E1; first by case: (H E1). by []. Qed.

Lemma VerifyUL_a_total pub c n V zs zv a b : length V = n -> length zs = n -> length zv = n -> length a = n ->
  exists b', VerifyUL_a B pub c n V zs zv a b = Ok b'.
Proof.
elim: n V zs zv a b => [|n IH] [|v V] [|s zs] [|z zv] [|a0 a] b //=; first by exists b.
case=> LV [Ls] [Lz] [La]. exact: IH.
Qed.
Lemma VerifyUL_total (pr : proofUL B) p pub : kp_Pubk B (pu_kp B p) = Some pub -> let n := Z.to_nat (pu_l B p) in
  length (up_V B pr) = n -> length (up_zsig B pr) = n -> length (up_zv B pr) = n -> length (up_a B pr) = n ->
  let D := forgeD B (pu_u B p) 0 (G2_AddTo B (G2_ScalarMult B (up_C B pr) (up_c B pr)) (G2_ScalarMult B (pu_H B p) (up_zr B pr))) (up_zsig B pr) in
  exists b, VerifyUL B pr p = Ok b /\ (G2_Marshal B D <> G2_Marshal B (up_D B pr) -> b = false).
Proof.
move=> Ep n LV Ls Lz La D. rewrite /VerifyUL -/n -{1}Ls VerifyUL_D_forge. cbn [bind]. rewrite -/D Ep.
have [b ->] := VerifyUL_a_total pub (up_c B pr) n _ _ _ _ true LV Ls Lz La. cbn [bind].
eexists. split; first by []. by case: list_eq_dec.
Qed.
(** the loop of the prover sums the same way *)
Lemma ProveUL_loop_D sigs u i decx tp D Vs aa D' : length tp = length decx ->
  ProveUL_loop B sigs u i decx tp D = Ok (Vs, aa, D') ->
  [/\ D' = forgeD B u i D (List.map tape_s tp), length Vs = length decx & length aa = length decx].
Proof.
elim: decx tp i D Vs aa D' => [|d decx IH] [|[[v s] t] tp] i D Vs aa D' //=.
  by move=> _ [<- <- <-].
case=> L. case: (lookup _ _ _) => [[A|]|] //.
case E: (ProveUL_loop _ _ _ _ _ _ _) => [[[Vs' aa'] D'']||] //=. case=> <- <- <-.
have [-> LV La] := IH _ _ _ _ _ _ L E. by rewrite /= LV La.
Qed.
Lemma responses_length c decx tp : length tp = length decx ->
  length (fst (responses c decx tp)) = length decx /\ length (snd (responses c decx tp)) = length decx.
Proof.
elim: decx tp => [|d decx IH] [|[[v s] t] tp] //=. case=> /IH.
by case: (responses _ _ _) => zs zv /= [-> ->].
Qed.
Lemma Decompose_length x u l : length (Decompose x u l) = l.
Proof. by elim: l x => [//|l IH] x /=; rewrite IH. Qed.

Lemma ProveUL_shape tp x r p pr : ProveUL B sha_one tp x r p = Ok pr ->
  let n := Z.to_nat (pu_l B p) in length (tu_digits tp) = n ->
  let c := bmod 1 bnOrder in let ds := Decompose x (pu_u B p) n in
  [/\ up_D B pr = G2_AddTo B (G2_SetInfinity B) (forgeD B (pu_u B p) 0 (G2_ScalarMult B (pu_H B p) (tu_m tp)) (List.map tape_s (tu_digits tp))),
      up_C B pr = Commit B x r (pu_H B p), up_c B pr = c /\ up_zr B pr = bmod (tu_m tp - r * c) bnOrder,
      up_zsig B pr = fst (responses c ds (tu_digits tp)) &
      [/\ length (up_V B pr) = n, length (up_zsig B pr) = n, length (up_zv B pr) = n & length (up_a B pr) = n]].
Proof.
move=> + n L c ds. have Ld : length ds = n by exact: Decompose_length.
rewrite /ProveUL. case: Z.ltb_spec => // l0. rewrite -/n -/ds.
case E: (ProveUL_loop _ _ _ _ _ _ _) => [[[Vs aa] D]||] //. cbn [bind]. rewrite hash_one_ul. cbn [bind]. rewrite -/c.
have Lt : length (tu_digits tp) = length ds by rewrite Ld.
have [ED LV La] := ProveUL_loop_D _ _ _ _ _ _ _ _ _ Lt E. have := responses_length c ds (tu_digits tp) Lt.
case Er: (responses _ _ _) => [zs zv]. rewrite [fst _]/= [snd _]/=; case=> L1 L2. case=> <-. cbn. split=> //.
- by rewrite ED.
- by rewrite LV L1 L2 La Ld.
Qed.


(** what the verifier recomputes and what it compares with, for an honest proof *)
Definition neqb (a b : list Z) : bool := if list_eq_dec Z.eq_dec a b then false else true.
Lemma neqb_ok a b : neqb a b = true -> a <> b.
Proof. by rewrite /neqb; case: list_eq_dec. Qed.
Variable H : tG2 B.
Definition set_lhs (tp : tapeSet) (x r : Z) : list Z :=
  let c := bmod 1 bnOrder in
  G2_Marshal B (G2_AddTo B (G2_AddTo B (G2_ScalarMult B (Commit B x r H) c)
     (G2_ScalarMult B H (bmod (ts_m tp - r * c) bnOrder))) (G2_ScalarBaseMult B (bmod (ts_s tp - x * c) bnOrder))).
Definition set_rhs (tp : tapeSet) : list Z :=
  G2_Marshal B (G2_AddTo B (G2_SetInfinity B) (G2_AddTo B (G2_ScalarMult B H (ts_m tp)) (G2_ScalarBaseMult B (ts_s tp)))).
Lemma set_run (W : bilinear B) k s p tp x r : setupH B = H -> SetupSet B k s = Ok p -> In x s ->
  neqb (set_lhs tp x r) (set_rhs tp) = true ->
  exists pr, ProveSet B sha_one tp x r p = Ok pr /\ VerifySet B pr p = Ok false.
Proof.
move=> EHH S I N. have [EH [[pub [Ek _]] G]] := SetupSet_inv W S. rewrite EHH in EH.
have [A [L _]] := proj1 (G x) I.
have [pr [E _ [_ EC] [_ [_ Ezr Ezs _]] [ED _]]] := ProveSet_ok sha_one_ok tp r L.
have [_ _ Ec _] := set_fields _ _ _ _ _ _ E. exists pr. split; first exact: E.
have Ek' : kp_Pubk B (ps_kp B p) = Some pub by rewrite Ek.
apply: (VerifySet_D _ _ _ Ek'). rewrite EC ED Ezr Ezs Ec EH. exact: (neqb_ok _ _ N).
Qed.
Definition ul_lhs (tp : tapeUL) (x r : Z) : list Z :=
  let c := bmod 1 bnOrder in
  G2_Marshal B (forgeD B 57 0 (G2_AddTo B (G2_ScalarMult B (Commit B x r H) c)
     (G2_ScalarMult B H (bmod (tu_m tp - r * c) bnOrder))) (fst (responses c (Decompose x 57 2) (tu_digits tp)))).
Definition ul_rhs (tp : tapeUL) : list Z :=
  G2_Marshal B (G2_AddTo B (G2_SetInfinity B) (forgeD B 57 0 (G2_ScalarMult B H (tu_m tp)) (List.map tape_s (tu_digits tp)))).
Lemma ul_run (W : bilinear B) k p tp x r pr : setupH B = H -> SetupUL B k 57 2 = Ok p -> ProveUL B sha_one tp x r p = Ok pr ->
  length (tu_digits tp) = 2%nat ->
  exists b, VerifyUL B pr p = Ok b /\ (neqb (ul_lhs tp x r) (ul_rhs tp) = true -> b = false).
Proof.
move=> EHH S E Lt. have [EH [Eu [El [[pub [Ek _]] _]]]] := SetupUL_inv W S. rewrite EHH in EH.
have Ek' : kp_Pubk B (pu_kp B p) = Some pub by rewrite Ek.
have := ProveUL_shape _ _ _ _ _ E. rewrite Eu El EH => /(_ Lt) [ED EC [Ec Ezr] Ezs [LV Ls Lz La]].
have := VerifyUL_total pr p pub Ek'. rewrite El => /(_ LV Ls Lz La) [b [Eb Hb]]. exists b. split; first exact: Eb.
move/neqb_ok => N. apply: Hb. rewrite Eu EH ED EC Ec Ezr Ezs. exact: N.
Qed.
Lemma interval_run (W : bilinear B) k a b z tp1 tp2 x r : setupH B = H -> Setup B k a b = Ok z -> pa_a B z = a -> pa_b B z = b ->
  pu_u B (pa_p B z) = 57 -> pu_l B (pa_p B z) = 2 -> SetupUL B k 57 2 = Ok (pa_p B z) -> tapeUL_ok tp1 2 -> tapeUL_ok tp2 2 ->
  length (tu_digits tp1) = 2%nat -> length (tu_digits tp2) = 2%nat ->
  exists pr b1 b2, [/\ Prove B sha_one tp1 tp2 x r z = Ok pr,
   Verify B pr z = Ok (b1 && b2),
   neqb (ul_lhs tp1 (x - b + 57 ^ 2) r) (ul_rhs tp1) = true -> b1 = false &
   neqb (ul_lhs tp2 (x - a) r) (ul_rhs tp2) = true -> b2 = false].
Proof.
move=> EHH S Ea Eb Eu El SU T1 T2 L1 L2.
have [pr E] := Prove_ok W sha_one_ok x r S ltac:(rewrite El; exact: T1) ltac:(rewrite El; exact: T2).
have [P1 P2] := Prove_inv _ _ _ _ _ _ _ _ E. rewrite Ea in P2. rewrite Eb Eu El in P1.
have [b1 [V1 H1]] := ul_run W _ _ _ _ _ _ EHH SU P1 L1. have [b2 [V2 H2]] := ul_run W _ _ _ _ _ _ EHH SU P2 L2.
exists pr, b1, b2. split; [exact: E| |exact: H1|exact: H2].
by rewrite /Verify V1 V2.
Qed.
End Generic.

(** The randomness m and r is 0, so that H drops out: H costs the kernel (and
    [coqchk] without the VM) some hundred operations on the twist. *)
Definition neg_tape : tapeSet := TapeSet 0 1 1 15.
Definition neg_tape1 : tapeUL := TapeUL 0 [(1, 57, 15); (1, 57, 6)].
Definition neg_tape2 : tapeUL := TapeUL 0 [(1, 57, 19); (1, 57, 3)].
(** the comparison fails for x = -3 *)
Lemma set_neg H : neqb (set_lhs bn_ops H neg_tape (-3) 0) (set_rhs bn_ops H neg_tape) = true.
Proof. by vm_cast_no_check (erefl true). Qed.
(** and for the digits of -1, which is x - b + u^l for x = -3150 and b = 100 *)
Lemma ul_wide H : neqb (ul_lhs bn_ops H neg_tape1 (-3150 - 100 + 57 ^ 2) 0) (ul_rhs bn_ops H neg_tape1) = true.
Proof. by vm_cast_no_check (erefl true). Qed.
(** and x - a for x = 9 and a = 10 *)
Lemma ul_neg H : neqb (ul_lhs bn_ops H neg_tape2 (9 - 10) 0) (ul_rhs bn_ops H neg_tape2) = true.
Proof. by vm_cast_no_check (erefl true). Qed.

Lemma n38_ok m : In m [-3; 8] -> (m + 5) mod bnOrder <> 0.
Proof. by case=> [<-|[<-|[]]]. Qed.
Lemma neg_in : In (-3) [-3; 8]. Proof. by left. Qed.
Lemma tape_ok2 : tapeUL_ok neg_tape1 2 /\ tapeUL_ok neg_tape2 2. Proof. by repeat split; repeat constructor. Qed.
Lemma tape_len : length (tu_digits neg_tape1) = 2%nat /\ length (tu_digits neg_tape2) = 2%nat. Proof. by []. Qed.
Lemma le100 : 10 <= 100 /\ -3400 <= 100 /\ -3400 <= -3150 < 100. Proof. lia. Qed.
Lemma setup2 a : a <= 100 -> exists z, [/\ Setup bn_ops 5 a 100 = Ok z, pa_a bn_ops z = a, pa_b bn_ops z = 100,
  pu_u bn_ops (pa_p bn_ops z) = 57 /\ pu_l bn_ops (pa_p bn_ops z) = 2 & SetupUL bn_ops 5 57 2 = Ok (pa_p bn_ops z)].
Proof.
move=> La. have [z [S [Ea [Eb [Eu [_ El]]]]]] := Setup_ok bn_bilinear (k := 5) (a := a) (b := 100) La ltac:(lia) nc5.
have [l1 lb] := El ltac:(lia). have L := pow57 _ l1 lb.
have [_ _ _ [_ [_ [_ [_ [SU _]]]]]] := Setup_inv bn_bilinear S. rewrite L in SU.
exists z. split; [exact: S|exact: Ea|exact: Eb| |exact: SU]. split; [exact: Eu|exact: L].
Qed.

Lemma negative_element : exists p pr, SetupSet bn_ops 5 [-3; 8] = Ok p /\ In (-3) [-3; 8] /\
  ProveSet bn_ops sha_one neg_tape (-3) 0 p = Ok pr /\ VerifySet bn_ops pr p = Ok false.
Proof.
have [p S] := proj2 (@setup_set_iff bn_ops bn_bilinear 5 [-3; 8]) n38_ok.
have [pr [E V]] := set_run bn_ops (setupH bn_ops) bn_bilinear 5 [-3; 8] p neg_tape (-3) 0 erefl S neg_in (set_neg _).
exists p, pr. split; [exact: S|split; [exact: neg_in|split; [exact: E|exact: V]]].
Qed.
Lemma below_interval : exists z pr, Setup bn_ops 5 10 100 = Ok z /\
  Prove bn_ops sha_one neg_tape1 neg_tape2 9 0 z = Ok pr /\ Verify bn_ops pr z = Ok false.
Proof.
have [z [S Ea Eb [Eu El] SU]] := setup2 10 (proj1 le100). have [T1 T2] := tape_ok2. have [L1 L2] := tape_len.
have [pr [b1 [b2 [E V _ H]]]] := interval_run bn_ops (setupH bn_ops) bn_bilinear 5 10 100 z neg_tape1 neg_tape2 9 0 erefl S Ea Eb Eu El SU T1 T2 L1 L2.
exists z, pr. split; first exact: S. split; first exact: E. rewrite V (H (ul_neg _)) andbF. exact: erefl.
Qed.
Lemma wide_interval : exists z pr, Setup bn_ops 5 (-3400) 100 = Ok z /\ -3400 <= -3150 < 100 /\
  Prove bn_ops sha_one neg_tape1 neg_tape2 (-3150) 0 z = Ok pr /\ Verify bn_ops pr z = Ok false.
Proof.
have [_ [A B]] := le100.
have [z [S Ea Eb [Eu El] SU]] := setup2 (-3400) A. have [T1 T2] := tape_ok2. have [L1 L2] := tape_len.
have [pr [b1 [b2 [E V H _]]]] := interval_run bn_ops (setupH bn_ops) bn_bilinear 5 (-3400) 100 z neg_tape1 neg_tape2 (-3150) 0 erefl S Ea Eb Eu El SU T1 T2 L1 L2.
exists z, pr. split; first exact: S. split; first exact: B. split; first exact: E. rewrite V (H (ul_wide _)). exact: erefl.
Qed.
