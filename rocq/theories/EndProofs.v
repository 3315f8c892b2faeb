(** * bbsignatures and ccs08 over the model of crypto/bn256 itself *)
From Coq Require Import ZArith Znumtheory Lia Bool List.
From mathcomp Require Import all_ssreflect all_algebra.
From Verif Require CodecProofs.
From Verif Require Import Base ByteConv Util BaseFacts SpecCurve ZField EC PtGroup FieldExt BB BN256 BNTower BNField ZExp SpecBN BNG1 BNGroup BNG2 BNGroup2 BNBilin BNLaws NonDegen BNExact CCS08 SpecCCS CCSProofs CCSRange CCSLaws CCSInterval CCSExamples BNOps BNInst.
Import ListNotations.
Import GRing.Theory.
Delimit Scope Z_scope with Z.
Local Open Scope Z_scope.
Local Opaque bn_P bnOrder bn_u v2 v6 v12 ptmul zeta PairBN.

Lemma contract : exists W : bilinear bn_ops,
  (forall p x, R1 W p x <-> g1_ok p /\ g1v p = zmul bn_P x g1_gen) /\
  (forall q y, R2 W q y <-> g2_ok q /\ g2v q = ptmul y g2_gen) /\
  (forall q, pairable W q <-> (tpz q = gfP2_One -> v2 (tpt q) = 1%R)) /\
  (forall k, scalar W k <-> 0 <= k) /\
  exists e0, PairBN curveGen twistGen = Ok e0 /\ v12 e0 <> 1%R /\
    forall e x, RT W e x <-> v12 e = (v12 e0 ^+ Z.to_nat (x mod bnOrder))%R.
Proof.
exists bn_bilinear. split=> [//|]. split=> [//|]. split=> [//|]. split=> [//|].
exists fe1. split; first exact: pair1. split; first exact: fe1_not1. move=> e x.
have P : (0 < bnOrder)%Z by have := prime_ge_2 _ bnN_prime; lia.
have E : zx zeta x = (v12 fe1 ^+ Z.to_nat (x mod bnOrder))%R.
  rewrite -zetaE -(zx_mod bnN_prime zeta_n0 zeta_r x).
  apply: zx_pos. exact: (proj1 (Z.mod_pos_bound x _ P)).
rewrite -E. by [].
Qed.

Lemma verify_other m k pub s m' : R1 bn_bilinear pub k -> Sign bn_ops m k = Ok s ->
  m' mod bnOrder <> k mod bnOrder -> m' mod bnOrder <> m mod bnOrder -> verify bn_ops s m' pub = Ok false.
Proof.
move=> Rp S N1 N2. have N : ~ eqm (m + k) 0 by move=> /(@Sign_panic bn_ops) H; rewrite H in S.
have [s' [E' [i [Ri Ei n0 Ps]]]] := Sign_spec bn_bilinear N. have ? : s' = s by congruence. subst s'.
have A : addable m' k by move=> H; case: (N1 H).
have [[|] [V Hb]] := verify_spec Ri Ps Rp A; last exact: V.
exfalso. apply: N2. have H := proj1 Hb (erefl _). 
apply/(@eqmP m' m). move/(@eqmP (i * (m' + k)) 1): H. rewrite !phE Ei => H.
apply: (addIr (zph zfR k)). apply: (mulfI (invr_neq0 n0)). by rewrite H mulVf.
Qed.
Lemma signature m k : exists pub, Keygen bn_ops k = (Keypair bn_ops (Some pub) k, true) /\
  ((m + k) mod bnOrder = 0 -> Sign bn_ops m k = Panic) /\
  ((m + k) mod bnOrder <> 0 -> exists s, Sign bn_ops m k = Ok s /\
     (m mod bnOrder <> k mod bnOrder \/ m mod bnOrder = 0 -> verify bn_ops s m pub = Ok true) /\
     forall m', m' mod bnOrder <> k mod bnOrder -> m' mod bnOrder <> m mod bnOrder -> verify bn_ops s m' pub = Ok false).
Proof.
have [pub [K Rp]] := Keygen_spec bn_bilinear k. exists pub. split; first exact: K.
split; first by apply: (proj2 (@sign_panics_iff bn_ops bn_bilinear m k)).
move=> N. have [s S] := @sign_total bn_ops bn_bilinear m k N. exists s. split; first exact: S. split.
- move=> A. apply: (sig_verifies (W := bn_bilinear) Rp _ S). rewrite /addable /eqm mod0. by case: A => // H /H.
- move=> m' A C. exact: (verify_other m k pub s m' Rp S A C).
Qed.

Lemma membership sha k s p tp x r : hash_bytes sha -> SetupSet bn_ops k s = Ok p -> tapeSet_range tp ->
  (~ In x s -> ProveSet bn_ops sha tp x r p = Err) /\
  (In x s -> exists pr, ProveSet bn_ops sha tp x r p = Ok pr /\
     (set_nondegenerate bn_bilinear hExp x r pr -> VerifySet bn_ops pr p = Ok true)).
Proof.
move=> h S s0. have [A B] := set_fails bn_bilinear h tp x r S. split; first exact: (proj2 A).
move=> /B [pr E]. exists pr. split; first exact: E. exact: (set_complete h S s0 E).
Qed.
Lemma nondegenerate_means h x r (pr : proofSet bn_ops) : set_nondegenerate bn_bilinear h x r pr <->
  (tpz (sp_V bn_ops pr) = gfP2_One -> v2 (tpt (sp_V bn_ops pr)) = 1%R) /\ 0 <= x /\ 0 <= r /\
  chain (h * sp_m bn_ops pr) [sp_s bn_ops pr] /\ chain x [h * r] /\
  chain ((x + h * r) * sp_c bn_ops pr) [h * sp_zr bn_ops pr; sp_zsig bn_ops pr].
Proof. reflexivity. Qed.
Lemma interval sha k a b z tp1 tp2 x r : hash_bytes sha -> Setup bn_ops k a b = Ok z ->
  tapeUL_ok tp1 (pu_l bn_ops (pa_p bn_ops z)) -> tapeUL_ok tp2 (pu_l bn_ops (pa_p bn_ops z)) -> tape_range tp1 -> tape_range tp2 ->
  0 <= a -> b < 2 ^ 63 -> - 2 ^ 250 < x < 2 ^ 250 ->
  exists pr, Prove bn_ops sha tp1 tp2 x r z = Ok pr /\
  let ul := 57 ^ pu_l bn_ops (pa_p bn_ops z) in
  (ul_nondegenerate bn_bilinear 57 hExp (x - b + ul) r (pf_p1 bn_ops pr) ->
  ul_nondegenerate bn_bilinear 57 hExp (x - a) r (pf_p2 bn_ops pr) ->
  ~ eqm (up_c bn_ops (pf_p1 bn_ops pr)) 0 -> ~ eqm (up_c bn_ops (pf_p2 bn_ops pr)) 0 ->
  exists v, Verify bn_ops pr z = Ok v /\ (v = true <-> a <= x < b)).
Proof.
move=> h S T1 T2 G1 G2 a0 b0 xr. have [pr E] := Prove_ok bn_bilinear h x r S T1 T2. exists pr. split; first exact: E.
move=> ul. exact: (interval_nonneg h S T1 T2 G1 G2 a0 b0 xr E).
Qed.
Lemma forgery k s x r : (forall m, In m s -> (m + k) mod bnOrder <> 0) ->
  exists p f, SetupSet bn_ops k s = Ok p /\ VerifySet bn_ops f p = Ok true /\ sp_C bn_ops f = Commit bn_ops x r (ps_H bn_ops p).
Proof.
move=> N. have [p S] := proj2 (@setup_set_iff bn_ops bn_bilinear k s) N.
have [_ [[pub [K _]] _]] := SetupSet_inv bn_bilinear S.
have K' : kp_Pubk bn_ops (ps_kp bn_ops p) = Some pub by rewrite K.
have [V C] := @forge_set bn_ops p pub (Commit bn_ops x r (ps_H bn_ops p)) (G2_SetInfinity bn_ops) 1 1 1 1 K'.
by eexists p, _; split; [exact: S|split; [exact: V|exact: C]].
Qed.

(** ** an honest run *)
Definition honest_tape : tapeSet := TapeSet 7 1 13 15.
Lemma honest_range : tapeSet_range honest_tape. Proof. by []. Qed.
Lemma hash_one B (a : tGT B) D : HashSet B sha_one a D = Ok 1. Proof. by []. Qed.
Local Transparent bn_P.
Lemma smul1 a : G2ScalarMult a 1 = a. Proof. by vm_compute; case: a. Qed.
Local Opaque bn_P.

Lemma set_fields B tp x r p pr : ProveSet B sha_one tp x r p = Ok pr ->
  [/\ sp_m B pr = ts_m tp, sp_s B pr = ts_s tp, sp_c B pr = bmod 1 bnOrder &
      exists A, lookup B (ps_signatures B p) (big_String x) = Some (Some A) /\ sp_V B pr = G2_ScalarMult B A (ts_v tp)].
Proof.
rewrite /ProveSet. case: (lookup _ _ _) => [[A|]|] //. rewrite hash_one. case=> <-. split=> //. by exists A.
Qed.
Lemma ns_ok m : In m [3; 8; 10] -> (m + 5) mod bnOrder <> 0.
Proof.
Local Transparent bnOrder.
by case=> [<-|[<-|[<-|[]]]].
Local Opaque bnOrder.
Qed.
Definition set_arith : bool :=
  chainb (hExp * 7) [13] && chainb 8 [hExp * 11] &&
  chainb ((8 + hExp * 11) * bmod 1 bnOrder) [hExp * bmod (7 - 11 * bmod 1 bnOrder) bnOrder; bmod (13 - 8 * bmod 1 bnOrder) bnOrder].
Lemma set_arith_ok : set_arith = true. Proof. by vm_compute. Qed.
Local Opaque ProveSet SetupSet VerifySet G2ScalarMult hExp.
Lemma honest_run : exists p pr, SetupSet bn_ops 5 [3; 8; 10] = Ok p /\
  ProveSet bn_ops sha_one honest_tape 8 11 p = Ok pr /\ set_nondegenerate bn_bilinear hExp 8 11 pr /\
  VerifySet bn_ops pr p = Ok true.
Proof.
have [p S] := proj2 (@setup_set_iff bn_ops bn_bilinear 5 [3; 8; 10]) ns_ok.
have D : In 8 [3; 8; 10] by right; left.
have z0 := honest_range.
have [_ H] := membership sha_one 5 [3; 8; 10] p honest_tape 8 11 sha_one_ok S z0.
have [pr [E V]] := H D. exists p, pr. split; first exact: S. split; first exact: E.
have [Em Es Ec [A [L EV]]] := set_fields _ _ _ _ _ _ E. have [Ezr Ezs _] := ProveSet_fields E.
have [_ [_ G]] := SetupSet_inv bn_bilinear S. have [A' [L' [i [_ _ _ PA]]]] := proj1 (G 8) D.
have EA : A' = A by move: L'; rewrite L; case=> ->.
have N : set_nondegenerate bn_bilinear hExp 8 11 pr.
  have := set_arith_ok. rewrite /set_arith => /andP [/andP [/chainb_ok C1 /chainb_ok C2] /chainb_ok C3].
  split; last by split; [exact: (Pos2Z.is_nonneg 8)|split; [exact: (Pos2Z.is_nonneg 11)|]]; rewrite Ezr Ezs Em Es Ec; split; [exact: C1|split; [exact: C2|exact: C3]].
  rewrite EV -[G2_ScalarMult _ _ _]/(G2ScalarMult A 1) smul1 -EA. exact: PA.
split; first exact: N. exact: (V N).
Qed.

(** the interval [10, 100); x = 42 is accepted, x = 142 is rejected *)
Definition bn_tape1 : tapeUL := TapeUL 7 [(1, 130, 15); (1, 71, 6)].
Definition bn_tape2 : tapeUL := TapeUL 4 [(1, 113, 19); (1, 170, 3)].
Lemma hash_one_ul B (a : list (tGT B)) D : Hash B sha_one a D = Ok 1. Proof. by []. Qed.
Lemma ul_loop_V B sigs u i decx tp D Vs aa D' : ProveUL_loop B sigs u i decx tp D = Ok (Vs, aa, D') ->
  Forall (fun e => tape_v e = 1) tp ->
  Forall (fun V => exists d A, In d decx /\ lookup B sigs (big_String d) = Some (Some A) /\ V = G2_ScalarMult B A 1) Vs.
Proof.
elim: decx tp i D Vs aa D' => [|d decx IH] [|[[v s] t] tp] i D Vs aa D' //=; try by case=> <- _ _; constructor.
case L : (lookup _ _ _) => [[A|]|] //.
case E: (ProveUL_loop _ _ _ _ _ _ _) => [[[Vs' aa'] D'']||] //. case=> <- _ _ T.
have [T1 T2] : v = 1 /\ Forall (fun e => tape_v e = 1) tp by inversion T.
constructor.
- exists d, A. split; first by left. split; first exact: L. by rewrite T1.
- have := IH _ _ _ _ _ _ E T2. elim=> [|V l [d' [A' [I H]]] _ IHl]; constructor; last exact: IHl.
  exists d', A'. split; first by right. exact: H.
Qed.
Lemma ul_fields B tp x r p pr : ProveUL B sha_one tp x r p = Ok pr ->
  let ds := Decompose x (pu_u B p) (Z.to_nat (pu_l B p)) in
  [/\ up_m B pr = tu_m tp, up_s B pr = firstn (length ds) (map tape_s (tu_digits tp)),
      up_c B pr = bmod 1 bnOrder, up_zr B pr = bmod (tu_m tp - r * bmod 1 bnOrder) bnOrder &
      up_zsig B pr = fst (responses (bmod 1 bnOrder) ds (tu_digits tp)) /\
      (Forall (fun e => tape_v e = 1) (tu_digits tp) ->
       Forall (fun V => exists d A, In d ds /\ lookup B (pu_signatures B p) (big_String d) = Some (Some A) /\ V = G2_ScalarMult B A 1) (up_V B pr))].
Proof.
move=> E ds. move: E. rewrite /ProveUL. case: Z.ltb_spec => // l0. rewrite -/ds.
case E: (ProveUL_loop _ _ _ _ _ _ _) => [[[Vs aa] D]||] //. cbn [bind]. rewrite hash_one_ul. cbn [bind].
case Er: (responses _ _ _) => [zs zv]. case=> <-. split=> //. split=> // T. exact: (ul_loop_V _ _ _ _ _ _ _ _ _ _ E T).
Qed.
Definition ul_arith (tp : tapeUL) (x r : Z) : bool :=
  let ds := Decompose x 57 2 in let c := bmod 1 bnOrder in
  [&& chainb (hExp * tu_m tp) (weighted 57 0 (firstn (length ds) (map tape_s (tu_digits tp)))), chainb x [hExp * r] &
      chainb ((x + hExp * r) * c) (hExp * bmod (tu_m tp - r * c) bnOrder :: weighted 57 0 (fst (responses c ds (tu_digits tp))))].
Lemma ul_nondeg k p tp x r pr : SetupUL bn_ops k 57 2 = Ok p -> ProveUL bn_ops sha_one tp x r p = Ok pr ->
  Forall (fun e => tape_v e = 1) (tu_digits tp) -> ul_arith tp x r = true -> 0 <= x -> 0 <= r ->
  ul_nondegenerate bn_bilinear 57 hExp x r pr /\ ~ eqm (up_c bn_ops pr) 0.
Proof.
move=> S E T C x0 r0. have [EH [Eu [El [_ G]]]] := SetupUL_inv bn_bilinear S.
have [Em Es Ec Ezr [Ezs HV]] := ul_fields _ _ _ _ _ _ E. rewrite Eu El -[Z.to_nat 2]/2%nat in Es Ezs HV.
move: C. rewrite /ul_arith => /and3P [/chainb_ok C1 /chainb_ok C2 /chainb_ok C3].
split; last by rewrite Ec => H; apply: c_one_neq; apply: eqm_trans H; apply: eqm_sym; exact: eqm_bmod.
split; last by split; [exact: x0|]; split; [exact: r0|]; rewrite Em Es Ec Ezr Ezs; split; [exact: C1|split; [exact: C2|exact: C3]].
have := HV T. have := CodecProofs.Decompose_digits x 57 2 (erefl _). elim: (up_V bn_ops pr) => [|V l IH] Dg F; constructor.
- have [d [A [I [L EV]]]] := Forall_inv F. rewrite EV -[G2_ScalarMult _ _ _]/(G2ScalarMult A 1) smul1.
  have [A' [L' [i [_ _ _ PA]]]] := G d (proj1 (Forall_forall _ _) Dg d I).
  have EA : A' = A by congruence.
  rewrite -EA. exact: PA.
- apply: IH; first exact: Dg. exact: (Forall_inv_tail F).
Qed.

Definition honest_interval (x : Z) : bool := ul_arith bn_tape1 (x - 100 + 57 ^ 2) 11 && ul_arith bn_tape2 (x - 10) 11.
Lemma honest_42 : honest_interval 42 = true. Proof. by vm_compute. Qed.
Lemma honest_142 : honest_interval 142 = true. Proof. by vm_compute. Qed.
Local Opaque Setup Prove Verify.
Lemma nc5 : no_clash 5 57.
Proof.
Local Transparent bnOrder.
have H : forallb (fun m => negb (eqmb (m + 5) 0)) (upto 57) = true by vm_compute.
move=> m Hm E. have I : In m (upto 57).
  apply/in_map_iff. exists (Z.to_nat m). split; first by lia. apply/in_seq. lia.
have := proj1 (forallb_forall _ _) H m I. by rewrite /eqmb E Z.eqb_refl.
Local Opaque bnOrder.
Qed.
Lemma pow57 l : 1 <= l -> 57 ^ (l - 1) <= 100 < 57 ^ l -> l = 2.
Proof.
move=> l1 [A B]. have : ~ 3 <= l.
  move=> H. have := Z.pow_le_mono_r 57 2 (l - 1) (erefl _) ltac:(lia). rewrite (_ : 57 ^ 2 = 3249) //. lia.
have : l <> 1 by move=> E; move: B; rewrite E Z.pow_1_r; lia. lia.
Qed.
Lemma Prove_inv B sha tp1 tp2 x r z pr : Prove B sha tp1 tp2 x r z = Ok pr ->
  ProveUL B sha tp1 (x - pa_b B z + ExpNil (pu_u B (pa_p B z)) (pu_l B (pa_p B z))) r (pa_p B z) = Ok (pf_p1 B pr) /\
  ProveUL B sha tp2 (x - pa_a B z) r (pa_p B z) = Ok (pf_p2 B pr).
Proof.
Local Transparent Prove.
rewrite /Prove. case: (ProveUL _ _ _ _ _ _) => //= p1. case: (ProveUL _ _ _ _ _ _) => //= p2. by case=> <-.
Local Opaque Prove.
Qed.
Lemma tape_ok1 : tapeUL_ok bn_tape1 2 /\ tapeUL_ok bn_tape2 2 /\ tape_range bn_tape1 /\ tape_range bn_tape2 /\
  Forall (fun e => tape_v e = 1) (tu_digits bn_tape1) /\ Forall (fun e => tape_v e = 1) (tu_digits bn_tape2).
Proof. by repeat split; repeat constructor. Qed.
Lemma run_interval x : honest_interval x = true -> 10 <= x < 2 ^ 250 ->
  exists z pr v, Setup bn_ops 5 10 100 = Ok z /\ Prove bn_ops sha_one bn_tape1 bn_tape2 x 11 z = Ok pr /\
  Verify bn_ops pr z = Ok v /\ (v = true <-> 10 <= x < 100).
Proof.
move=> /andP [H1 H2] xr0. have xr : - 2 ^ 250 < x < 2 ^ 250 by lia.
have x1 : 0 <= x - 100 + 57 ^ 2 by rewrite (_ : 57 ^ 2 = 3249) //; lia. have x2 : 0 <= x - 10 by lia.
have [T1 [T2 [G1 [G2 [U1 U2]]]]] := tape_ok1.
have [z [S [Ea [Eb [Eu [_ El]]]]]] := Setup_ok bn_bilinear (k := 5) (a := 10) (b := 100) ltac:(lia) ltac:(lia) nc5.
have [l1 lb] := El ltac:(lia). have L := pow57 _ l1 lb.
have [_ _ _ [_ [_ [_ [_ [SU _]]]]]] := Setup_inv bn_bilinear S. rewrite L in SU.
have [pr [E V]] := interval sha_one 5 10 100 z bn_tape1 bn_tape2 x 11 sha_one_ok S ltac:(rewrite L; exact: T1) ltac:(rewrite L; exact: T2) G1 G2 ltac:(lia) ltac:(lia) xr.
have [P1 P2] := Prove_inv _ _ _ _ _ _ _ _ E. rewrite Ea in P2. rewrite Eb Eu L in P1.
have [N1 c1] := ul_nondeg _ _ _ _ _ _ SU P1 U1 H1 x1 (Pos2Z.is_nonneg 11). have [N2 c2] := ul_nondeg _ _ _ _ _ _ SU P2 U2 H2 x2 (Pos2Z.is_nonneg 11).
rewrite /= L in V. have [v Hv] := V N1 N2 c1 c2. exists z, pr, v. split; first exact: S. split; first exact: E. exact: Hv.
Qed.
Lemma run_42_142 : (exists z pr, Setup bn_ops 5 10 100 = Ok z /\ Prove bn_ops sha_one bn_tape1 bn_tape2 42 11 z = Ok pr /\
    Verify bn_ops pr z = Ok true) /\
  (exists z pr, Setup bn_ops 5 10 100 = Ok z /\ Prove bn_ops sha_one bn_tape1 bn_tape2 142 11 z = Ok pr /\
    Verify bn_ops pr z = Ok false).
Proof.
have P : 42 < 2 ^ 250 /\ 142 < 2 ^ 250 by split.
have [z [pr [v [A [B [C D]]]]]] := run_interval 42 honest_42 ltac:(lia).
have [z' [pr' [v' [A' [B' [C' D']]]]]] := run_interval 142 honest_142 ltac:(lia).
split; [exists z, pr|exists z', pr'].
- have I : 10 <= 42 < 100 by clear; lia.
  have E := proj2 D I. rewrite E in C. split; first exact: A. split; first exact: B. exact: C.
- have I : ~ 10 <= 142 < 100 by clear; lia.
  have E := not_true_is_false v' (fun H => I (proj1 D' H)). rewrite E in C'. split; first exact: A'. split; first exact: B'. exact: C'.
Qed.
