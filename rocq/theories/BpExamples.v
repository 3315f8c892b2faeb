(** * Non-vacuity of C20, C23-C30 *)
From Coq Require Import ZArith Znumtheory List Bool Lia.
From mathcomp Require Import all_ssreflect all_algebra.
From Verif Require Import Base BaseFacts ByteConv Util SpecCodec CodecProofs MCRing SpecCurve ZField P256 Pedersen SpecSecp SecpGroup SecpProofs SecpDL SecpMain SecpLaws Vector Bulletproofs SpecBP VecProofs BipProofs BipLaws BpProofs BpLaws BpMore BpSetup.
Set Implicit Arguments.
Unset Strict Implicit.
Unset Printing Implicit Defensive.
Import GRing.Theory.
Local Open Scope ring_scope.
Delimit Scope Z_scope with Z.
Local Arguments Z.mul : simpl never.
Local Arguments Z.add : simpl never.
Local Arguments Z.sub : simpl never.
Local Arguments Z.modulo : simpl never.
Local Arguments Z.of_nat : simpl never.
Local Arguments Z.quot : simpl never.
Local Notation ph := (zph zfN).
Local Notation pow2 := (Nat.pow 2).

(** VectorExp, VectorECAdd and commitInnerProduct as group elements *)
Section C18.
Variable E : ext.
Hypothesis hE : ext_ok E.
Local Opaque secp_P secp_N secp_Gx secp_Gy ORDER value valid dl Multiply ScalarMult ScalarBaseMult Add Neg CommitG1 bmod ModInverse HashBP IsZero gadd gmul gen.
Lemma VectorExp_spec a b : all_valid a ->
  (List.length a <> List.length b -> VectorExp E a b = Err) /\
  (List.length a = List.length b -> exists R, VectorExp E a b = Ok R /\ valid R /\ value R = multiexp a b).
Proof.
move=> va. split=> L; first by rewrite /VectorExp (len_neq L).
have [R [ER [vR DR]]] := VectorExp_ok hE L va. exists R. split; first exact: ER. split; first exact: vR.
apply: (dlz_inj (on_value vR) (on_multiexp b va)). by rewrite -dlE DR dlz_multiexp.
Qed.
Lemma VectorECAdd_spec a b : all_valid a -> all_valid b ->
  (List.length a <> List.length b -> VectorECAdd E a b = Err) /\
  (List.length a = List.length b -> exists c, VectorECAdd E a b = Ok c /\ List.length c = List.length a /\ all_valid c /\
     forall i, value (List.nth i c None) = gadd (value (List.nth i a None)) (value (List.nth i b None))).
Proof.
move=> va vb. split=> L; first by rewrite /VectorECAdd (len_neq L).
have [c [Ec [Lc [vc Dc]]]] := VectorECAdd_ok hE L va vb. exists c. split; first exact: Ec. split; first exact: Lc.
split; first exact: vc. move=> i. have v1 := valid_nth i vc. have v2 := valid_nth i va. have v3 := valid_nth i vb.
apply: (dlz_inj (on_value v1)). exact: (on_gadd (on_value v2) (on_value v3)).
rewrite (dlz_add (on_value v2) (on_value v3)) -!dlE. exact: Dc.
Qed.
Lemma commitIP_spec g h a b : all_valid g -> all_valid h -> List.length g = List.length a -> List.length h = List.length b ->
  exists P, commitInnerProduct E g h a b = Ok P /\ valid P /\ value P = gadd (multiexp g a) (multiexp h b).
Proof.
move=> vg vh L1 L2. have [P [EP [vP DP]]] := commitIP_ok hE L1 L2 vg vh. exists P. split; first exact: EP. split; first exact: vP.
have o1 := on_multiexp a vg. have o2 := on_multiexp b vh.
apply: (dlz_inj (on_value vP) (on_gadd o1 o2)). by rewrite (dlz_add o1 o2) -dlE DP !dlz_multiexp.
Qed.
End C18.

Lemma N_gt1001 : (1001 < secp_N)%Z. Proof. by []. Qed.
(** ** a constant hash *)
Definition sha1 : list Z -> list Z := fun _ => [:: 1%Z].
Lemma hash_ok_sha1 : hash_ok sha1.
Proof. move=> l. split; first by []. split; first by repeat constructor. by vm_compute. Qed.
Local Opaque secp_P secp_N secp_Gx secp_Gy ORDER value valid dl Multiply ScalarMult ScalarBaseMult Add Neg CommitG1 bmod ModInverse HashBP IsZero gadd gmul gen MapToGroup.
Lemma h2p_ok_sha1 : h2p_ok sha1.
Proof.
move=> m. have H : forall l : list Z, sha1 l <> [::] /\ List.Forall byte (sha1 l).
  move=> l. split; first by []. by repeat constructor.
have [nP _] := MapToGroup_first m H. have NE := MapToGroup_fails_iff m H.
case Em : (MapToGroup sha1 m) => [p| |]; [exists p; exact: erefl| |by case: (nP Em)].
have [_ Sq] := MapToGroup_example. move: Em => /NE /(_ 0%Z ltac:(lia)) []. exact: Sq.
Qed.
Lemma HashBP_sha1 A S : fst (HashBP sha1 A S) = 1%Z.
Proof. Local Transparent HashBP. by []. Qed.
Local Opaque HashBP.

Lemma avoid (e : FN) (l : seq FN) : e != 0 -> (seq.size l < 1000)%nat -> exists g, ph g * e \notin l.
Proof.
move=> e0 sl. set c := [seq ph (Z.of_nat i) * e | i <- iota 0 (seq.size l).+1].
have U : uniq c.
  rewrite map_inj_in_uniq ?iota_uniq // => i j. rewrite !mem_iota !add0n => /andP [_ Hi] /andP [_ Hj] /(mulIf e0) H.
  have B : (1001 < secp_N)%Z by exact: N_gt1001.
  apply: Nat2Z.inj. move: sl Hi Hj => /ltP sl /ltP Hi /ltP Hj. apply: (zph_small (f := zfN)) H; lia.
case: (boolP (all (mem l) c)) => [/allP A|/allPn [x xc nx]].
  have := uniq_leq_size U A. by rewrite size_map size_iota ltnn.
case/mapP: xc nx => i _ -> /= nx. by exists (Z.of_nat i).
Qed.

Section X.
Variable E : ext.
Hypothesis hE : ext_ok E.
Lemma summable_dl p q : on_secp p -> on_secp q -> (dlz p = 0 \/ (dlz q <> 0 /\ dlz p <> dlz q)) -> summable p q.
Proof.
move=> op oq [H|[H1 H2]]; first by left; apply/(dlz_eq0 op).
right. split; first by move=> H; apply: H1; rewrite H; exact: dlz_None. by move=> H; apply: H2; rewrite H.
Qed.
Lemma ph1N : ph 1%Z = 1. Proof. exact: zph_1. Qed.
Lemma two_neq0 : (2%:R : FN) != 0.
Proof.
rewrite -(zph_nat zfN 2) -(zph_0 zfN). apply/eqP => H. have := N_gt1001 => B.
have := zph_small (f := zfN) _ _ H. move=> /(_ ltac:(lia) ltac:(lia)). by [].
Qed.
Lemma nd_exists k ps secret : params_wf ps (pow2 k) -> value (sp_H ps) <> None ->
  exists t pr, tape_ok t (pow2 k) /\ Prove E sha1 secret ps t = Ok pr /\ nondegenerate sha1 pr /\
    (fst (HashBP sha1 (bp_A pr) (bp_S pr)) mod secp_N <> 0)%Z.
Proof.
move=> wf nH. case: (wf) => [EN [Lg [Lh [vg [vh vH]]]]]. set H := sp_H ps.
have e0 : dl H != 0 by apply/eqP => /(value_dl0 vH).
set n := pow2 k.
pose T' : FN := ph (secret mod 2 ^ Z.of_nat n)%Z - n%:R * 0 + (- (\sum_(i < n) ph 2%Z ^+ i)).
have [gam ng] := @avoid (dl H) [:: 0; ph secret; - ph secret; - (dl H + dl H); T' - (dl H + dl H)] e0 isT.
pose KA : FN := \sum_(i < n) (dv (sp_Gg ps) i * pv (Decompose secret 2 n) i + dv (sp_Hh ps) i * (pv (Decompose secret 2 n) i - 1)).
pose m : FN := \sum_(i < n) dv (sp_Gg ps) i * (- 1).
have [al [na1 na2]] : exists al, ph al * dl H + KA <> dl H /\ (ph al * dl H + KA + dl H = 0 \/ (m <> 0 /\ ph al * dl H + KA + dl H <> m)).
  case: (eqVneq m 0) => [m0|/eqP m0].
    have [al _ Hal] := scal_surj (- KA - dl H) e0. exists al. rewrite Hal. split; last by left; rewrite addrAC subrK addNr.
    rewrite (_ : - KA - dl H + KA = - dl H); last by rewrite addrAC addNr add0r.
    move/eqP. rewrite eq_sym -addr_eq0 -mulr2n -mulr_natl mulf_eq0 (negbTE e0) orbF. by rewrite (negbTE two_neq0).
  have [al na] := @avoid (dl H) [:: dl H - KA; m - dl H - KA] e0 isT. exists al.
  move: na. rewrite !inE negb_or => /andP [/eqP n1 /eqP n2]. split; first by move=> X; apply: n1; apply/eqP; rewrite eq_sym subr_eq X.
  right. split; first exact: m0. move=> X. apply: n2. by rewrite -X addrK addrK.
pose z0 := List.repeat 0%Z n.
pose t := Tape gam al z0 z0 1 1 1.
have tk : tape_ok t n by split; exact: List.repeat_length.
have [pr EP] := @Prove_total E hE sha1 k ps secret t wf tk hash_ok_sha1 (h2p_ok_sha1 SEEDU).
exists t, pr. split; first exact: tk. split; first exact: EP.
have [t1 [t2 [hp [[EP1 EV ET1 ET2] [[vA vS vC Eh] [[Q1 Q2 Q3] [wip [[ip' Eip] [DA DS Dt]]]]]]]]] := Prove_post hE wf tk EP.
have Hz : fst (HashBP sha1 (bp_A pr) (bp_S pr)) = 1%Z by exact: HashBP_sha1.
have Hx : fst (HashBP sha1 (bp_T1 pr) (bp_T2 pr)) = 1%Z by exact: HashBP_sha1.
split; last first.
  rewrite Hz. have B := N_gt1001. rewrite Z.mod_small; [by []|]. clear -B. lia.
have Pz i : pv z0 i = 0.
  rewrite /pv /z0. rewrite List.nth_repeat. exact: zph_0.
have {Dt} [Dt1 Dt2] := Dt Pz Pz.
move: ng. rewrite !inE !negb_or => /and5P [/eqP g1 /eqP g2 /eqP g3 /eqP g4 /eqP g5].
have Dcm x r : ph x = 0 -> dl (CommitG1 E x r H) = ph r * dl H.
  move=> x0. rewrite (dl_Commit_sum hE vH) ?x0 ?add0r //. left. apply/(dlz_eq0 (on_g x)). by rewrite dlz_gmul.
have DV : dl (bp_V pr) = ph secret + ph gam * dl H.
  rewrite EV. apply: (dl_Commit_sum hE vH). apply: summable_dl; [exact: on_g|exact: on_gmul|].
  rewrite dlz_gmul (dlz_mul _ (on_value vH)) -dlE. right. split; first exact: g1. move=> X. by apply: g2.
have v1 := Commit_v hE t1 (r_tau1 t) vH. have v2 := Commit_v hE t2 (r_tau2 t) vH.
have vV := Commit_v hE secret (r_gamma t) vH.
have DT' : ph (bp_Tprime pr) = T'.
  rewrite Q2 !Hz ?Hx Dt1 Dt2 /T' ph1N !mulr1 !mul1r subrr mul0r add0r mulr0 subr0 !addr0 ?sub0r ?add0r. by [].
have DTx : ph (bp_Taux pr) = 1 + 1 + ph gam.
  by rewrite Q3 !Hz ?Hx /= ph1N !mulr1 !mul1r.
have DA' : dl (bp_A pr) = ph al * dl H + KA by exact: DA.
have DS' : dl (bp_S pr) = dl H.
  rewrite DS /= ph1N mul1r big1 ?addr0 // => i _. by rewrite !Pz !mulr0 addr0.
rewrite /nondegenerate. rewrite EP1 ?Hx ?Hz -/H.
have oS := on_gmul 1 (on_value vS).
have DgS : dlz (gmul 1 (value (bp_S pr))) = dl H by rewrite (dlz_mul _ (on_value vS)) -dlE DS' ph1N mul1r.
split. 
  rewrite EV (value_dl0 vV) -EV DV => X. apply: g3. by rewrite -[LHS](addKr (ph secret)) X addr0.
split; first by rewrite ET1 (value_dl0 v1) (Dcm _ _ Dt1) ph1N mul1r => /eqP; rewrite (negbTE e0).
split; first by rewrite ET2 (value_dl0 v2) (Dcm _ _ Dt2) ph1N mul1r => /eqP; rewrite (negbTE e0).
split.
  apply: summable_dl; [exact: on_g|exact: on_gmul|].
  rewrite dlz_gmul (dlz_mul _ (on_value vH)) -dlE DT' DTx !mulrDl !mul1r. right. split.
    move=> X. apply: g4. by rewrite -[LHS](addKr (dl H + dl H)) X addr0.
  move=> X. apply: g5. by rewrite X addrC addKr.
split.
  apply: summable_dl; [exact: on_value|exact: oS|]. rewrite DgS -dlE DA'. right. split; first by apply/eqP. exact: na1.
apply: summable_dl; [by apply: on_gadd; [exact: on_value|]|exact: on_multiexp|].
rewrite (dlz_add (on_value vA) oS) DgS -dlE DA' dlz_multiexp ?List.repeat_length // Lg.
rewrite (_ : \sum_(i < n) _ = m); first exact: na2.
apply: eq_bigr => i _. congr (_ * _). rewrite pv_repeat; last exact: ltn_ord. by rewrite zph_opp ph1N.
Qed.
End X.

(** ** inner product examples *)
Local Transparent valid value.
Lemma valid_G : valid gen. Proof. exact: valid_gen. Qed.
Lemma value_G : value gen <> None. Proof. rewrite value_gen. exact: gen_None. Qed.
Local Opaque valid value.
Definition q_ex (k : nat) (c : Z) : ip_params :=
  IPParams (Z.of_nat (pow2 k)) c gen gen (List.repeat gen (pow2 k)) (List.repeat gen (pow2 k)) None.
Lemma allv_rep n : all_valid (List.repeat gen n).
Proof. elim: n => [|n IH]; constructor; [exact: valid_G|exact: IH]. Qed.
Lemma q_ex_wf k c : ip_params_wf (q_ex k c) k.
Proof.
split; first by []. split; first exact: List.repeat_length. split; first exact: List.repeat_length.
split; first exact: allv_rep. split; first exact: allv_rep. exact: valid_G.
Qed.
Section Y.
Variable E : ext.
Hypothesis hE : ext_ok E.
Lemma ip_ex k c a b : List.length a = pow2 k -> List.length b = pow2 k -> exists P pr x,
  commitInnerProduct E (pp_Gg (q_ex k c)) (pp_Hh (q_ex k c)) a b = Ok P /\ valid P /\
  hashIP sha1 (pp_Gg (q_ex k c)) (pp_Hh (q_ex k c)) P (pp_Cc (q_ex k c)) (pp_N (q_ex k c)) = Ok (Some x) /\ (x mod secp_N <> 0)%Z /\
  proveInnerProduct E sha1 a b P (q_ex k c) = Ok pr.
Proof.
move=> La Lb. have wf := q_ex_wf k c. case: (wf) => [EN [Lg [Lh [vg [vh vu]]]]].
have [P [EP [vP _]]] := commitIP_spec hE vg vh (etrans Lg (esym La)) (etrans Lh (esym Lb)).
have [pr Er] := bip_no_panic hE hash_ok_sha1 wf La Lb vP.
have H : hashIP sha1 (pp_Gg (q_ex k c)) (pp_Hh (q_ex k c)) P (pp_Cc (q_ex k c)) (pp_N (q_ex k c)) = Ok (Some 1%Z).
  rewrite /hashIP. case I : (hashIP_input _ _ _ _ _) (hashIP_total P hash_ok_sha1 wf) => [i| |] [x]; rewrite /hashIP I //.
exists P, pr, 1%Z. split; first exact: EP. split; first exact: vP. split; first exact: H. split; last exact: Er.
clear. have B := N_gt1001. rewrite Z.mod_small; first by []. lia.
Qed.
(** a proof accepted at the first call and rejected at the second *)
Lemma repeat_ex : exists pr pr', ip_wf pr /\ ipVerify E sha1 pr = Ok (true, pr') /\
  value (pp_P (ip_Params pr)) <> None.
Proof.
have [P [pr [x [EP [vP [Hx [x0 Er]]]]]]] := @ip_ex 0 0 [:: 1%Z] [:: 0%Z] erefl erefl.
have wf := q_ex_wf 0 0. case: (wf) => [EN [Lg [Lh [vg [vh vu]]]]].
have [_ [_ [_ [Wf _]]]] := prove_ip_inv hE wf (k := 0) (erefl : List.length [:: 1%Z] = _) (erefl : List.length [:: 0%Z] = _) vP Er.
have [pr' Ev] := bip_complete hE wf (k := 0) (erefl : List.length [:: 1%Z] = _) (erefl : List.length [:: 0%Z] = _) vP EP erefl Er.
exists pr, pr'. split; first exact: Wf. split; first exact: Ev.
have [P' [EP' [_ DP]]] := commitIP_ok hE (erefl : List.length (pp_Gg (q_ex 0 0)) = List.length [:: 1%Z]) (erefl : List.length (pp_Hh (q_ex 0 0)) = List.length [:: 0%Z]) vg vh.
rewrite EP' in EP. case: EP DP => -> DP. 
have D1 : dl P = 1.
  rewrite DP !big_ord_recl !big_ord0 !addr0 /dv /pv /= zph_1 zph_0 mulr1 mulr0 addr0.
  by rewrite dlE value_gen -[gen]/(gmul 1 gen) dlz_gmul zph_1.
move: Er. rewrite /proveInnerProduct [_ =? _]/= Hx {1}/bind {1}/negb. have [vux Du] := ScalarMultP_ok hE x vu.
case Eu : (ScalarMultP E _ _) => [ux| |] //. rewrite {1}/bind.
have vx := SMP_valid hE vu Eu. have [vc Dc] := ScalarMultP_ok hE 0 vx.
case: (computeBipRecursive _ _ _ _ _ _ _ _ _ _ _ _) => [pr0| |] //. case=> <-. rewrite [pp_P _]/=.
have vM := Multiply_valid hE vP vc.
rewrite (value_dl0 vM) (dl_Multiply hE vP vc) D1 Dc zph_0 mul0r addr0. move/eqP. by rewrite oner_eq0.
Qed.
Lemma trivial_ip_ok sha : exists ip', ipVerify E sha trivial_ip = Ok (true, ip').
Proof. Local Transparent ScalarMult Multiply Neg IsZero bmod. by eexists. Qed.
End Y.

Local Opaque ScalarMult Multiply Neg IsZero bmod.
Section W.
Variable E : ext.
Hypothesis hE : ext_ok E.
Lemma g0_exists k ps secret : params_wf ps (pow2 k) -> value (sp_H ps) <> None ->
  exists t pr, tape_ok t (pow2 k) /\ Prove E sha1 secret ps t = Ok pr /\ r_gamma t = 0%Z /\
    (fst (HashBP sha1 (bp_A pr) (bp_S pr)) mod secp_N <> 0)%Z /\
    value (bp_T1 pr) <> None /\ value (bp_T2 pr) <> None /\
    summable (gmul (bp_Tprime pr) gen) (gmul (bp_Taux pr) (value (sp_H ps))).
Proof.
move=> wf nH. case: (wf) => [EN [Lg [Lh [vg [vh vH]]]]]. set H := sp_H ps.
have e0 : dl H != 0 by apply/eqP => /(value_dl0 vH).
set n := pow2 k.
pose T' : FN := ph (secret mod 2 ^ Z.of_nat n)%Z - n%:R * 0 + (- (\sum_(i < n) ph 2%Z ^+ i)).
have [ta ng] := @avoid (dl H) [:: 0; - dl H; T' - dl H] e0 isT.
pose z0 := List.repeat 0%Z n.
pose t := Tape 0 1 z0 z0 1 1 ta.
have tk : tape_ok t n by split; exact: List.repeat_length.
have [pr EP] := @Prove_total E hE sha1 k ps secret t wf tk hash_ok_sha1 (h2p_ok_sha1 SEEDU).
exists t, pr. split; first exact: tk. split; first exact: EP. split; first by [].
have [t1 [t2 [hp [[EP1 EV ET1 ET2] [[vA vS vC Eh] [[Q1 Q2 Q3] [wip [[ip' Eip] [DA DS Dt]]]]]]]]] := Prove_post hE wf tk EP.
have Hz : fst (HashBP sha1 (bp_A pr) (bp_S pr)) = 1%Z by exact: HashBP_sha1.
have Hx : fst (HashBP sha1 (bp_T1 pr) (bp_T2 pr)) = 1%Z by exact: HashBP_sha1.
split; first by rewrite Hz; have B := N_gt1001; rewrite Z.mod_small; [by []|]; clear -B; lia.
have Pz i : pv z0 i = 0.
  rewrite /pv /z0. rewrite List.nth_repeat. exact: zph_0.
have {Dt} [Dt1 Dt2] := Dt Pz Pz.
move: ng. rewrite !inE !negb_or => /and3P [/eqP g1 /eqP g2 /eqP g3].
have Dcm x r : ph x = 0 -> dl (CommitG1 E x r H) = ph r * dl H.
  move=> x0. rewrite (dl_Commit_sum hE vH) ?x0 ?add0r //. left. apply/(dlz_eq0 (on_g x)). by rewrite dlz_gmul.
have v1 := Commit_v hE t1 (r_tau1 t) vH. have v2 := Commit_v hE t2 (r_tau2 t) vH.
have DT' : ph (bp_Tprime pr) = T'.
  rewrite Q2 !Hz ?Hx Dt1 Dt2 /T' ph1N !mulr1 !mul1r subrr mul0r add0r mulr0 subr0 !addr0 ?sub0r ?add0r. by [].
have DTx : ph (bp_Taux pr) = 1 + ph ta.
  by rewrite Q3 !Hz ?Hx /= ph1N zph_0 !mulr1 !mul1r addr0 addrC.
split; first by rewrite ET1 (value_dl0 v1) (Dcm _ _ Dt1) ph1N mul1r => /eqP; rewrite (negbTE e0).
split; first by rewrite ET2 (value_dl0 v2) (Dcm _ _ Dt2).
apply: summable_dl; [exact: on_g|exact: on_gmul|].
rewrite dlz_gmul (dlz_mul _ (on_value vH)) -dlE DT' DTx mulrDl mul1r. right. split.
  move=> X. apply: g2. by rewrite -[LHS](addKr (dl H)) X addr0.
move=> X. apply: g3. by rewrite X addrC addKr.
Qed.

(** C26-C30 have instances at the parameters Setup returns *)
Lemma setup_ex k : (k < 6)%nat -> exists ps, Setup E sha1 (2 ^ 2 ^ Z.of_nat k)%Z = Ok ps /\ params_wf ps (pow2 k) /\ value (sp_H ps) <> None.
Proof.
move=> kk. have I : List.In (2 ^ 2 ^ Z.of_nat k)%Z range_ends.
  do 6 (case: k kk => [|k] kk; [by vm_compute; tauto|]). by [].
have [ps [H1 [H2 [_ [H3 _]]]]] := Setup_ok E sha1 _ h2p_ok_sha1 I. exists ps. split; first exact: H1. split; last exact: H3.
suff -> : pow2 k = Z.to_nat (Z.log2 (2 ^ 2 ^ Z.of_nat k)) by exact: H2.
rewrite Z.log2_pow2; last by apply: Z.pow_nonneg. have -> : (2 = Z.of_nat 2)%Z by []. by rewrite -Nat2Z.inj_pow Nat2Z.id.
Qed.
Lemma generic_ex A B secret : exists params t1 t2 pr, SetupGeneric E sha1 A B = Ok params /\
  tape_ok t1 32 /\ tape_ok t2 32 /\ ProveGeneric E sha1 secret params t1 t2 = Ok pr /\
  nondegenerate sha1 (gpr_P1 pr) /\ nondegenerate sha1 (gpr_P2 pr) /\
  (fst (HashBP sha1 (bp_A (gpr_P1 pr)) (bp_S (gpr_P1 pr))) mod secp_N <> 0)%Z /\
  (fst (HashBP sha1 (bp_A (gpr_P2 pr)) (bp_S (gpr_P2 pr))) mod secp_N <> 0)%Z.
Proof.
have [ps [Es [wf nH]]] := @setup_ex 5 isT. have E32 : (2 ^ 2 ^ Z.of_nat 5)%Z = MAX_RANGE_END by []. rewrite E32 in Es.
have [t1 [pr1 [T1 [P1 [N1 Z1]]]]] := nd_exists hE (secret - B + MAX_RANGE_END)%Z wf nH.
have [t2 [pr2 [T2 [P2 [N2 Z2]]]]] := nd_exists hE (secret - A)%Z wf nH.
exists (GParams A B ps ps), t1, t2, (GProof pr1 pr2). rewrite /SetupGeneric Es.
split; first exact: erefl. split; first exact: T1. split; first exact: T2.
split; last by split; [exact: N1|split; [exact: N2|split; [exact: Z1|exact: Z2]]].
rewrite /ProveGeneric [gp_BP1 _]/= [gp_BP2 _]/= [gp_A _]/= [gp_B _]/= P1 {1}/bind P2. exact: erefl.
Qed.
End W.

Lemma lt_ssr m n : lt m n -> (m < n)%nat. Proof. by move/ltP. Qed.
Lemma one_mod_N : (1 mod secp_N <> 0)%Z.
Proof. have B := N_gt1001. rewrite Z.mod_small; [by []|]. clear -B. lia. Qed.
Lemma HashBP_same sha A S : fst (HashBP sha A S) = snd (HashBP sha A S).
Proof. rewrite HashBP_yz. exact: erefl. Qed.
Lemma IsPowerOfTwo_min : IsPowerOfTwo (- 2 ^ 63)%Z = true /\ int64 (- 2 ^ 63)%Z /\ forall k, (0 <= k -> - 2 ^ 63 <> 2 ^ k)%Z.
Proof.
split; first by []. split; first by rewrite /int64; lia. move=> k k0. have := Z.pow_pos_nonneg 2 k. lia.
Qed.
Section V.
Variable E : ext.
Hypothesis hE : ext_ok E.
Variable sha : list Z -> list Z.
Lemma ip_complete k q a b P pr : ip_params_wf q k -> List.length a = pow2 k -> List.length b = pow2 k -> valid P ->
  commitInnerProduct E (pp_Gg q) (pp_Hh q) a b = Ok P -> (pp_Cc q mod secp_N = dot a b mod secp_N)%Z ->
  proveInnerProduct E sha a b P q = Ok pr -> exists pr', ipVerify E sha pr = Ok (true, pr').
Proof. move=> wf La Lb vP. exact: (bip_complete hE wf La Lb vP). Qed.
Lemma ip_exact k q a b P pr x : ip_params_wf q k -> List.length a = pow2 k -> List.length b = pow2 k -> valid P ->
  commitInnerProduct E (pp_Gg q) (pp_Hh q) a b = Ok P ->
  hashIP sha (pp_Gg q) (pp_Hh q) P (pp_Cc q) (pp_N q) = Ok (Some x) -> (x mod secp_N <> 0)%Z -> value (pp_Uu q) <> None ->
  proveInnerProduct E sha a b P q = Ok pr ->
  exists acc pr', ipVerify E sha pr = Ok (acc, pr') /\ (acc = true <-> (pp_Cc q mod secp_N = dot a b mod secp_N)%Z).
Proof. move=> wf La Lb vP. exact: (bip_exact hE wf La Lb vP). Qed.
Lemma ip_general k q a b P pr x : ip_params_wf q k -> List.length a = pow2 k -> List.length b = pow2 k -> valid P ->
  hashIP sha (pp_Gg q) (pp_Hh q) P (pp_Cc q) (pp_N q) = Ok (Some x) -> proveInnerProduct E sha a b P q = Ok pr ->
  exists acc pr', ipVerify E sha pr = Ok (acc, pr') /\
  (acc = true <-> gadd (value P) (gmul (x * pp_Cc q) (value (pp_Uu q))) =
     gadd (gadd (multiexp (pp_Gg q) a) (multiexp (pp_Hh q) b)) (gmul (x * dot a b) (value (pp_Uu q)))).
Proof. move=> wf La Lb vP. exact: (bip_general hE wf La Lb vP). Qed.
Lemma forge_trivial ps n v A S : params_wf ps n -> lt 0 n -> value (sp_H ps) <> None -> valid A -> valid S ->
  (fst (HashBP sha A S) mod secp_N <> 0)%Z ->
  exists gamma pr pr', (gamma = 1 \/ gamma = 2 \/ gamma = 3)%Z /\ forge E sha ps v gamma A S trivial_ip = Ok pr /\
    bp_Params pr = ps /\ value (bp_V pr) = pedersen v gamma (sp_H ps) /\ Verify E sha pr = Ok (true, pr').
Proof.
move=> wf n0 nH vA vS z0. have [ip' Ei] := trivial_ip_ok E sha. exact: (forge_accepted hE v wf (lt_ssr n0) nH vA vS z0 Ei).
Qed.
Lemma forge_accepted' ps n v A S ip ip' : params_wf ps n -> lt 0 n -> value (sp_H ps) <> None -> valid A -> valid S ->
  (fst (HashBP sha A S) mod secp_N <> 0)%Z -> ipVerify E sha ip = Ok (true, ip') ->
  exists gamma pr pr', (gamma = 1 \/ gamma = 2 \/ gamma = 3)%Z /\ forge E sha ps v gamma A S ip = Ok pr /\
    bp_Params pr = ps /\ value (bp_V pr) = pedersen v gamma (sp_H ps) /\ Verify E sha pr = Ok (true, pr').
Proof. move=> wf n0. exact: (forge_accepted hE v wf (lt_ssr n0)). Qed.
Lemma halves_differ ps s1 s2 t1 t2 pr1 pr2 : params_wf ps 32 -> tape_ok t1 32 -> tape_ok t2 32 ->
  Prove E sha s1 ps t1 = Ok pr1 -> Prove E sha s2 ps t2 = Ok pr2 ->
  (0 <= s1 < 2 ^ 32)%Z -> (0 <= s2 < 2 ^ 32)%Z -> nondegenerate sha pr1 -> nondegenerate sha pr2 ->
  exists pr', VerifyGeneric E sha (GProof pr1 pr2) = Ok (true, pr').
Proof.
move=> wf T1 T2 P1 P2 R1 R2 N1 N2.
have [pr1' V1] := @honest_complete E hE sha 5 ps s1 t1 pr1 wf T1 P1 R1 N1.
have [pr2' V2] := @honest_complete E hE sha 5 ps s2 t2 pr2 wf T2 P2 R2 N2.
eexists. exact: (generic_unbound _ _ _ _ _ _ V1 V2).
Qed.
End V.
Lemma verify_repeatable_refuted E : ext_ok E -> exists sha pr pr' pr'',
  ip_wf pr /\ ipVerify E sha pr = Ok (true, pr') /\ ipVerify E sha pr' = Ok (false, pr'').
Proof.
move=> hE. have [pr [pr' [wf [Ev nP]]]] := repeat_ex hE.
have [_ [b2 [pr2 [E2 [H _]]]]] := verify_repeat hE wf Ev.
exists sha1, pr, pr', pr2. split; first exact: wf. split; first exact: Ev. rewrite E2. case: b2 H {E2} => // [[H _]].
by case: (nP (H erefl)).
Qed.
