(** * The inner product argument *)
From Coq Require Import ZArith Znumtheory List Bool Lia.
From mathcomp Require Import all_ssreflect all_algebra.
From Verif Require Import Base BaseFacts ByteConv MCRing ZField P256 Pedersen SpecSecp SecpGroup SecpProofs SecpDL SecpLaws Vector Bulletproofs SpecBP VecProofs.
Set Implicit Arguments.
Unset Strict Implicit.
Unset Printing Implicit Defensive.
Import GRing.Theory.
Local Open Scope ring_scope.
Delimit Scope Z_scope with Z.
Local Arguments Z.mul : simpl never.
Local Arguments Z.add : simpl never.
Local Arguments Z.sub : simpl never.
Local Arguments Z.modulo : simpl never.
Local Arguments Z.of_nat : simpl never.
Local Arguments Z.quot : simpl never.
Local Opaque secp_P secp_N secp_Gx secp_Gy ORDER value valid dl Multiply ScalarMult ScalarBaseMult Add Neg CommitG1 bmod ModInverse HashBP IsZero.
Local Notation ph := (zph zfN).

Section Alg.
Variable F : fieldType.
Add Field Ff : (mc_field F).
Lemma fold_id (g1 g2 h1 h2 a1 a2 b1 b2 u x : F) : x <> 0 ->
  (x^-1 * g1 + x * g2) * (a1 * x + a2 * x^-1) + (x * h1 + x^-1 * h2) * (b1 * x^-1 + b2 * x)
  + u * ((a1 * x + a2 * x^-1) * (b1 * x^-1 + b2 * x))
  = (g1 * a1 + h1 * b1 + u * (a1 * b1)) + (g2 * a2 + h2 * b2 + u * (a2 * b2))
    + (g2 * a1 + h1 * b2 + u * (a1 * b2)) * (x * x) + (g1 * a2 + h2 * b1 + u * (a2 * b1)) * (x * x)^-1.
Proof. move=> x0. by mcf F. Qed.
(** sum of g_i a_i + h_i b_i + u a_i b_i *)
Definition defect n (g h a b : nat -> F) (u : F) : F :=
  \sum_(i < n) g i * a i + \sum_(i < n) h i * b i + u * \sum_(i < n) a i * b i.
Lemma defectE n g h a b u : defect n g h a b u = \sum_(i < n) (g i * a i + h i * b i + u * (a i * b i)).
Proof. by rewrite /defect mulr_sumr -!big_split. Qed.
Lemma defect_fold m (g h a b g' h' a' b' : nat -> F) (u x : F) : x <> 0 ->
  (forall i, (i < m)%nat -> g' i = x^-1 * g i + x * g (m + i)%nat) ->
  (forall i, (i < m)%nat -> h' i = x * h i + x^-1 * h (m + i)%nat) ->
  (forall i, (i < m)%nat -> a' i = a i * x + a (m + i)%nat * x^-1) ->
  (forall i, (i < m)%nat -> b' i = b i * x^-1 + b (m + i)%nat * x) ->
  defect m g' h' a' b' u = defect (m + m) g h a b u
   + defect m (fun i => g (m + i)%nat) h a (fun i => b (m + i)%nat) u * (x * x)
   + defect m g (fun i => h (m + i)%nat) (fun i => a (m + i)%nat) b u * (x * x)^-1.
Proof.
move=> x0 G H A B. rewrite !defectE big_split_ord /= !mulr_suml -!big_split /=.
apply: eq_bigr => i _. rewrite G // H // A // B //. exact: fold_id.
Qed.
Lemma defect_ext n (g h a b g' h' a' b' : nat -> F) u :
  (forall i, (i < n)%nat -> g i = g' i) -> (forall i, (i < n)%nat -> h i = h' i) ->
  (forall i, (i < n)%nat -> a i = a' i) -> (forall i, (i < n)%nat -> b i = b' i) ->
  defect n g h a b u = defect n g' h' a' b' u.
Proof. move=> G H A B. rewrite !defectE. apply: eq_bigr => i _. by rewrite G ?H ?A ?B. Qed.
Lemma ring1 (q l r p : F) : q + l + r - q = p + (l + r) - p.
Proof. by mcfr F. Qed.
Lemma ring2 (D l r p : F) : D + l + r - (p + (l + r)) = D - p.
Proof. by mcfr F. Qed.
Lemma ring3 (d1 d2 p p' q q' : F) : d1 - p' = d2 - p -> q' - q = p' - p -> d1 - q' = d2 - q.
Proof.
move=> /eqP. rewrite subr_eq => /eqP ->. move/eqP. rewrite subr_eq => /eqP ->. by mcfr F.
Qed.
Lemma ring4 (a q l r b p : F) : a - (q + l + r) = b - (p + l + r) -> a - q = b - p.
Proof.
move=> H. have -> : a - q = a - (q + l + r) + (l + r) by mcfr F. rewrite H. by mcfr F.
Qed.
Lemma ring5 (r q p : F) : r - q = r - (q - p) - p.
Proof. by mcfr F. Qed.
End Alg.

Lemma slice_ok A (l : list A) m : List.length l = (m + m)%nat ->
  slice_to l (Z.of_nat m) = Ok (List.firstn m l) /\ slice_from l (Z.of_nat m) = Ok (List.skipn m l) /\
  List.length (List.firstn m l) = m /\ List.length (List.skipn m l) = m.
Proof.
move=> L. have L' : len l = Z.of_nat (m + m) by rewrite /len L.
have C : ((0 <=? Z.of_nat m)%Z && (Z.of_nat m <=? len l)%Z) = true.
  rewrite L'. apply/andP. split; apply/Z.leb_le; rewrite -?plusE; lia.
rewrite /slice_to /slice_from C Nat2Z.id. do 2 split=> //.
split; first by rewrite List.firstn_length L -plusE; lia.
rewrite List.skipn_length L -plusE. lia.
Qed.
Lemma firstn_nth A (l : list A) m i d : (i < m)%nat -> List.nth i (List.firstn m l) d = List.nth i l d.
Proof. elim: l m i => [|x l IH] [|m] [|i] //= H. exact: IH. Qed.
Lemma skipn_nth A (l : list A) m i d : List.nth i (List.skipn m l) d = List.nth (m + i) l d.
Proof. elim: l m i => [|x l IH] [|m] [|i] //=; by [rewrite IH | rewrite addn0 IH //]. Qed.
Lemma pv_firstn l m i : (i < m)%nat -> pv (List.firstn m l) i = pv l i.
Proof. move=> H. by rewrite /pv firstn_nth. Qed.
Lemma pv_skipn l m i : pv (List.skipn m l) i = pv l (m + i).
Proof. by rewrite /pv skipn_nth. Qed.
Lemma dv_firstn l m i : (i < m)%nat -> dv (List.firstn m l) i = dv l i.
Proof. move=> H. by rewrite /dv firstn_nth. Qed.
Lemma dv_skipn l m i : dv (List.skipn m l) i = dv l (m + i).
Proof. by rewrite /dv skipn_nth. Qed.
Lemma allv_split l m : allv l -> allv (List.firstn m l) /\ allv (List.skipn m l).
Proof. rewrite -{1}(List.firstn_skipn m l) => /List.Forall_app. by []. Qed.
Lemma quot_half m : Z.quot (Z.of_nat (m + m)) 2 = Z.of_nat m.
Proof. rewrite -plusE Nat2Z.inj_add Z.add_diag Z.mul_comm. by rewrite Z.quot_mul. Qed.

Section E.
Variable E : ext.
Hypothesis hE : ext_ok E.
Variable sha : list Z -> list Z.

Lemma vse_ok l x : allv l -> exists l', vectorScalarExp E l (Some x) = Ok l' /\
  List.length l' = List.length l /\ allv l' /\ forall i, dv l' i = ph x * dv l i.
Proof.
elim=> [|p l' vp _ [r [Er [Lr [vr Dr]]]]] /=.
  exists nil. do 2 split=> //. split; first exact: List.Forall_nil. move=> i. by rewrite !dv_nil mulr0.
rewrite Er /=. eexists. split; first exact: erefl. split; first by rewrite /= Lr.
have [v D] := ScalarMultP_ok hE x vp.
split; first exact: (List.Forall_cons _ v vr). case=> [|i]; rewrite /dv /=; [exact: D|exact: Dr].
Qed.

Lemma vse_noErr l x : vectorScalarExp E l x <> Err.
Proof.
elim: l => [|p l IH] //=. case: x IH => [x|] IH /=.
  by case: (vectorScalarExp E l (Some x)) IH.
by case: (IsZero p) => //=; case: (vectorScalarExp E l None) IH.
Qed.
(** folding a pair of halves of generators *)
Lemma fold_gens g m x y : List.length g = (m + m)%nat -> allv g ->
  exists gp gp2 g', vectorScalarExp E (List.firstn m g) (Some x) = Ok gp /\
   vectorScalarExp E (List.skipn m g) (Some y) = Ok gp2 /\ ign_vec (VectorECAdd E gp gp2) = Ok g' /\
   List.length g' = m /\ allv g' /\
   forall i, (i < m)%nat -> dv g' i = ph x * dv g i + ph y * dv g (m + i).
Proof.
move=> L v. have [v1 v2] := allv_split m v. have [_ [_ [L1 L2]]] := slice_ok L.
have [gp [E1 [Lp [vp Dp]]]] := vse_ok x v1. have [gq [E2 [Lq [vq Dq]]]] := vse_ok y v2.
have Lpq : List.length gp = List.length gq by rewrite Lp Lq L1 L2.
have [g' [E3 [L' [v' D']]]] := VectorECAdd_ok hE Lpq vp vq.
exists gp, gq, g'. rewrite E1 E2 E3. do 3 split=> //. split; first by rewrite L' Lp.
split; first exact: v'. move=> i Hi. by rewrite D' Dp Dq dv_firstn // dv_skipn.
Qed.
Lemma fold_vec a m x y : List.length a = (m + m)%nat ->
  exists ap ap2 a', VectorScalarMul (List.firstn m a) (Some x) = Ok ap /\
   VectorScalarMul (List.skipn m a) (Some y) = Ok ap2 /\ ign_vec (VectorAdd ap ap2) = Ok a' /\
   List.length a' = m /\ forall i, (i < m)%nat -> pv a' i = pv a i * ph x + pv a (m + i) * ph y.
Proof.
move=> L. have [_ [_ [L1 L2]]] := slice_ok L.
have [ap [E1 [Lp Dp]]] := VectorScalarMul_ok (List.firstn m a) x.
have [aq [E2 [Lq Dq]]] := VectorScalarMul_ok (List.skipn m a) y.
have Lpq : List.length ap = List.length aq by rewrite Lp Lq L1 L2.
have [a' [E3 [L' D']]] := VectorAdd_ok Lpq.
exists ap, aq, a'. rewrite E1 E2 E3. do 3 split=> //. split; first by rewrite L' Lp.
move=> i Hi. by rewrite D' Dp Dq pv_firstn // pv_skipn.
Qed.
(** g^a h^b u^<a,b> for vectors of length m *)
Lemma cross g h a b u m : List.length g = m -> List.length h = m -> List.length a = m -> List.length b = m ->
  allv g -> allv h -> valid u ->
  exists c G H, ign_ptr (ScalarProduct a b) = Ok (Some c) /\ must (VectorExp E g a) = Ok G /\
    must (VectorExp E h b) = Ok H /\
    valid (Multiply E (Multiply E G H) (ScalarMult E u c)) /\
    dl (Multiply E (Multiply E G H) (ScalarMult E u c)) = defect m (dv g) (dv h) (pv a) (pv b) (dl u).
Proof.
move=> Lg Lh La Lb vg vh vu.
have [c [Ec [Dc _]]] := ScalarProduct_ok (etrans La (esym Lb)).
have [G [EG [vG DG]]] := VectorExp_ok hE (etrans Lg (esym La)) vg.
have [H [EH [vH DH]]] := VectorExp_ok hE (etrans Lh (esym Lb)) vh.
exists c, G, H. rewrite Ec EG EH. do 3 split=> //.
have [vu' Du] := ScalarMultP_ok hE c vu. have v1 := Multiply_valid hE vG vH.
split; first exact: (Multiply_valid hE). rewrite !(dl_Multiply hE) // DG DH Du Dc La Lg Lh /defect.
by rewrite [_ * dl u]mulrC.
Qed.
Lemma neq0_nat m : (0 < m)%nat -> (Z.of_nat (m + m) =? 1)%Z = false.
Proof. move=> m0. apply/Z.eqb_neq. rewrite -plusE. move/ltP: m0. lia. Qed.
Lemma ph_sq x : ph (bmod (x * x) ORDER) = ph x * ph x.
Proof. by rewrite ph_bmod zph_mul. Qed.
Definition set_N (n : Z) (pr : ip_proof) : ip_proof :=
  IPProof n (ip_Ls pr) (ip_Rs pr) (ip_U pr) (ip_P pr) (ip_Gg pr) (ip_Hh pr) (ip_A pr) (ip_B pr) (ip_Params pr).

(** one round of the recursion and of the verifier's loop *)
Lemma round fuel a b g h u P m Ls Rs : (0 < m)%nat ->
  List.length a = (m + m)%nat -> List.length b = (m + m)%nat ->
  List.length g = (m + m)%nat -> List.length h = (m + m)%nat ->
  allv g -> allv h -> valid u -> valid P ->
  exists L R, valid L /\ valid R /\ let x := ph (fst (HashBP sha L R)) in
   (x = 0 -> computeBipRecursive E sha (S fuel) a b g h u P (Z.of_nat (m + m)) Ls Rs = Panic) /\
   (x != 0 -> exists a' b' g' h' P',
     [/\ List.length a' = m, List.length b' = m, List.length g' = m & List.length h' = m] /\
     [/\ allv g', allv h' & valid P'] /\
     computeBipRecursive E sha (S fuel) a b g h u P (Z.of_nat (m + m)) Ls Rs =
       bind (computeBipRecursive E sha fuel a' b' g' h' u P' (Z.of_nat m) (Ls ++ [:: L])%list (Rs ++ [:: R])%list)
            (fun pr => Ok (set_N (Z.of_nat (m + m)) pr)) /\
     (forall Q, valid Q -> exists Q', valid Q' /\ dl Q' - dl Q = dl P' - dl P /\
        forall ls rs, ipVerify_loop E sha (L :: ls) (R :: rs) (Z.of_nat (m + m)) g h Q =
                      ipVerify_loop E sha ls rs (Z.of_nat m) g' h' Q') /\
     defect m (dv g') (dv h') (pv a') (pv b') (dl u) - dl P' =
     defect (m + m) (dv g) (dv h) (pv a) (pv b) (dl u) - dl P).
Proof.
move=> m0 La Lb Lg Lh vg vh vu vP.
have [Sa1 [Sa2 [La1 La2]]] := slice_ok La. have [Sb1 [Sb2 [Lb1 Lb2]]] := slice_ok Lb.
have [Sg1 [Sg2 [Lg1 Lg2]]] := slice_ok Lg. have [Sh1 [Sh2 [Lh1 Lh2]]] := slice_ok Lh.
have [vg1 vg2] := allv_split m vg. have [vh1 vh2] := allv_split m vh.
have [cL [LG [LH [EcL [ELG [ELH [vL DL]]]]]]] := cross Lg2 Lh1 La1 Lb2 vg2 vh1 vu.
have [cR [RG [RH [EcR [ERG [ERH [vR DR]]]]]]] := cross Lg1 Lh2 La2 Lb1 vg1 vh2 vu.
set L := Multiply E (Multiply E LG LH) (ScalarMult E u cL) in vL DL.
set R := Multiply E (Multiply E RG RH) (ScalarMult E u cR) in vR DR.
exists L, R. split; first exact: vL. split; first exact: vR. move=> x0.
rewrite /computeBipRecursive -/(computeBipRecursive E sha fuel) (neq0_nat m0) quot_half.
rewrite Sa1 Sa2 Sb1 Sb2 Sg1 Sg2 Sh1 Sh2 /bind EcL EcR ELG ELH ERG ERH /ScalarMultP -/L -/R.
move: (erefl x0). rewrite {2}/x0. move: x0 => xF. have [x Ex] : exists x, fst (HashBP sha L R) = x by eexists.
rewrite Ex => ExF.
split=> X.
  have Z0 : ph x = 0 by rewrite -ExF.
  case: (ModInverse_cases x) => [[i _ [_ /eqP H]]|[-> _]]; first by case: H.
  have n1 : List.skipn m a <> nil by move=> H; move: La2 m0; rewrite H /= => <-.
  have [gq [-> _]] := vse_ok x vg2. have [hq [-> _]] := vse_ok x vh1.
  have [ap [-> _]] := VectorScalarMul_ok (List.firstn m a) x. rewrite (VectorScalarMul_nil n1).
  case E1 : (vectorScalarExp E (List.firstn m g) None) => [gp| |]; [|by case: (vse_noErr E1)|exact: erefl].
  case E2 : (vectorScalarExp E (List.skipn m h) None) => [hp| |];
    [|by case: (vse_noErr E2)|by case: (VectorECAdd E gp gq)].
  case: (ModInverse _ _) => [j|]; [|case: (IsZero R)]; case: (VectorECAdd E gp gq) => [g'| |]; try exact: erefl;
    case: (VectorECAdd E hq hp) => [h'| |]; exact: erefl.
have {X} x0 : ph x != 0 by rewrite -ExF.
case: (ModInverse_cases x) => [[y Ey [Py _]]|[_ /eqP H]]; last by rewrite (negbTE x0) in H.
case: (ModInverse_cases (bmod (x * x) ORDER)) => [[y2 Ey2 [Py2 _]]|[_ /eqP H]]; last first.
  by rewrite ph_sq mulf_eq0 (negbTE x0) in H.
rewrite ph_sq in Py2.
have [gp [gp2 [g' [G1 [G2 [G3 [Lg' [vg' Dg']]]]]]]] := fold_gens y x Lg vg.
have [hp [hp2 [h' [H1 [H2 [H3 [Lh' [vh' Dh']]]]]]]] := fold_gens x y Lh vh.
have [ap [ap2 [a' [A1 [A2 [A3 [La' Da']]]]]]] := fold_vec x y La.
have [bp [bp2 [b' [B1 [B2 [B3 [Lb' Db']]]]]]] := fold_vec y x Lb.
have [vLx DLx] := ScalarMultP_ok hE (bmod (x * x) ORDER) vL. have [vRx DRx] := ScalarMultP_ok hE y2 vR.
rewrite ph_sq in DLx. rewrite Py2 in DRx.
have vP1 := Multiply_valid hE vLx vP. have vP2 := Multiply_valid hE vP1 vRx.
exists a', b', g', h', (Multiply E (Multiply E (ScalarMult E L (bmod (x * x) ORDER)) P) (ScalarMult E R y2)).
split; first by split. split; first by split. rewrite Ey Ey2 G1 G2 G3 H1 H2 H3 A1 A2 A3 B1 B2 B3.
split; first exact: erefl.
have DP : dl (Multiply E (Multiply E (ScalarMult E L (bmod (x * x) ORDER)) P) (ScalarMult E R y2)) =
   dl P + (dl L * (ph x * ph x) + dl R * (ph x * ph x)^-1).
  rewrite (dl_Multiply hE) // (dl_Multiply hE) // DLx DRx [_ * dl L]mulrC [_ * dl R]mulrC.
  by rewrite [_ + dl P]addrC addrA.
split.
  move=> Q vQ. have vQ1 := Multiply_valid hE vQ vLx. have vQ2 := Multiply_valid hE vQ1 vRx.
  exists (Multiply E (Multiply E Q (ScalarMult E L (bmod (x * x) ORDER))) (ScalarMult E R y2)).
  split; first exact: vQ2. split.
    rewrite DP (dl_Multiply hE) // (dl_Multiply hE) // DLx DRx [_ * dl L]mulrC [_ * dl R]mulrC.
    exact: ring1.
  move=> ls rs. rewrite {1}/ipVerify_loop -/(ipVerify_loop E sha) quot_half Sg1 Sg2 Sh1 Sh2 Ex /bind Ey Ey2.
  by rewrite G1 G2 G3 H1 H2 H3.
rewrite DP DL DR.
have /eqP x0' := x0.
rewrite (defect_fold (g := dv g) (h := dv h) (a := pv a) (b := pv b) (x := ph x) (dl u) x0');
  last 4 first.
- by move=> i Hi; rewrite Dg' // Py.
- by move=> i Hi; rewrite Dh' // Py.
- by move=> i Hi; rewrite Da' // Py.
- by move=> i Hi; rewrite Db' // Py.
have -> : defect m (dv (List.skipn m g)) (dv (List.firstn m h)) (pv (List.firstn m a)) (pv (List.skipn m b)) (dl u) =
  defect m (fun i => dv g (m + i)) (dv h) (pv a) (fun i => pv b (m + i)) (dl u).
  by apply: defect_ext => i Hi; rewrite ?dv_skipn ?dv_firstn ?pv_skipn ?pv_firstn.
have -> : defect m (dv (List.firstn m g)) (dv (List.skipn m h)) (pv (List.skipn m a)) (pv (List.firstn m b)) (dl u) =
  defect m (dv g) (fun i => dv h (m + i)) (fun i => pv a (m + i)) (pv b) (dl u).
  by apply: defect_ext => i Hi; rewrite ?dv_skipn ?dv_firstn ?pv_skipn ?pv_firstn.
exact: ring2.
Qed.
Local Notation pow2 := (Nat.pow 2).
Lemma pow2S k : pow2 (S k) = (pow2 k + pow2 k)%nat.
Proof. rewrite /= -plusE. lia. Qed.
Lemma pow2_pos k : (0 < pow2 k)%nat.
Proof. elim: k => [|k IH] //. by rewrite pow2S addn_gt0 IH. Qed.
Lemma pow2_1 k : (0 < k)%nat -> (Z.of_nat (pow2 k) =? 1)%Z = false.
Proof. case: k => [|k] // _. rewrite pow2S. apply: neq0_nat. exact: pow2_pos. Qed.

Definition bip_post (k : nat) (g h : list point) (a b : list Z) (u P : point) (Ls Rs : list point) (pr : ip_proof) : Prop :=
  exists ls rs, [/\ ip_Ls pr = (Ls ++ ls)%list, ip_Rs pr = (Rs ++ rs)%list, ip_N pr = Z.of_nat (pow2 k) & ip_U pr = u] /\
   [/\ List.length ls = k, List.length rs = k, allv ls & allv rs] /\
   forall Q, valid Q -> exists g0 h0 Q', ipVerify_loop E sha ls rs (Z.of_nat (pow2 k)) g h Q = Ok ([:: g0], [:: h0], Q') /\
     [/\ valid g0, valid h0 & valid Q'] /\
     dl g0 * ph (ip_A pr) + dl h0 * ph (ip_B pr) + dl u * (ph (ip_A pr) * ph (ip_B pr)) - dl Q' =
     defect (pow2 k) (dv g) (dv h) (pv a) (pv b) (dl u) - dl Q.

Lemma bip_main k : forall fuel a b g h u P Ls Rs pr,
  List.length a = pow2 k -> List.length b = pow2 k -> List.length g = pow2 k -> List.length h = pow2 k ->
  allv g -> allv h -> valid u -> valid P ->
  computeBipRecursive E sha fuel a b g h u P (Z.of_nat (pow2 k)) Ls Rs = Ok pr ->
  bip_post k g h a b u P Ls Rs pr.
Proof.
elim: k => [|k IH] fuel a b g h u P Ls Rs pr La Lb Lg Lh vg vh vu vP; case: fuel => [//|fuel].
  case: a La => [|a0 [|? ?]] // _. case: b Lb => [|b0 [|? ?]] // _.
  case: g Lg vg => [|g0 [|? ?]] // _ vg. case: h Lh vh => [|h0 [|? ?]] // _ vh.
  rewrite /= => -[<-]. exists nil, nil. rewrite /= !List.app_nil_r. split; first by [].
  split; first by split=> //; apply: List.Forall_nil.
  move=> Q vQ. exists g0, h0, Q. split; first by []. split.
    split; [by case/List.Forall_cons_iff: vg|by case/List.Forall_cons_iff: vh|exact: vQ].
  by rewrite /defect !big_ord1 /dv /pv.
move: La Lb Lg Lh. rewrite /bip_post !pow2S => La Lb Lg Lh.
have [L [R [vL [vR [X0 X1]]]]] := round fuel Ls Rs (pow2_pos k) La Lb Lg Lh vg vh vu vP.
case: (eqVneq (ph (fst (HashBP sha L R))) 0) => [/X0 ->//|/X1].
move=> [a' [b' [g' [h' [P' [[La' Lb' Lg' Lh'] [[vg' vh' vP'] [-> [V D]]]]]]]]].
case C : (computeBipRecursive _ _ _ _ _ _ _ _ _ _ _ _) => [pr'| |] //= [<-].
have [ls [rs [[E1 E2 E3 E4] [[L1 L2 v1 v2] H]]]] := IH _ _ _ _ _ _ _ _ _ _ La' Lb' Lg' Lh' vg' vh' vu vP' C.
exists (L :: ls), (R :: rs). split.
  split=> //=; [by rewrite E1 -List.app_assoc|by rewrite E2 -List.app_assoc].
split; first by split; rewrite /= ?L1 ?L2 //; apply: List.Forall_cons.
move=> Q vQ. have [Q' [vQ' [DQ EQ]]] := V Q vQ. have [g0 [h0 [Q2 [EL [[w1 w2 w3] DD]]]]] := H Q' vQ'.
exists g0, h0, Q2. rewrite EQ. split; first exact: EL. split; first by split.
rewrite DD. exact: ring3 D DQ.
Qed.

(** ** Verify as a function of the stored point *)
Lemma dl_Neg P : valid P -> valid (Neg E P P) /\ dl (Neg E P P) = - dl P.
Proof.
move=> v. have H := Neg_in_place hE v. have o : valid (Neg E P P).
  Local Transparent valid. rewrite /valid H. exact: on_gneg. Local Opaque valid.
split; first exact: o. Local Transparent dl. rewrite /dl H. exact: dlz_neg. Local Opaque dl.
Qed.
Lemma IsZero_dl P : valid P -> IsZero P = (dl P == 0). Proof. exact: dl_IsZero. Qed.

Lemma slice_allv l k l1 : allv l -> slice_to l k = Ok l1 -> allv l1.
Proof.
move=> v. rewrite /slice_to. case: ifP => // _ [<-]. by have [] := allv_split (Z.to_nat k) v.
Qed.
Lemma slice_from_allv l k l1 : allv l -> slice_from l k = Ok l1 -> allv l1.
Proof.
move=> v. rewrite /slice_from. case: ifP => // _ [<-]. by have [] := allv_split (Z.to_nat k) v.
Qed.
Lemma vse_allv l x l1 : allv l -> vectorScalarExp E l x = Ok l1 -> allv l1.
Proof.
move=> v. elim: v l1 => [|p l' vp _ IH] l1 /=; first by move=> [<-]; apply: List.Forall_nil.
case: x IH => [x|] IH /=.
  case E1 : (vectorScalarExp E l' (Some x)) => [r| |] //= [<-].
  apply: List.Forall_cons; last exact: IH E1. by have [] := ScalarMultP_ok hE x vp.
case: (IsZero p) => //=. case E1 : (vectorScalarExp E l' None) => [r| |] //= [<-].
apply: List.Forall_cons; last exact: IH E1. exact: valid_None.
Qed.
Lemma ecadd_allv a b c : allv a -> allv b -> ign_vec (VectorECAdd E a b) = Ok c -> allv c.
Proof.
move=> va vb. case: (Nat.eq_dec (List.length a) (List.length b)) => L.
  have [c' [-> [_ [v _]]]] := VectorECAdd_ok hE L va vb. by move=> /= [<-].
rewrite /VectorECAdd (len_neq L) /= => -[<-]. exact: List.Forall_nil.
Qed.
Lemma SMP_valid P x Q : valid P -> ScalarMultP E P x = Ok Q -> valid Q.
Proof.
move=> v. case: x => [x|] /=; first by move=> [<-]; have [] := ScalarMultP_ok hE x v.
by case: (IsZero P) => // -[<-]; exact: valid_None.
Qed.

Lemma loop_affine Ls : forall Rs n g h Q g' h' Q', allv Ls -> allv Rs -> allv g -> allv h -> valid Q ->
  ipVerify_loop E sha Ls Rs n g h Q = Ok (g', h', Q') ->
  [/\ allv g', allv h' & valid Q'] /\
  forall Q2, valid Q2 -> exists Q2', ipVerify_loop E sha Ls Rs n g h Q2 = Ok (g', h', Q2') /\ valid Q2' /\
    dl Q2' - dl Q2 = dl Q' - dl Q.
Proof.
elim: Ls => [|L Ls IH] Rs n g h Q g' h' Q' vLs vRs vg vh vQ /=.
  move=> [<- <- <-]. split; first by split. move=> Q2 v2. exists Q2. split=> //. split=> //. by rewrite !subrr.
case/List.Forall_cons_iff: vLs => vL vLs.
case: Rs vRs => [//|R Rs] /List.Forall_cons_iff [vR vRs].
have [x Ex] : exists x, fst (HashBP sha L R) = x by eexists.
rewrite Ex. 
case E1 : (slice_to g _) => [gL| |] //=. case E2 : (slice_from g _) => [gR| |] //=.
case E3 : (vectorScalarExp E gL _) => [gp| |] //=. case E4 : (vectorScalarExp E gR _) => [gp2| |] //=.
case E5 : (ign_vec (VectorECAdd E gp gp2)) => [g1| |] //=.
case E6 : (slice_to h _) => [hL| |] //=. case E7 : (slice_from h _) => [hR| |] //=.
case E8 : (vectorScalarExp E hL _) => [hp| |] //=. case E9 : (vectorScalarExp E hR _) => [hp2| |] //=.
case E10 : (ign_vec (VectorECAdd E hp hp2)) => [h1| |] //=.
case E11 : (ScalarMultP E R _) => [Rx| |] //=.
have vg1 : allv g1.
  by apply: (ecadd_allv _ _ E5); [apply: (vse_allv _ E3); apply: (slice_allv _ E1)|apply: (vse_allv _ E4); apply: (slice_from_allv _ E2)].
have vh1 : allv h1.
  by apply: (ecadd_allv _ _ E10); [apply: (vse_allv _ E8); apply: (slice_allv _ E6)|apply: (vse_allv _ E9); apply: (slice_from_allv _ E7)].
have vRx := SMP_valid vR E11. have [vLx _] := ScalarMultP_ok hE (bmod (x * x) ORDER) vL.
have st q : valid q -> valid (Multiply E (Multiply E q (ScalarMult E L (bmod (x * x) ORDER))) Rx) /\
    dl (Multiply E (Multiply E q (ScalarMult E L (bmod (x * x) ORDER))) Rx) =
    dl q + dl (ScalarMult E L (bmod (x * x) ORDER)) + dl Rx.
  move=> vq. have v1 := Multiply_valid hE vq vLx. split; first exact: (Multiply_valid hE).
  by rewrite (dl_Multiply hE) // (dl_Multiply hE).
have [vQ1 DQ1] := st Q vQ. move=> H.
have [W A] := IH _ _ _ _ _ _ _ _ vLs vRs vg1 vh1 vQ1 H. split; first exact: W.
move=> Q2 v2. have [vQ2 DQ2] := st Q2 v2. have [Q2' [E2' [v2' D2']]] := A _ vQ2.
exists Q2'. split; first exact: E2'. split; first exact: v2'. move: D2'. rewrite DQ1 DQ2. exact: ring4.
Qed.

(** the quantity that Verify compares with infinity is a constant of the proof
    minus the stored point *)
Lemma ipVerify_state pr b pr' : ip_wf pr -> ipVerify E sha pr = Ok (b, pr') ->
  exists kappa : FN, [/\ valid (pp_P (ip_Params pr')), dl (pp_P (ip_Params pr')) = kappa - dl (pp_P (ip_Params pr)),
     b = (kappa - dl (pp_P (ip_Params pr)) == 0) & pr' = set_P pr (pp_P (ip_Params pr'))] /\
   forall Q, valid Q -> exists Q', ipVerify E sha (set_P pr Q) = Ok (kappa - dl Q == 0, set_P pr Q') /\
     valid Q' /\ dl Q' = kappa - dl Q.
Proof.
move=> [vLs [vRs [vU [vg [vh vP]]]]]. rewrite /ipVerify.
case EL : (ipVerify_loop _ _ _ _ _ _ _ _) => [[[g' h'] Q']| |] //=.
case Eg : (index g' 0) => [g0| |] //=. case Eh : (index h' 0) => [h0| |] //= [Eb Epr].
have [[vg' vh' vQ'] A] := loop_affine vLs vRs vg vh vP EL.
have vg0 : valid g0 by move: Eg vg'; case: (g') => [|? ?] // [<-] /List.Forall_cons_iff [].
have vh0 : valid h0 by move: Eh vh'; case: (h') => [|? ?] // [<-] /List.Forall_cons_iff [].
move: Eb Epr. set rhs := Multiply E (Multiply E (ScalarMult E g0 (ip_A pr)) _) _ => Eb Epr.
have vrhs : valid rhs.
  have [v1 _] := ScalarMultP_ok hE (ip_A pr) vg0. have [v2 _] := ScalarMultP_ok hE (ip_B pr) vh0.
  have [v3 _] := ScalarMultP_ok hE (bmod (ip_A pr * ip_B pr) ORDER) vU.
  apply: (Multiply_valid hE) => //. exact: (Multiply_valid hE).
have fin q : valid q -> valid (Multiply E (Neg E q q) rhs) /\ dl (Multiply E (Neg E q q) rhs) = dl rhs - dl q.
  move=> vq. have [vn Dn] := dl_Neg vq. split; first exact: (Multiply_valid hE).
  by rewrite (dl_Multiply hE) // Dn addrC.
have [vF DF] := fin _ vQ'.
exists (dl rhs - (dl Q' - dl (pp_P (ip_Params pr)))). rewrite -Epr /=. split.
  have K : dl rhs - dl Q' = dl rhs - (dl Q' - dl (pp_P (ip_Params pr))) - dl (pp_P (ip_Params pr)) by exact: ring5.
  split=> //; first by rewrite DF. by rewrite -Eb (IsZero_dl vF) DF K.
move=> Q vQ. have [Q2 [E2 [v2 D2]]] := A Q vQ. have [vF2 DF2] := fin _ v2.
rewrite E2 /= Eg Eh /= -/rhs. exists (Multiply E (Neg E Q2 Q2) rhs).
have K : dl rhs - dl Q2 = dl rhs - (dl Q' - dl (pp_P (ip_Params pr))) - dl Q by rewrite -D2; exact: ring5.
split; first by rewrite (IsZero_dl vF2) DF2 K /set_P /=. split; first exact: vF2. by rewrite DF2 K.
Qed.
End E.
