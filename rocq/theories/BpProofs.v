(** * The range proof: what Prove computes and what Verify checks *)
From Coq Require Import ZArith Znumtheory List Bool Lia.
From mathcomp Require Import all_ssreflect all_algebra.
From Verif Require Import Base BaseFacts ByteConv Util SpecCodec CodecProofs MCRing SpecCurve ZField P256 Pedersen SpecSecp SecpGroup SecpProofs SecpDL SecpLaws Vector Bulletproofs SpecBP VecProofs BipProofs BipLaws.
Set Implicit Arguments.
Unset Strict Implicit.
Unset Printing Implicit Defensive.
Import GRing.Theory.
Local Open Scope ring_scope.
Delimit Scope Z_scope with Z.
Local Arguments Z.mul : simpl never.
Local Arguments Z.add : simpl never.
Local Arguments Z.sub : simpl never.
Local Arguments Z.modulo : simpl never.
Local Arguments Z.of_nat : simpl never.
Local Arguments Z.quot : simpl never.
Local Opaque secp_P secp_N secp_Gx secp_Gy ORDER value valid dl Multiply ScalarMult ScalarBaseMult Add Neg CommitG1 bmod ModInverse HashBP IsZero gadd gmul.
Local Notation ph := (zph zfN).
Local Notation pow2 := (Nat.pow 2).

Section Alg.
Variable F : fieldType.
Add Field Ff : (mc_field F).
Lemma tp_term (a l r p w z x : F) : a * (a - 1) = 0 ->
  (a - z + l * x) * (p * (a - 1 + z + r * x) + w * (z * z)) =
  z * z * (a * w) + ((z - z * z) * p - z * z * z * w) +
  ((a - z) * (p * r) * x + l * (p * (a - 1 + z) + w * (z * z)) * x) + l * (p * r) * (x * x).
Proof.
move=> H. have -> : (a - z + l * x) * (p * (a - 1 + z + r * x) + w * (z * z)) =
  p * (a * (a - 1)) + (z * z * (a * w) + ((z - z * z) * p - z * z * z * w) +
  ((a - z) * (p * r) * x + l * (p * (a - 1 + z) + w * (z * z)) * x) + l * (p * r) * (x * x)) by mcfr F.
by rewrite H mulr0 add0r.
Qed.
Lemma tprime_id n (aL aR sL sR p w bl br : nat -> F) (z x : F) :
  (forall i, (i < n)%nat -> aR i = aL i - 1) -> (forall i, (i < n)%nat -> aL i * (aL i - 1) = 0) ->
  (forall i, (i < n)%nat -> bl i = aL i - z + sL i * x) ->
  (forall i, (i < n)%nat -> br i = p i * (aR i + z + sR i * x) + w i * (z * z)) ->
  \sum_(i < n) bl i * br i =
  z * z * (\sum_(i < n) aL i * w i) + ((z - z * z) * (\sum_(i < n) p i) - z * z * z * (\sum_(i < n) w i)) +
  (\sum_(i < n) (aL i - z) * (p i * sR i) + \sum_(i < n) sL i * (p i * (aR i + z) + w i * (z * z))) * x
  + (\sum_(i < n) sL i * (p i * sR i)) * (x * x).
Proof.
move=> HR H0 Hl Hr. rewrite mulrDl !mulr_sumr !mulr_suml -sumrB -!big_split /=.
apply: eq_bigr => i _. rewrite Hl // Hr // HR //. exact: tp_term (H0 _ _).
Qed.
Lemma commit_id n (g h hp aL aR sL sR p w bl br : nat -> F) (z x : F) :
  (forall i, (i < n)%nat -> hp i * p i = h i) ->
  (forall i, (i < n)%nat -> bl i = aL i - z + sL i * x) ->
  (forall i, (i < n)%nat -> br i = p i * (aR i + z + sR i * x) + w i * (z * z)) ->
  \sum_(i < n) g i * bl i + \sum_(i < n) hp i * br i =
  \sum_(i < n) (g i * aL i + h i * aR i) + x * (\sum_(i < n) (g i * sL i + h i * sR i))
  + \sum_(i < n) g i * (- z) + \sum_(i < n) hp i * (p i * z + w i * (z * z)).
Proof.
move=> Hh Hl Hr. rewrite mulr_sumr -!big_split /=. apply: eq_bigr => i _. rewrite Hl // Hr // -Hh //. by mcfr F.
Qed.
Lemma c65_id (s g e v t1 t2 u1 u2 d z x : F) :
  (s + g * e) * (z * z) + d + (t1 + u1 * e) * x + (t2 + u2 * e) * (x * x)
  - ((z * z * v + d + t1 * x + t2 * (x * x)) + (u2 * (x * x) + u1 * x + z * z * g) * e) = (s - v) * (z * z).
Proof. by mcfr F. Qed.
Lemma c65_id0 (g e v t1 t2 u1 u2 d z x : F) : g = 0 ->
  0 * (z * z) + d + (t1 + u1 * e) * x + (t2 + u2 * e) * (x * x)
  - ((z * z * v + d + t1 * x + t2 * (x * x)) + (u2 * (x * x) + u1 * x + z * z * g) * e) = - (v * (z * z)).
Proof. move=> ->. by mcfr F. Qed.
Lemma rr1 (a b r x e : F) : (r * x + a) * e + (b + x * r) = a * e + b + x * (r * e + r).
Proof. by mcfr F. Qed.
Lemma rr2 (al e A rho S x G H : F) : (rho * x + al) * e + (A + x * S + G + H) = (al * e + A) + x * (rho * e + S) + G + H.
Proof. by mcfr F. Qed.
End Alg.

Lemma ph1 : ph 1%Z = 1. Proof. exact: (zph_nat zfN 1). Qed.

Lemma HashBP_yz sha A S : HashBP sha A S = (fst (HashBP sha A S), fst (HashBP sha A S)).
Proof. Local Transparent HashBP. by []. Qed.
Local Opaque HashBP.

Lemma computeAR_ok l : List.Forall (fun d => 0 <= d < 2)%Z l ->
  exists r, computeAR l = Ok r /\ List.length r = List.length l /\
  forall i, (i < List.length l)%nat -> pv r i = pv l i - 1.
Proof.
elim=> [|d l' Hd _ [r [Er [Lr Hr]]]] /=; first by exists nil.
have [->|->] : (d = 0 \/ d = 1)%Z by lia.
- rewrite /= Er /=. exists (-1 :: r)%Z. rewrite /= Lr. split=> //. split=> //. case=> [|i] Hi.
  + by rewrite /pv /= zph_0 sub0r -ph1 -zph_opp.
  + by rewrite /pv /= -/(pv r i) Hr.
- rewrite /= Er /=. exists (0 :: r)%Z. rewrite /= Lr. split=> //. split=> //. case=> [|i] Hi.
  + by rewrite /pv /= zph_0 ph1 subrr.
  + by rewrite /pv /= -/(pv r i) Hr.
Qed.
Lemma bits01 l i : List.Forall (fun d => 0 <= d < 2)%Z l -> pv l i * (pv l i - 1) = 0.
Proof.
move=> H. elim: H i => [|d l' Hd _ IH] [|i] //=; rewrite ?pv_nil ?mul0r //; last exact: IH.
rewrite /pv /=. have [->|->] : (d = 0 \/ d = 1)%Z by lia.
- by rewrite zph_0 mul0r.
- by rewrite ph1 subrr mulr0.
Qed.
Lemma ph_le_value u l : ph (le_value u l) = \sum_(i < List.length l) pv l i * ph u ^+ i.
Proof.
elim: l => [|d l IH] /=; first by rewrite big_ord0 zph_0.
rewrite zph_add zph_mul IH big_ord_recl /= expr0 mulr1 mulr_sumr. congr (_ + _).
apply: eq_bigr => i _. by rewrite /bump /= add1n exprS mulrCA.
Qed.

Section E.
Variable E : ext.
Hypothesis hE : ext_ok E.
Variable sha : list Z -> list Z.

Lemma SMb x : valid (ScalarBaseMult E x) /\ dl (ScalarBaseMult E x) = ph x.
Proof. split; [exact: (ScalarBaseMult_valid hE)|exact: (dl_ScalarBaseMult hE)]. Qed.
Lemma Add_v a b : valid a -> valid b -> valid (Add a b). Proof. exact: Add_valid. Qed.
Lemma dl_Add_nz a b : valid a -> valid b -> value (Add a b) <> None -> dl (Add a b) = dl a + dl b.
Proof.
move=> va vb nz. have := dl_Add va vb. case: eqP => [->|_]; first by rewrite add0r.
case: ifP => // _ H. by case: nz; apply/(value_dl0 (Add_v va vb)).
Qed.
Lemma Commit_v x r h : valid h -> valid (CommitG1 E x r h).
Proof. move=> v. exact: (CommitG1_valid hE v). Qed.
Lemma dl_Commit_nz x r h : valid h -> value (CommitG1 E x r h) <> None -> dl (CommitG1 E x r h) = ph x + ph r * dl h.
Proof.
move=> v. Local Transparent CommitG1. rewrite /CommitG1. Local Opaque CommitG1.
have [v1 D1] := SMb x. have [v2 D2] := ScalarMultP_ok hE r v. move=> nz. by rewrite dl_Add_nz // D1 D2.
Qed.

Lemma commitVector_ok aL aR alpha H g h n : List.length aL = n -> List.length aR = n -> List.length g = n -> List.length h = n ->
  allv g -> allv h -> valid H ->
  exists R, commitVector E aL aR alpha H g h (Z.of_nat n) = Ok R /\ valid R /\
    dl R = ph alpha * dl H + \sum_(i < n) (dv g i * pv aL i + dv h i * pv aR i).
Proof.
move=> L1 L2 L3 L4 vg vh vH. rewrite /commitVector Nat2Z.id.
have [vR <-] := ScalarMultP_ok hE alpha vH. move: (ScalarMult E H alpha) vR => R vR.
elim: n aL aR g h L1 L2 L3 L4 vg vh R vR => [|n IH] [|l aL] [|r aR] [|p g] [|q h] //=.
  move=> _ _ _ _ _ _ R vR. exists R. by rewrite big_ord0 addr0.
move=> [L1] [L2] [L3] [L4] /List.Forall_cons_iff [vp vg] /List.Forall_cons_iff [vq vh] R vR.
have [v1 D1] := ScalarMultP_ok hE l vp. have [v2 D2] := ScalarMultP_ok hE r vq.
have v3 := Multiply_valid hE vR v1. have v4 := Multiply_valid hE v3 v2.
have [R' [-> [v' D']]] := IH _ _ _ _ L1 L2 L3 L4 vg vh _ v4. exists R'. split; first by []. split; first by [].
rewrite D' (dl_Multiply hE v3 v2) (dl_Multiply hE vR v1) D1 D2 big_ord_recl /= -!addrA. congr (_ + _).
rewrite {2}/dv {2}/pv {2}/dv {2}/pv /= [ph l * _]mulrC [ph r * _]mulrC. congr (_ + (_ + _)).
Qed.

Lemma updateGen_loop Hh y yi n (e : Z) : allv Hh -> List.length Hh = n -> ph y != 0 -> ph yi = (ph y)^-1 ->
  exists r, updateGenerators_loop E Hh (Some yi) (Some e) n = Ok r /\ List.length r = n /\ allv r /\
  forall i, (i < n)%nat -> dv r i = ph e * (ph y)^-1 ^+ i * dv Hh i.
Proof.
move=> vH LH y0 Ey. elim: n Hh vH LH e => [|n IH] [|p Hh] vH //= LH e; first by exists nil; rewrite /=.
case: LH => LH. case/List.Forall_cons_iff: vH => vp vH.
have [r [-> [Lr [vr Dr]]]] := IH Hh vH LH (e * yi)%Z. rewrite /=. have [v1 D1] := ScalarMultP_ok hE e vp.
eexists. split; first exact: erefl. split; first by rewrite /= Lr. split; first by apply: List.Forall_cons.
case=> [|i] Hi; first by rewrite /dv /= D1 expr0 mulr1.
by rewrite /dv /= -/(dv r i) Dr // zph_mul Ey exprS mulrA.
Qed.
Lemma updateGen_ok Hh y n : allv Hh -> List.length Hh = n -> (0 < n)%nat -> ph y != 0 ->
  exists hp, updateGenerators E Hh y (Z.of_nat n) = Ok hp /\ List.length hp = n /\ allv hp /\
  forall i, (i < n)%nat -> dv hp i * ph y ^+ i = dv Hh i.
Proof.
move=> vH LH n0 y0. rewrite /updateGenerators. have -> : (Z.of_nat n <=? 0)%Z = false.
  apply/Z.leb_gt. move/ltP: n0. lia.
rewrite Nat2Z.id. case: Hh vH LH => [|p Hh]; first by move=> _ L; rewrite -L in n0.
move=> /List.Forall_cons_iff [vp vH] LH. case: (ModInverse_cases y) => [[yi -> [Ey _]]|[_ H]]; last by rewrite H eqxx in y0.
have LH' : List.length Hh = (n - 1)%coq_nat by move: LH; rewrite /=; lia.
have [r [-> [Lr [vr Dr]]]] := updateGen_loop yi vH LH' y0 Ey. rewrite /=. eexists. split; first exact: erefl.
split; first by rewrite /= Lr -LH' -LH. split; first exact: List.Forall_cons.
case=> [|i] Hi; first by rewrite /dv /= expr0 mulr1.
have Hi' : (i < (n - 1)%coq_nat)%nat by apply/ltP; move/ltP: Hi; lia.
rewrite /dv /= -/(dv r i) -/(dv Hh i) Dr // Ey exprS. rewrite [_ * dv Hh i]mulrC -mulrA -[RHS]mulr1. congr (_ * _).
by rewrite -exprS -[_^-1 * _ ^+ i]exprS -exprMn mulVf // expr1n.
Qed.
Lemma updateGen_inv Hh y n hp : allv Hh -> List.length Hh = n -> updateGenerators E Hh y (Z.of_nat n) = Ok hp ->
  List.length hp = n /\ allv hp /\ forall i, (i < n)%nat -> dv hp i * ph y ^+ i = dv Hh i.
Proof.
move=> vH LH. case: (posnP n) => [->|n0]; first by rewrite /updateGenerators.
case: (eqVneq (ph y) 0) => y0; last first.
  have [hp' [-> [L [v D]]]] := updateGen_ok vH LH n0 y0. move=> H. case: H => <-. by split.
rewrite /updateGenerators. have -> : (Z.of_nat n <=? 0)%Z = false.
  apply/Z.leb_gt. move/ltP: n0. lia.
rewrite Nat2Z.id. case: (ModInverse_cases y) => [[yi _ [_ H]]|[-> _]]; first by rewrite y0 eqxx in H.
case: Hh vH LH => [|p Hh] // vH LH. case: n LH {n0} => [|n] //= [LH]. rewrite Nat.sub_0_r.
case: n LH => [|n] LH /=.
  case: Hh LH vH => [|? ?] // _ vH /= [<-]. split=> //. split; first exact: vH. case=> [|i] // _. by rewrite expr0 mulr1.
case: Hh LH vH => [|q Hh] // _ _. rewrite /=. by case: (IsZero q).
Qed.

Lemma updateGen_noErr Hh y N : updateGenerators E Hh y N <> Err.
Proof.
have L l : forall yi e n, updateGenerators_loop E l yi e n <> Err.
  elim: l => [|p l IH] yi e [|n] //=. case Es : (ScalarMultP E p e) => [q| |] //=; last by case: e Es => //=; case: (IsZero p).
  case: e {Es} => //= e. case: yi => //= yi. have := IH (Some yi) (Some (e * yi)%Z) n.
  by case: (updateGenerators_loop _ _ _ _ _).
rewrite /updateGenerators. case: ifP => // _. case: Hh => // p l.
have := L l (ModInverse y ORDER) (ModInverse y ORDER) (Z.to_nat N - 1)%coq_nat. by case: (updateGenerators_loop _ _ _ _ _).
Qed.

Lemma delta_ok n y z : exists d, delta (Z.of_nat n) y z = Ok d /\
  ph d = (ph z - ph z * ph z) * (\sum_(i < n) ph y ^+ i) - ph z * ph z * ph z * (\sum_(i < n) ph 2%Z ^+ i).
Proof.
rewrite /delta. have [v1 [-> [L1 D1]]] := VectorCopy_ok 1 n. rewrite /bind.
have [vy [-> [Ly Dy]]] := powerOf_ok y n. have [sp1 [-> [E1 _]]] := ScalarProduct_ok (etrans L1 (esym Ly)).
have [v2 [-> [L2 D2]]] := powerOf_ok 2 n. have [sp2 [-> [E2 _]]] := ScalarProduct_ok (etrans L1 (esym L2)).
rewrite /must /=. eexists. split; first exact: erefl.
rewrite ph_bmod zph_sub ph_bmod zph_mul ph_bmod zph_sub zph_mul E1 E2 L1.
rewrite !ph_bmod !zph_mul ph_bmod zph_mul.
congr (_ * _ - _ * _); apply: eq_bigr => i _; rewrite D1 // ?Dy // ?D2 // ph1 mul1r //.
Qed.

(** ** Verify *)
Definition bp_wf (pr : bp_proof) (n : nat) : Prop :=
  [/\ valid (bp_V pr), valid (bp_A pr), valid (bp_S pr), valid (bp_T1 pr) & valid (bp_T2 pr)] /\
  valid (bp_Commit pr) /\ params_wf (bp_Params pr) n.

(** the sums of conditions (66)-(67) of Verify *)
Definition zvec (n : nat) (y z : FN) (i : nat) : FN := y ^+ i * z + ph 2%Z ^+ i * (z * z).

Lemma Verify_char pr n hp : bp_wf pr n ->
  let ps := bp_Params pr in
  let x := ph (fst (HashBP sha (bp_T1 pr) (bp_T2 pr))) in
  let z := ph (fst (HashBP sha (bp_A pr) (bp_S pr))) in
  updateGenerators E (sp_Hh ps) (fst (HashBP sha (bp_A pr) (bp_S pr))) (sp_N ps) = Ok hp ->
  exists lP Sx gm he, [/\ lP = Add (Add (Add (bp_A pr) Sx) gm) he, valid Sx, valid gm, valid he & valid lP] /\
  [/\ dl Sx = x * dl (bp_S pr), dl gm = \sum_(i < n) dv (sp_Gg ps) i * (- z) &
      dl he = \sum_(i < n) dv hp i * zvec n z z i] /\
  let R := ph (bp_Mu pr) * dl (sp_H ps) + dl (bp_Commit pr) in
  let c65 := (dl (bp_V pr) * (z * z) + ((z - z * z) * (\sum_(i < n) z ^+ i) - z * z * z * (\sum_(i < n) ph 2%Z ^+ i))
     + dl (bp_T1 pr) * x + dl (bp_T2 pr) * (x * x) - dl (CommitG1 E (bp_Tprime pr) (bp_Taux pr) (sp_H ps)) == 0) in
  let c67 := (dl lP == 0) || ((R != 0) && ((R == dl lP) || (R == - dl lP))) in
  Verify E sha pr =
    bind (ipVerify E sha (bp_IP pr)) (fun '(ok, ip') => Ok (c65 && c67 && ok,
      BPProof (bp_V pr) (bp_A pr) (bp_S pr) (bp_T1 pr) (bp_T2 pr) (bp_Taux pr)
                  (bp_Mu pr) (bp_Tprime pr) ip' (bp_Commit pr) (bp_Params pr))).
Proof.
move=> [[vV vA vS vT1 vT2] [vC [EN [Lg [Lh [vg [vh vH]]]]]]] ps x z.
rewrite /Verify -/ps. have [xz Ex] : exists x, fst (HashBP sha (bp_T1 pr) (bp_T2 pr)) = x by eexists.
have HE : HashBP sha (bp_A pr) (bp_S pr) = (fst (HashBP sha (bp_A pr) (bp_S pr)), fst (HashBP sha (bp_A pr) (bp_S pr))).
  exact: HashBP_yz.
rewrite /x /z. rewrite HE Ex. move: (fst (HashBP sha (bp_A pr) (bp_S pr))) => zz. rewrite /fst.
rewrite -/ps in EN Lg Lh vg vh vH. rewrite EN => Ehp. rewrite Ehp {1}/bind.
have [Lhp [vhp Dhp]] := updateGen_inv vh Lh Ehp.
have [d [-> Dd]] := delta_ok n zz zz. rewrite {1}/bind.
have [vm [-> [Lm Dm]]] := VectorCopy_ok (ORDER - zz) n. rewrite {1}/bind.
have [gm [-> [vgm Dgm]]] := VectorExp_ok hE (etrans Lg (esym Lm)) vg. rewrite {1}/bind {1}/must {1}/ign_ptr {1}/bind {1}/deref.
have [vz [-> [Lz Dz]]] := VectorCopy_ok zz n. rewrite {1}/bind.
have [vy [-> [Ly Dy]]] := powerOf_ok zz n. rewrite {1}/bind.
have [zy [-> [Lzy Dzy]]] := VectorMul_ok (etrans Ly (esym Lz)). rewrite {1}/bind {1}/ign_vec.
have [p2 [-> [L2 D2]]] := powerOf_ok 2 n. rewrite {1}/bind.
have [z22 [-> [L22 D22]]] := VectorScalarMul_ok p2 (zz * zz). rewrite {1}/bind.
have Lx : List.length zy = List.length z22 by rewrite Lzy Ly L22 L2.
have [w [-> [Lw Dw]]] := VectorAdd_ok Lx. rewrite {1}/bind {1}/ign_vec.
have Lhw : List.length hp = List.length w by rewrite Lhp Lw Lzy Ly.
have [he [-> [vhe Dhe]]] := VectorExp_ok hE Lhw vhp. rewrite {1}/bind {1}/must {1}/ign_ptr {1}/bind {1}/deref.
have [vSx DSx] := ScalarMultP_ok hE xz vS.
exists (Add (Add (Add (bp_A pr) (ScalarMult E (bp_S pr) xz)) gm) he), (ScalarMult E (bp_S pr) xz), gm, he.
have vl1 := Add_v vA vSx. have vl2 := Add_v vl1 vgm. have vlP := Add_v vl2 vhe.
split; first by split. split.
  split; first exact: DSx.
  - rewrite Dgm Lg. apply: eq_bigr => i _. rewrite Dm // zph_sub. congr (_ * _).
    by rewrite (zph_P zfN) sub0r.
  - rewrite Dhe Lhp. apply: eq_bigr => i _. rewrite /zvec Dw Dzy Dy // Dz // D22 D2 // zph_mul //.
move: (Add _ he) vlP => lP vlP.
have [v1 D1] := ScalarMultP_ok hE (bmod (zz * zz) ORDER) vV. have [v2 D2'] := SMb d.
have v3 := Multiply_valid hE v1 v2. have [v4 D4] := ScalarMultP_ok hE xz vT1. have v5 := Multiply_valid hE v3 v4.
have [v6 D6] := ScalarMultP_ok hE (bmod (xz * xz) ORDER) vT2. have v7 := Multiply_valid hE v5 v6.
have vCm := Commit_v (bp_Tprime pr) (bp_Taux pr) vH. have [v8 D8] := dl_Neg hE vCm. have v9 := Multiply_valid hE v7 v8.
rewrite (IsZero_dl v9) (dl_Multiply hE v7 v8) (dl_Multiply hE v5 v6) (dl_Multiply hE v3 v4) (dl_Multiply hE v1 v2).
rewrite D1 D2' D4 D6 D8 !ph_bmod !zph_mul Dd.
have [u1 U1] := ScalarMultP_ok hE (bp_Mu pr) vH. have u2 := Multiply_valid hE u1 vC. have [u3 U3] := dl_Neg hE vlP.
have u4 := Add_v u2 u3. rewrite (IsZero_dl u4) (dl_Add u2 u3) (dl_Multiply hE u1 vC) U1 U3 /=.
rewrite [_ * _ * dl (bp_V pr)]mulrC [_ * dl (bp_T1 pr)]mulrC [_ * dl (bp_T2 pr)]mulrC.
move: (ph (bp_Mu pr) * dl (sp_H ps) + dl (bp_Commit pr)) => R.
have -> : ((if R == 0 then - dl lP else if (- dl lP == 0) || (R == - dl lP) then 0 else R + - dl lP) == 0) =
   (dl lP == 0) || ((R != 0) && ((R == dl lP) || (R == - dl lP))).
  rewrite oppr_eq0. case: (eqVneq R 0) => [_|R0] /=; first by rewrite oppr_eq0 orbF.
  case: (eqVneq (dl lP) 0) => [_|l0] /=; first by rewrite eqxx.
  case: (eqVneq R (- dl lP)) => [_|l1] /=; first by rewrite eqxx orbT. by rewrite subr_eq0 orbF.
by case: (ipVerify E sha (bp_IP pr)) => [[ok ip']| |].
Qed.

(** ** Prove *)
Section Prove.
Variables (k : nat) (ps : bp_params) (secret : Z) (t : tape).
Hypotheses (wf : params_wf ps (pow2 k)) (LsL : List.length (r_sL t) = pow2 k) (LsR : List.length (r_sR t) = pow2 k).
Let n := pow2 k.
Let H := sp_H ps.

Definition prove_post (pr : bp_proof) : Prop :=
  let x := ph (fst (HashBP sha (bp_T1 pr) (bp_T2 pr))) in
  let z := ph (fst (HashBP sha (bp_A pr) (bp_S pr))) in
  exists t1 t2 hp, [/\ bp_Params pr = ps, bp_V pr = CommitG1 E secret (r_gamma t) H,
     bp_T1 pr = CommitG1 E t1 (r_tau1 t) H & bp_T2 pr = CommitG1 E t2 (r_tau2 t) H] /\
  [/\ valid (bp_A pr), valid (bp_S pr), valid (bp_Commit pr) &
      updateGenerators E (sp_Hh ps) (fst (HashBP sha (bp_A pr) (bp_S pr))) (sp_N ps) = Ok hp] /\
  [/\ ph (bp_Mu pr) * dl H + dl (bp_Commit pr) =
         dl (bp_A pr) + x * dl (bp_S pr) + \sum_(i < n) dv (sp_Gg ps) i * (- z) + \sum_(i < n) dv hp i * zvec n z z i,
      ph (bp_Tprime pr) = z * z * ph (secret mod 2 ^ Z.of_nat n)%Z +
        ((z - z * z) * (\sum_(i < n) z ^+ i) - z * z * z * (\sum_(i < n) ph 2%Z ^+ i)) + ph t1 * x + ph t2 * (x * x) &
      ph (bp_Taux pr) = ph (r_tau2 t) * (x * x) + ph (r_tau1 t) * x + z * z * ph (r_gamma t)] /\
  ip_wf (bp_IP pr) /\ (exists ip', ipVerify E sha (bp_IP pr) = Ok (true, ip')) /\
  [/\ dl (bp_A pr) = ph (r_alpha t) * dl H + \sum_(i < n) (dv (sp_Gg ps) i * pv (Decompose secret 2 n) i +
        dv (sp_Hh ps) i * (pv (Decompose secret 2 n) i - 1)),
      dl (bp_S pr) = ph (r_rho t) * dl H + \sum_(i < n) (dv (sp_Gg ps) i * pv (r_sL t) i + dv (sp_Hh ps) i * pv (r_sR t) i) &
      (forall i, pv (r_sL t) i = 0) -> (forall i, pv (r_sR t) i = 0) -> ph t1 = 0 /\ ph t2 = 0].

(** Prove either panics because y is not invertible, or the hash-to-point of
    SEEDU fails, or the inner product prover panics *)
Lemma Prove_cases :
  (Prove E sha secret ps t = Panic /\ ~ (hash_ok sha /\ exists U, MapToGroup sha SEEDU = Ok U)) \/
  exists pr, Prove E sha secret ps t = Ok pr /\ prove_post pr.
Proof.
case: (wf) => [EN [Lg [Lh [vg [vh vH]]]]]. rewrite -/H in vH. have [r Er] : exists r, Prove E sha secret ps t = r by eexists.
rewrite Er. move: Er. rewrite /Prove EN -/n -/H.
have -> : (Z.of_nat n <? 0)%Z = false by apply/Z.ltb_ge; lia.
rewrite Nat2Z.id. have LaL : List.length (Decompose secret 2 n) = n by exact: Decompose_length.
have Bits : List.Forall (fun d => 0 <= d < 2)%Z (Decompose secret 2 n) by exact: Decompose_digits.
have Val : ph (secret mod 2 ^ Z.of_nat n)%Z = \sum_(i < n) pv (Decompose secret 2 n) i * ph 2%Z ^+ i.
  by rewrite -(@Decompose_value secret 2 n) // ph_le_value LaL.
rewrite /prove_post. move: (Decompose secret 2 n) LaL Bits Val => aL LaL Bits Val.
have [aR [-> [LaR DaR]]] := computeAR_ok Bits. rewrite LaL in LaR DaR. rewrite {1}/bind {1}/ign_vec.
have [A [-> [vA DA]]] := commitVector_ok (r_alpha t) LaL LaR Lg Lh vg vh vH. rewrite {1}/bind.
have [Sc [-> [vS DS]]] := commitVector_ok (r_rho t) LsL LsR Lg Lh vg vh vH. rewrite {1}/bind.
rewrite HashBP_yz. have [z Ez] : exists z, fst (HashBP sha A Sc) = z by eexists.
rewrite Ez. have [vz [-> [Lz Dz]]] := VectorCopy_ok z n. rewrite {1}/bind.
have [vy [-> [Ly Dy]]] := powerOf_ok z n. rewrite {1}/bind.
rewrite (VectorConvertToBig_ok LaL) {1}/bind.
have [aLz [-> [LaLz DaLz]]] := VectorSub_ok (etrans LaL (esym Lz)). rewrite {1}/bind {1}/ign_vec.
have [ys [-> [Lys Dys]]] := VectorMul_ok (etrans Ly (esym LsR)). rewrite {1}/bind {1}/ign_vec.
rewrite LaL in LaLz. rewrite Ly in Lys.
have [sp1 [-> [Sp1 _]]] := ScalarProduct_ok (etrans LaLz (esym Lys)). rewrite {1}/bind {1}/must {1}/ign_ptr {1}/bind {1}/deref.
rewrite (VectorConvertToBig_ok LaR) {1}/bind.
have [aRz [-> [LaRz DaRz]]] := VectorAdd_ok (etrans LaR (esym Lz)). rewrite {1}/bind {1}/ign_vec. rewrite LaR in LaRz.
have [ya [-> [Lya Dya]]] := VectorMul_ok (etrans Ly (esym LaRz)). rewrite {1}/bind {1}/ign_vec. rewrite Ly in Lya.
have [p2 [-> [L2 D2]]] := powerOf_ok 2 n. rewrite {1}/bind.
have [z22 [-> [L22 D22]]] := VectorScalarMul_ok p2 (z * z). rewrite {1}/bind. rewrite L2 in L22.
have [yb [-> [Lyb Dyb]]] := VectorAdd_ok (etrans Lya (esym L22)). rewrite {1}/bind {1}/ign_vec. rewrite Lya in Lyb.
have [sp2 [-> [Sp2 _]]] := ScalarProduct_ok (etrans LsL (esym Lyb)). rewrite {1}/bind {1}/must {1}/ign_ptr {1}/bind {1}/deref.
have [t2 [-> [St2 _]]] := ScalarProduct_ok (etrans LsL (esym Lys)). rewrite {1}/bind {1}/must {1}/ign_ptr {1}/bind {1}/deref.
have [t1' Et1] : exists t1', t1' = bmod (sp1 + sp2) ORDER by eexists.
have [t2' Et2] : exists t2', t2' = bmod t2 ORDER by eexists. rewrite -Et1 -Et2.
have [x Ex] : exists x, fst (HashBP sha (CommitG1 E t1' (r_tau1 t) H) (CommitG1 E t2' (r_tau2 t) H)) = x by eexists.
rewrite Ex.
have [sLx [-> [LsLx DsLx]]] := VectorScalarMul_ok (r_sL t) x. rewrite {1}/bind. rewrite LsL in LsLx.
have [bl [-> [Lbl Dbl]]] := VectorAdd_ok (etrans LaLz (esym LsLx)). rewrite {1}/bind {1}/ign_vec. rewrite LaLz in Lbl.
have [sRx [-> [LsRx DsRx]]] := VectorScalarMul_ok (r_sR t) x. rewrite {1}/bind. rewrite LsR in LsRx.
have [aRx [-> [LaRx DaRx]]] := VectorAdd_ok (etrans LaRz (esym LsRx)). rewrite {1}/bind {1}/ign_vec. rewrite LaRz in LaRx.
have [yc [-> [Lyc Dyc]]] := VectorMul_ok (etrans Ly (esym LaRx)). rewrite {1}/bind {1}/ign_vec. rewrite Ly in Lyc.
have [br [-> [Lbr Dbr]]] := VectorAdd_ok (etrans Lyc (esym L22)). rewrite {1}/bind {1}/ign_vec. rewrite Lyc in Lbr.
have [tp [-> [Tp Rtp]]] := ScalarProduct_ok (etrans Lbl (esym Lbr)). rewrite {1}/bind {1}/must {1}/ign_ptr {1}/bind {1}/deref.
have n0 : (0 < n)%nat by exact: pow2_pos.
case Eh : (updateGenerators E (sp_Hh ps) z (Z.of_nat n)) => [hp| |]; rewrite {1}/bind; last first.
- move=> <-. left. split; first by []. case=> Hs _. have z0 : ph z != 0 by rewrite -Ez; exact: (hashBP_nz Hs).
  have [hp [Eh' _]] := updateGen_ok vh Lh n0 z0. by rewrite Eh' in Eh.
- by case: (updateGen_noErr Eh).
have [Lhp [vhp Dhp]] := updateGen_inv vh Lh Eh.
have n0' : (Z.of_nat n <=? 0)%Z = false.
  apply/Z.leb_gt. move/ltP: n0. lia.
have Es : setupInnerProduct sha (Some H) (Some (sp_Gg ps)) (Some hp) tp (Z.of_nat n) =
  match MapToGroup sha SEEDU with Ok U => Ok (IPParams (Z.of_nat n) tp U H (sp_Gg ps) hp SetInfinity) | _ => Panic end.
  rewrite /setupInnerProduct n0'. by case: (MapToGroup sha SEEDU).
case EU : (MapToGroup sha SEEDU) Es => [U| |] ->; rewrite {1}/bind; [|by move=> <-; left; split=> //; case=> _ [U]..].
have vU : valid U by have [xx [yy [_ [_ ?]]]] := SecpMain.MapToGroup_valid EU.
have [Cm [EC [vC DC]]] := commitIP_ok hE (etrans Lg (esym Lbl)) (etrans Lhp (esym Lbr)) vg vhp.
rewrite EC {1}/bind. set q := IPParams _ _ _ _ _ _ _.
have wq : ip_params_wf q k by [].
case Ep : (proveInnerProduct E sha bl br Cm q) => [pip| |]; rewrite {1}/must {1}/ign_ptr {1}/bind /deref /bind; last first.
- move=> <-. left. split; first by []. case=> Hs _. have [pp Epp] := bip_no_panic hE Hs wq Lbl Lbr vC. by rewrite Ep in Epp.
- move=> <-. left. split; first by []. case=> Hs _. have [pp Epp] := bip_no_panic hE Hs wq Lbl Lbr vC. by rewrite Ep in Epp.
move=> <-. right. eexists. split; first exact: erefl. rewrite /=. exists t1', t2', hp. rewrite Ez Ex EN -/n.
split; first by split. split; first by split. split; last first.
  have [ox [ux [_ [wip _]]]] := prove_ip_inv hE wq Lbl Lbr vC Ep. split; first exact: wip. split.
    apply: (bip_complete hE wq Lbl Lbr vC EC _ Ep). rewrite -(zph_eq zfN) /= Tp ph_dot ?Lbl ?Lbr //.
  split; [|exact: DS|].
  - rewrite DA. congr (_ + _). apply: eq_bigr => i _. by rewrite DaR.
  - move=> l0 r0. rewrite Et1 Et2 !ph_bmod zph_add Sp1 Sp2 St2.
    split; first rewrite !big1 ?addr0 //; last rewrite big1 // => i _; try move=> i _; by rewrite ?Dys ?l0 ?r0 ?mulr0 ?mul0r.
have Vbl i : (i < n)%nat -> pv bl i = pv aL i - ph z + pv (r_sL t) i * ph x.
  by move=> Hi; rewrite Dbl DaLz DsLx Dz.
have Vbr i : (i < n)%nat -> pv br i = ph z ^+ i * (pv aR i + ph z + pv (r_sR t) i * ph x) + ph 2%Z ^+ i * (ph z * ph z).
  by move=> Hi; rewrite Dbr Dyc DaRx DaRz DsRx Dz // Dy // D22 D2 // zph_mul.
split.
- rewrite DA DS DC Lg Lhp (commit_id (dv (sp_Gg ps)) Dhp Vbl Vbr).
  rewrite ph_bmod zph_add zph_mul. exact: rr2.
- rewrite Tp Lbl (tprime_id DaR (fun i _ => bits01 i Bits) Vbl Vbr) Val Et1 Et2 !ph_bmod zph_add Sp1 Sp2 St2 LaLz LsL.
  congr (_ + (_ + _) * _ + _ * _); apply: eq_bigr => i _.
  + by rewrite DaLz Dz // Dys Dy.
  + by rewrite Dyb Dya Dy // DaRz Dz // D22 D2 // zph_mul.
  + by rewrite Dys Dy.
- by rewrite ph_bmod !zph_add !zph_mul.
Qed.
End Prove.
End E.
