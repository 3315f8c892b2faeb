(** * Proofs about the P256 model *)
From Coq Require Import ZArith Znumtheory Zpow_facts List Bool Lia.
From mathcomp Require Import all_ssreflect all_algebra.
From Verif Require Import Base BaseFacts ByteConv Fp MCRing ZMod EC ECGroup SpecCurve ZCurve ZField P256 SpecSecp SecpGroup.
Set Implicit Arguments.
Unset Strict Implicit.
Unset Printing Implicit Defensive.
Import GRing.Theory.
Local Open Scope ring_scope.
Delimit Scope Z_scope with Z.
Local Arguments Z.mul : simpl never.
Local Arguments Z.add : simpl never.
Local Arguments Z.sub : simpl never.
Local Arguments Z.modulo : simpl never.
Local Opaque secp_P secp_N secp_Gx secp_Gy.
Local Notation hP := secp_P_pr.
Local Notation hP3 := secp_P3.
Local Notation hb := secp_b.

Section Jac.
Variable F : fieldType.
Add Field JacF : (mc_field F).
Variables x1 y1 x2 y2 x3 y3 z i l : F.
Hypothesis two : (2%:R : F) != 0.
Hypothesis h0 : x2 - x1 != 0.
Hypothesis Ez : z = 2%:R * (x2 - x1).
Hypothesis Ei : i = z^-1.
Hypothesis El : l = (y2 - y1) / (x2 - x1).
Hypothesis Ex : x3 = 4%:R * (y2 - y1) ^+ 2 - 4%:R * (x2 - x1) ^+ 3 - 8%:R * x1 * (x2 - x1) ^+ 2.
Hypothesis Ey : y3 = 2%:R * (y2 - y1) * (4%:R * x1 * (x2 - x1) ^+ 2 - x3) - 8%:R * y1 * (x2 - x1) ^+ 3.
Lemma two' : (1 + 1 : F) <> 0. Proof. by apply/eqP. Qed.
Lemma jac_x : x3 * (i * i) = l * l - x1 - x2.
Proof. rewrite Ei Ez El Ex. mcf F. split; [exact/eqP|exact: two']. Qed.
Lemma jac_y : y3 * (i * i * i) = l * (x1 - x3 * (i * i)) - y1.
Proof. rewrite Ey Ei Ez El Ex. mcf F. split; [exact/eqP|exact: two']. Qed.
End Jac.

Definition zfP : zfield secp_P := zfield_of secp_P_pr.
Definition FP : fieldType := zK zfP.
Local Notation ph := (zph zfP).
Add Field FPfield : (mc_field FP).

Lemma secp_Ppos : (0 < secp_P)%Z. Proof. have := secp_P3. lia. Qed.
Lemma secp_P1 : (1 < secp_P)%Z. Proof. have := secp_P3. lia. Qed.
Lemma phi_addP z : ph (addP z) = ph z.
Proof. rewrite /addP. case: (z <? 0)%Z => //. by rewrite zph_add zph_P addr0. Qed.
Lemma bmod_range z : (0 <= bmod z secp_P < secp_P)%Z.
Proof. apply: Z.mod_pos_bound. exact: secp_Ppos. Qed.

Lemma phi2 : ph 2%Z = 2%:R. Proof. exact: (zph_nat zfP 2). Qed.
Definition phE := (zph_bmod zfP, phi_addP, @zph_add _ zfP, zph_sub zfP, @zph_mul _ zfP, zph_1 zfP, phi2).

Lemma two_ne0 : (2%:R : FP) != 0.
Proof. rewrite -phi2. apply: zph_neq0. have := secp_P3. move=> H. by rewrite Zmod_small //; lia. Qed.

Lemma not_zero_on y : ~ on_secp (Some (0, y)%Z) \/ y <> 0%Z.
Proof.
case: (Z.eq_dec y 0) => [->|]; last by right.
left. rewrite /on_secp /zon => -[_ [_]].
have -> : ((0 * 0) mod secp_P = 0)%Z by rewrite Zmod_0_l.
have -> : (0 * 0 * 0 + 7 = 7)%Z by []. move=> H. exact: (secp_b (esym H)).
Qed.

Lemma value_on x y : on_secp (Some (x, y)) -> value (Some (x, y)) = Some (x, y).
Proof.
move=> H. rewrite /value. case: Z.eqb_spec => [x0|] //=. case: Z.eqb_spec => [y0|] //=.
subst. by case: (not_zero_on 0).
Qed.
Lemma value_on_pt q : on_secp q -> value q = q.
Proof. case: q => [[x y]|] //. exact: value_on. Qed.
Lemma valid_on q : on_secp q -> valid q.
Proof. move=> H. by rewrite /valid value_on_pt. Qed.
Lemma IsZero_value p : IsZero p <-> value p = None.
Proof. by case: p => [[x y]|] //=; case: ifP. Qed.
Lemma IsZeroE p : IsZero p = if value p is None then true else false.
Proof. by case: p => [[x y]|] //=; case: ifP. Qed.
Lemma value_nz p : IsZero p = false -> value p = p.
Proof. by case: p => [[x y]|] //= ->. Qed.
Lemma value_z p : IsZero p = true -> value p = None.
Proof. by move/IsZero_value. Qed.

(** ** CURVE.Add *)
Local Arguments value : simpl never.
Local Arguments gadd : simpl never.
Local Arguments gmul : simpl never.
Local Arguments gneg : simpl never.
Lemma addJ_phi x1 y1 x2 y2 : exists x3 y3 z3, addJacobian x1 y1 1 x2 y2 1 = (x3, y3, z3) /\
  let h := ph x2 - ph x1 in let r := ph y2 - ph y1 in
  [/\ ph x3 = 4%:R * r ^+ 2 - 4%:R * h ^+ 3 - 8%:R * ph x1 * h ^+ 2,
      ph y3 = 2%:R * r * (4%:R * ph x1 * h ^+ 2 - ph x3) - 8%:R * ph y1 * h ^+ 3,
      ph z3 = 2%:R * h & (0 <= z3 < secp_P)%Z].
Proof.
rewrite /addJacobian. do 3 eexists. split; first by []. split; last exact: bmod_range.
- rewrite !phE. by mcfr FP.
- rewrite !phE. by mcfr FP.
- rewrite !phE. by mcfr FP.
Qed.

Local Opaque addJacobian.
Lemma on_phi x y : on_secp (Some (x, y)) -> (ph y) ^+ 2 = (ph x) ^+ 3 + ph 7.
Proof.
move=> [_ [_ H]]. have := proj2 (zph_eq zfP _ _) H. rewrite !phE => E. by rewrite !exprS !expr0 !mulr1 mulrA E.
Qed.

Lemma CURVE_Add_distinct x1 y1 x2 y2 : on_secp (Some (x1, y1)) -> on_secp (Some (x2, y2)) ->
  x1 <> x2 -> Some (CURVE_Add x1 y1 x2 y2) = gadd (Some (x1, y1)) (Some (x2, y2)).
Proof.
move=> o1 o2 ne. rewrite /CURVE_Add.
have [x3 [y3 [z3 [-> [Ex Ey Ez rz]]]]] := addJ_phi x1 y1 x2 y2. rewrite /affineFromJacobian.
case: (o1) => rx1 _; case: (o2) => rx2 _.
have h0 : ph x2 - ph x1 != 0.
  rewrite subr_eq0. apply/eqP => H. apply: ne. by rewrite (zph_small rx2 rx1 H).
have z0 : ph z3 != 0.
  rewrite Ez. apply: mulf_neq0; [exact: two_ne0|exact: h0].
have z0' : (z3 mod secp_P <> 0)%Z by move/(zph_eq0 zfP)/eqP; rewrite (negbTE z0).
have -> : (z3 =? 0)%Z = false by apply/Z.eqb_neq => E; apply: z0'; rewrite E Zmod_0_l.
have [i -> Ei] := zph_ModInverse hP zfP z0'.
rewrite /gadd /zadd. have -> : (x1 =? x2)%Z = false by apply/Z.eqb_neq.
rewrite /zline.
have two := two_ne0.
set l := ((y2 - y1) * inv_mod secp_P (x2 - x1))%Z. set X := ((l * l - x1 - x2) mod secp_P)%Z.
have El : ph l = (ph y2 - ph y1) / (ph x2 - ph x1).
  by rewrite /l zph_mul (zph_inv hP) !zph_sub.
clearbody l.
have EX : bmod (x3 * (i * i)) secp_P = X.
  apply: (zph_small (f := zfP)); [exact: bmod_range|apply: Z.mod_pos_bound; exact: secp_Ppos|].
  rewrite /X zph_mod !phE. exact: (jac_x two h0 Ez Ei El Ex).
have E2 : ph X = ph x3 * (ph i * ph i) by rewrite -EX !phE.
clearbody X. congr (Some (_, _)); first exact: EX.
apply: (zph_small (f := zfP)); [exact: bmod_range|apply: Z.mod_pos_bound; exact: secp_Ppos|].
rewrite zph_mod !phE E2. exact: (jac_y two h0 Ez Ei El Ex Ey).
Qed.

Lemma CURVE_Add_same x y1 y2 : CURVE_Add x y1 x y2 = (0, 0)%Z.
Proof.
rewrite /CURVE_Add.
have [x3 [y3 [z3 [-> [_ _ Ez rz]]]]] := addJ_phi x y1 x y2. rewrite /affineFromJacobian.
have -> : z3 = 0%Z; last by [].
rewrite -(Zmod_small z3 secp_P) //. apply/(zph_eq0 zfP). by rewrite Ez subrr mulr0.
Qed.

(** no panic in affineFromJacobian *)
Lemma affine_no_panic x1 y1 z1 x2 y2 z2 : let '(_, _, z) := addJacobian x1 y1 z1 x2 y2 z2 in
  z = 0%Z \/ exists i, ModInverse z secp_P = Some i.
Proof.
case E : (addJacobian _ _ _ _ _ _) => [[x y] z].
have rz : (0 <= z < secp_P)%Z.
  Local Transparent addJacobian.
  move: E. rewrite /addJacobian => -[_ _ <-]. exact: bmod_range.
  Local Opaque addJacobian.
case: (Z.eq_dec z 0) => [->|z0]; first by left.
right. case: (@zph_ModInverse _ hP zfP z) => [|i Ei _]; last by exists i.
by rewrite Zmod_small.
Qed.

Lemma same_x x y1 y2 : on_secp (Some (x, y1)) -> on_secp (Some (x, y2)) -> y1 <> y2 ->
  gadd (Some (x, y1)) (Some (x, y2)) = None.
Proof.
move=> o1 o2 ne. have E1 := on_phi o1; have E2 := on_phi o2.
case: o1 => _ [r1 _]; case: o2 => _ [r2 _].
rewrite /gadd /zadd Z.eqb_refl.
have -> : ((y1 + y2) mod secp_P =? 0)%Z = true => //.
apply/Z.eqb_eq/(zph_eq0 zfP). rewrite phE.
have : (ph y1 - ph y2) * (ph y1 + ph y2) = 0 by rewrite -subr_sqr E1 E2 subrr.
move/eqP. rewrite mulf_eq0 => /orP [|/eqP //]. rewrite subr_eq0 => /eqP H.
by case: ne; apply: zph_small H.
Qed.

Section E.
Variable E : ext.
Hypothesis hE : ext_ok E.

Lemma on_gadd a b : on_secp a -> on_secp b -> on_secp (gadd a b).
Proof. exact: (zon_add hP hP3 hb). Qed.
Lemma on_gmul k a : on_secp a -> on_secp (gmul k a).
Proof. exact: (zon_mul hP hP3 hb). Qed.
Lemma on_gneg a : on_secp a -> on_secp (gneg a).
Proof. exact: (zon_neg hP hP3 hb). Qed.
Lemma on_gen : on_secp gen. Proof. exact: secp_G_on. Qed.

Lemma gadd_None_r a : gadd a None = a. Proof. by case: a => [[x y]|]. Qed.

Lemma value_zpt (q : zpt) (p : point) : on_secp q -> p = q -> value p = q.
Proof. move=> o ->. exact: value_on_pt. Qed.

Lemma CURVE_Add_value x1 y1 x2 y2 : on_secp (Some (x1, y1)) -> on_secp (Some (x2, y2)) ->
  (x1, y1) <> (x2, y2) ->
  value (Some (CURVE_Add x1 y1 x2 y2)) = gadd (Some (x1, y1)) (Some (x2, y2)).
Proof.
move=> o1 o2 ne. case: (Z.eq_dec x1 x2) => [ex|nx].
  subst x2. rewrite CURVE_Add_same same_x // => ey. by apply: ne; rewrite ey.
apply: value_zpt; first exact: on_gadd. exact: CURVE_Add_distinct.
Qed.

Lemma Multiply_value a b : valid a -> valid b -> value (Multiply E a b) = gadd (value a) (value b).
Proof.
rewrite /valid /Multiply => va vb.
case za : (IsZero a); first by rewrite (value_z za).
case zb : (IsZero b); first by rewrite (value_z zb) gadd_None_r.
move: va vb. rewrite (value_nz za) (value_nz zb).
case: a za => [[x1 y1]|] // za. case: b zb => [[x2 y2]|] // zb va vb.
case: Z.eqb_spec => [ex|nx] /=; last by apply: CURVE_Add_value => // -[].
case: Z.eqb_spec => [ey|ny] /=; last by apply: CURVE_Add_value => // -[].
subst. apply: value_zpt; first exact: on_gadd. exact: (ext_Double_ok _ hE).
Qed.
Lemma Multiply_valid a b : valid a -> valid b -> valid (Multiply E a b).
Proof. move=> va vb. rewrite /valid Multiply_value //. exact: on_gadd. Qed.

Lemma gmul_None k : gmul k None = None.
Proof.
have H n : Pos.iter (zadd secp_P None) None n = None.
  by elim/Pos.peano_ind: n => [|n IH] //; rewrite Pos.iter_succ IH.
by case: k => [|n|n] //; rewrite /gmul /zmul H.
Qed.

Local Notation em := (emb hP hP3 hb).
Lemma em_inj q r : on_secp q -> on_secp r -> em q = em r -> q = r.
Proof. exact: emb_inj. Qed.
Lemma em_mul k q : on_secp q -> em (gmul k q) = smul k (em q).
Proof. exact: emb_mul. Qed.
Lemma em_add q r : on_secp q -> on_secp r -> em (gadd q r) = em q + em r.
Proof. exact: emb_add. Qed.
Lemma em_neg q : on_secp q -> em (gneg q) = - em q.
Proof. exact: emb_neg. Qed.
Lemma em_None : em None = 0. Proof. exact: emb_None. Qed.
Lemma em_order q : on_secp q -> smul secp_N (em q) = 0.
Proof. move=> o. rewrite -em_mul // /gmul secp_order //. exact: em_None. Qed.

Lemma gmul_mod k q : on_secp q -> gmul (k mod secp_N) q = gmul k q.
Proof.
move=> o. apply: em_inj; [exact: on_gmul|exact: on_gmul|].
rewrite !em_mul //. apply: smul_mod. exact: em_order.
Qed.
Lemma bytes_scalar n : bytes_ok (Bytes (bmod n secp_N)) /\ SetBytes (Bytes (bmod n secp_N)) = (n mod secp_N)%Z
  /\ (n mod secp_N < secp_N)%Z.
Proof.
have N2 := prime_ge_2 _ secp_N_pr.
have R := Z.mod_pos_bound n secp_N ltac:(lia).
rewrite /Bytes /bmod Z.abs_eq; last by lia.
split; [|split]; last by lia.
- apply: (digits_digits_ok 256); lia.
- apply: (digits_val 256); lia.
Qed.

Lemma ScalarMult_value a n : valid a -> value (ScalarMult E a n) = gmul n (value a).
Proof.
rewrite /valid /ScalarMult => va.
case za : (IsZero a); first by rewrite (value_z za) gmul_None.
case: Z.eqb_spec => [->|n0] //.
move: va. rewrite (value_nz za). case: a za => [[x y]|] // za va.
have [bo [bv bl]] := bytes_scalar n.
apply: value_zpt; first exact: on_gmul.
by rewrite (ext_ScalarMult_ok _ hE) // bv // gmul_mod.
Qed.
Lemma ScalarMult_valid a n : valid a -> valid (ScalarMult E a n).
Proof. move=> va. rewrite /valid ScalarMult_value //. exact: on_gmul. Qed.
Lemma ScalarBaseMult_value n : value (ScalarBaseMult E n) = gmul n gen.
Proof.
rewrite /ScalarBaseMult. case: Z.eqb_spec => [->|n0] //.
have [bo [bv bl]] := bytes_scalar n.
apply: value_zpt; first by apply: on_gmul; exact: on_gen.
by rewrite (ext_ScalarBaseMult_ok _ hE) // bv // gmul_mod //; exact: on_gen.
Qed.
Lemma ScalarBaseMult_valid n : valid (ScalarBaseMult E n).
Proof. rewrite /valid ScalarBaseMult_value. apply: on_gmul. exact: on_gen. Qed.

(** Add *)
Lemma Add_value a b : valid a -> valid b ->
  value (Add a b) = if IsZero a then value b else if IsZero b then None
                    else if (match a, b with Some (x1, y1), Some (x2, y2) => (x1 =? x2)%Z && (y1 =? y2)%Z | _, _ => false end)
                    then None else gadd (value a) (value b).
Proof.
rewrite /valid /Add => va vb.
case za : (IsZero a) => //. case zb : (IsZero b); first by rewrite (value_z zb).
move: va vb. rewrite (value_nz za) (value_nz zb).
case: a za => [[x1 y1]|] // za. case: b zb => [[x2 y2]|] // zb va vb.
case: Z.eqb_spec => [ex|nx] /=; last by apply: CURVE_Add_value => // -[].
case: Z.eqb_spec => [ey|ny] /=; last by apply: CURVE_Add_value => // -[].
subst. by rewrite CURVE_Add_same.
Qed.
Lemma Add_valid a b : valid a -> valid b -> valid (Add a b).
Proof.
move=> va vb. rewrite /valid Add_value //. case: ifP => // _. case: ifP => // _.
have o : on_secp (gadd (value a) (value b)) by apply: on_gadd.
by case: a b {va vb} o => [[x1 y1]|] [[x2 y2]|] //; case: (_ && _).
Qed.
End E.
