(** * Proofs of C10-C17 *)
From Coq Require Import ZArith Znumtheory List Bool Lia.
From mathcomp Require Import all_ssreflect all_algebra.
From Verif Require Import Base BaseFacts ByteConv SpecCodec MCRing SpecCurve ZCurve ZField P256 Pedersen SpecSecp SecpGroup SecpProofs SecpDL SecpMain.
Set Implicit Arguments.
Unset Strict Implicit.
Unset Printing Implicit Defensive.
Import GRing.Theory.
Local Open Scope ring_scope.
Delimit Scope Z_scope with Z.
Local Arguments Z.mul : simpl never.
Local Arguments Z.add : simpl never.
Local Arguments Z.sub : simpl never.
Local Arguments Z.modulo : simpl never.
Local Arguments value : simpl never.
Local Arguments gadd : simpl never.
Local Arguments gmul : simpl never.
Local Arguments gneg : simpl never.
Local Opaque secp_P secp_N secp_Gx secp_Gy.
Local Notation phN := (zph zfN).

Lemma two_N0 : (2%:R : FN) != 0.
Proof. rewrite -(zph_nat zfN 2). apply: zph_neq0. exact: N_odd. Qed.
Lemma dbl_eq0 (x : FN) : x + x = 0 -> x = 0.
Proof. move/eqP. rewrite -mulr2n -mulr_natl mulf_eq0 (negbTE two_N0) /=. by move/eqP. Qed.

Lemma swap_sub (a b c d : FN) : a + b = c + d -> a - c = d - b.
Proof. move=> H. apply/eqP. by rewrite subr_eq addrAC eq_sym subr_eq H addrC. Qed.

Section A.
Variables (E : ext). Hypothesis hE : ext_ok E.

Lemma CURVE_Add_value' x1 y1 x2 y2 : on_secp (Some (x1, y1)) -> on_secp (Some (x2, y2)) ->
  (x1, y1) <> (x2, y2) ->
  value (Some (CURVE_Add x1 y1 x2 y2)) = gadd (Some (x1, y1)) (Some (x2, y2)).
Proof. exact: CURVE_Add_value. Qed.
Lemma no_2torsion q : on_secp q -> gadd q q = None -> q = None.
Proof.
move=> o H. apply/(dlz_eq0 o). apply: dbl_eq0. rewrite -(dlz_add o o) H. exact: dlz_None.
Qed.
Lemma CURVE_Add_equal x y : on_secp (Some (x, y)) ->
  CURVE_Add x y x y = (0, 0)%Z /\ gadd (Some (x, y)) (Some (x, y)) <> None.
Proof.
move=> o. split; first exact: CURVE_Add_same. move=> /(no_2torsion o) H. discriminate H.
Qed.
Lemma gneg_gen_ne : gneg gen <> gen.
Proof.
move=> H. have o := on_gen. have := dlz_neg o. rewrite H => /eqP. rewrite -addr_eq0 => /eqP/dbl_eq0.
move=> /(dlz_eq0 o) H'. discriminate H'.
Qed.
Lemma C10_example : on_secp gen /\ on_secp (gneg gen) /\ gneg gen <> gen.
Proof. split; first exact: on_gen. split; first exact: (on_gneg on_gen). exact: gneg_gen_ne. Qed.

Lemma ext_ref_ok : ext_ok ext_ref.
Proof.
split.
- move=> x y o. rewrite /ext_ref /=. have [_] := CURVE_Add_equal o.
  case: (gadd _ _) => [q|] H; first exact: erefl. by case: H.
- move=> x y bs _ _ _. exact: erefl.
- move=> bs _ _. exact: erefl.
Qed.

Lemma Multiply_law a b : valid a -> valid b ->
  valid (Multiply E a b) /\ value (Multiply E a b) = gadd (value a) (value b).
Proof. move=> va vb. split; [exact: (Multiply_valid hE)|exact: (Multiply_value hE)]. Qed.
Local Notation MV := (Multiply_valid hE).
Local Notation DM := (dl_Multiply hE).
Lemma Multiply_group :
  (forall a b, valid a -> valid b -> value (Multiply E a b) = value (Multiply E b a)) /\
  (forall a b c, valid a -> valid b -> valid c ->
     value (Multiply E (Multiply E a b) c) = value (Multiply E a (Multiply E b c))) /\
  (forall a o, valid a -> value o = None -> value (Multiply E o a) = value a /\ value (Multiply E a o) = value a) /\
  (forall a, valid a -> exists b, valid b /\ value (Multiply E a b) = None).
Proof.
split.
  move=> a b va vb. apply: (dl_inj (MV va vb) (MV vb va)). rewrite (DM va vb) (DM vb va). exact: addrC.
split.
  move=> a b c va vb vc. have vab := MV va vb. have vbc := MV vb vc.
  apply: (dl_inj (MV vab vc) (MV va vbc)).
  rewrite (DM vab vc) (DM va vbc) (DM va vb) (DM vb vc). apply/esym. exact: addrA.
split.
  move=> a o va vo. have ho : valid o by rewrite /valid vo.
  have do0 : dl o = 0 by rewrite /dl vo; exact: dlz_None.
  split.
    apply: (dl_inj (MV ho va) va). by rewrite (DM ho va) do0 add0r.
  apply: (dl_inj (MV va ho) va). by rewrite (DM va ho) do0 addr0.
move=> a va. have on := on_gneg va. exists (gneg (value a)).
have vn : valid (gneg (value a)) by exact: valid_on.
split; first exact: vn.
have vm := MV va vn. apply/(dlz_eq0 vm). rewrite -/(dl _) (DM va vn) /dl (value_on_pt on) (dlz_neg va).
exact: subrr.
Qed.
Lemma valid_gen : valid gen. Proof. exact: valid_on on_gen. Qed.
Lemma value_gen : value gen = gen. Proof. exact: value_on_pt on_gen. Qed.
Lemma C11_example : valid gen /\ valid None /\ valid (Some (0, 0)%Z) /\ valid (gneg gen).
Proof.
split; first exact: valid_gen. split; first exact: I. split; first exact: I.
apply: valid_on. exact: on_gneg on_gen.
Qed.

(** Add *)
Lemma value0 a : valid a -> (dl a == 0) = (if value a is None then true else false).
Proof. move=> va. by rewrite -(dl_IsZero va) IsZeroE. Qed.
Lemma Add_iff a b : valid a -> valid b ->
  (value (Add a b) = gadd (value a) (value b) <->
   dl (Add a b) = dl a + dl b).
Proof.
move=> va vb. have o := on_gadd va vb. split=> H.
  by rewrite {1}/dl H (dlz_add va vb).
apply: (dlz_inj (Add_valid va vb) o). by rewrite -/(dl _) H (dlz_add va vb).
Qed.
Lemma Add_exact a b : valid a -> valid b ->
  (value (Add a b) = gadd (value a) (value b) <->
   value a = None \/ (value b <> None /\ value a <> value b)).
Proof.
move=> va vb. rewrite (Add_iff va vb) (dl_Add va vb).
case: eqP => [a0|a0].
  rewrite a0 add0r. split=> // _. left. by apply/(dlz_eq0 va).
case: eqP => [b0|b0] /=.
  rewrite b0 addr0. split=> [H|[H|[H _]]].
  - by case: a0.
  - by case: a0; apply/(dlz_eq0 va).
  - by case: H; apply/(dlz_eq0 vb).
case: eqP => [ab|ab] /=.
  rewrite -ab. split=> [/esym/dbl_eq0 H|[H|[_ H]]].
  - by case: a0.
  - by case: a0; apply/(dlz_eq0 va).
  - case: H. exact: dl_inj.
split=> // _. right. split=> H; first by case: b0; apply/(dlz_eq0 vb).
by case: ab; rewrite /dl H.
Qed.
Lemma Add_wrong a b : valid a -> valid b -> value a <> None ->
  (value b = None \/ value a = value b) ->
  value (Add a b) = None /\ gadd (value a) (value b) <> None.
Proof.
move=> va vb na H.
have a0 : dl a != 0 by apply/eqP => /(dlz_eq0 va).
have z : value (Add a b) = None.
  apply/(dlz_eq0 (Add_valid va vb)). rewrite -/(dl _) (dl_Add va vb) (negbTE a0).
  case: H => H; first by rewrite {1}/dl H dlz_None eqxx.
  by rewrite /dl H eqxx orbT.
split; first exact: z. move=> H'.
have := Add_exact va vb. rewrite z H' => -[/(_ erefl) [//|[nb nab]] _]. by case: H.
Qed.
Lemma gen_None : gen <> None. Proof. discriminate. Qed.
Lemma C12_example : valid gen /\ value gen <> None /\ value (Add gen None) = None /\ value (Add gen gen) = None.
Proof.
have v := valid_gen. have n : value gen <> None by rewrite value_gen; exact: gen_None.
split; first exact: v. split; first exact: n. split.
  by have [-> _] := Add_wrong v valid_Inf n (or_introl erefl).
by have [-> _] := Add_wrong v v n (or_intror erefl).
Qed.

(** order *)
Lemma secp_order' q : on_secp q -> gmul secp_N q = None.
Proof. exact: secp_order. Qed.
Lemma secp_bijection q : on_secp q -> exists! k, (0 <= k < secp_N)%Z /\ gmul k gen = q.
Proof.
move=> o. have [k [rk E']] := secp_gen o. exists k. split.
  by split; last rewrite E'.
move=> k' [rk' E'']. rewrite E' in E''. have := gmul_gen_inj E''. move/zph_small => H. symmetry. exact: H.
Qed.
Lemma scal_surj (b d : FN) : d != 0 -> exists2 k, (0 <= k < secp_N)%Z & phN k * d = b.
Proof.
move=> d0. have [k [rk ek]] := @zph_surj _ zfN (b / d). exists k; first exact: rk.
rewrite ek. exact: divfK.
Qed.
Lemma secp_generates q r : on_secp q -> on_secp r -> q <> None ->
  exists k, (0 <= k < secp_N)%Z /\ gmul k q = r.
Proof.
move=> oq or nq. have d0 : dlz q != 0 by apply/eqP => /(dlz_eq0 oq).
have [k rk ek] := scal_surj (dlz r) d0. exists k. split; first exact: rk.
apply: (dlz_inj (on_gmul k oq) or). by rewrite (dlz_mul k oq).
Qed.
(** ScalarMult *)
Lemma ScalarMult_law a n : valid a ->
  valid (ScalarMult E a n) /\ value (ScalarMult E a n) = gmul n (value a).
Proof. move=> va. split; [exact: (ScalarMult_valid hE)|exact: (ScalarMult_value hE)]. Qed.
Lemma ScalarBaseMult_law n :
  valid (ScalarBaseMult E n) /\ value (ScalarBaseMult E n) = gmul n gen.
Proof. split; [exact: (ScalarBaseMult_valid hE)|exact: (ScalarBaseMult_value hE)]. Qed.
Lemma ScalarMult_action a m n : valid a ->
  value (ScalarMult E a (m + n)) = value (Multiply E (ScalarMult E a m) (ScalarMult E a n)) /\
  value (ScalarMult E a (m * n)) = value (ScalarMult E (ScalarMult E a m) n) /\
  value (ScalarMult E a (m mod secp_N)) = value (ScalarMult E a m) /\
  value (ScalarMult E a 1) = value a.
Proof.
move=> va. have SV k : valid (ScalarMult E a k) := ScalarMult_valid hE k va.
have DS k : dl (ScalarMult E a k) = phN k * dl a := dl_ScalarMult hE k va.
split.
  apply: (dl_inj (SV _) (MV (SV m) (SV n))). by rewrite (DM (SV m) (SV n)) !DS zph_add mulrDl.
split.
  apply: (dl_inj (SV _) (ScalarMult_valid hE n (SV m))).
  by rewrite (dl_ScalarMult hE n (SV m)) !DS zph_mul mulrCA mulrA.
split.
  apply: (dl_inj (SV _) (SV m)). by rewrite !DS zph_mod.
apply: (dl_inj (SV _) va). by rewrite DS zph_1 mul1r.
Qed.

(** Neg *)
Lemma dl_N1 : phN (secp_N - 1) = -1.
Proof. by rewrite zph_sub zph_P zph_1 add0r. Qed.
Lemma Neg_law p a : valid p -> valid a ->
  value (Neg E p a) = match value a with None => None | Some _ => gneg (value p) end.
Proof.
move=> vp va. rewrite /Neg IsZeroE. case: (value a) => [_|]; last exact: erefl.
rewrite (ScalarMult_value hE _ vp). apply: (dlz_inj (on_gmul _ vp) (on_gneg vp)).
by rewrite (dlz_mul _ vp) (dlz_neg vp) dl_N1 mulN1r.
Qed.
Lemma Neg_in_place a : valid a -> value (Neg E a a) = gneg (value a).
Proof. move=> va. rewrite Neg_law; [|exact: va|exact: va]. by case: (value a). Qed.
Lemma Neg_wrong p a : valid p -> valid a ->
  (value (Neg E p a) <> gneg (value a) <-> value a <> None /\ value p <> value a).
Proof.
move=> vp va. rewrite Neg_law; [|exact: vp|exact: va].
have: value a = None \/ value a <> None by case: (value a) => [q|]; [right|left].
case=> na.
  rewrite na. split=> [H|[H _]]; by case: H.
have -> : match value a with Some _ => gneg (value p) | None => None end = gneg (value p) by case: (value a) na.
split=> [H|[_ H]].
  split; first exact: na. by move=> H'; case: H; rewrite H'.
move=> H'. case: H. apply: (dlz_inj vp va). apply: oppr_inj.
by rewrite -(dlz_neg vp) -(dlz_neg va) H'.
Qed.

(** CommitG1 *)
Section C.
Variables (h : point). Hypothesis vh : valid h.
Lemma CommitG1_valid x r : valid (CommitG1 E x r h).
Proof. apply: Add_valid; [exact: (ScalarBaseMult_valid hE)|exact: (ScalarMult_valid hE)]. Qed.
Lemma dl_CommitG1 x r : dl (CommitG1 E x r h) =
  if phN x == 0 then phN r * dl h
  else if (phN r * dl h == 0) || (phN x == phN r * dl h) then 0 else phN x + phN r * dl h.
Proof.
rewrite /CommitG1 dl_Add; [|exact: (ScalarBaseMult_valid hE)|exact: (ScalarMult_valid hE)].
by rewrite (dl_ScalarBaseMult hE) (dl_ScalarMult hE r vh).
Qed.
Lemma gmul_h_eq0 r : gmul r (value h) = None <-> phN r * dl h = 0.
Proof. rewrite -(dlz_mul r vh). apply: iff_sym. apply: dlz_eq0. exact: on_gmul. Qed.
Lemma gmul_h_eq x r : gmul x gen = gmul r (value h) <-> phN x = phN r * dl h.
Proof.
rewrite -(dlz_mul r vh) -(dlz_gmul x). split=> [->//|].
apply: dlz_inj; apply: on_gmul; [exact: on_gen|exact: vh].
Qed.
Lemma on_pedersen x r : on_secp (pedersen x r h).
Proof. apply: on_gadd; apply: on_gmul; [exact: on_gen|exact: vh]. Qed.
Lemma dlz_pedersen x r : dlz (pedersen x r h) = phN x + phN r * dl h.
Proof.
rewrite /pedersen dlz_add; [|apply: on_gmul; exact: on_gen|exact: on_gmul].
by rewrite dlz_gmul (dlz_mul r vh).
Qed.
Lemma CommitG1_law x r :
  valid (CommitG1 E x r h) /\
  (gmul r (value h) <> None -> gmul x gen <> gmul r (value h) ->
   value (CommitG1 E x r h) = pedersen x r h).
Proof.
split; first exact: CommitG1_valid.
rewrite gmul_h_eq0 gmul_h_eq => /eqP n0 /eqP n1.
apply: (dlz_inj (CommitG1_valid x r) (on_pedersen x r)).
rewrite -/(dl _) dl_CommitG1 dlz_pedersen (negbTE n0) (negbTE n1) /=.
by case: eqP => // ->; rewrite add0r.
Qed.
(** for x = 0 mod N the commitment is h^r *)
Lemma CommitG1_zero x r : (x mod secp_N = 0)%Z -> value (CommitG1 E x r h) = pedersen x r h.
Proof.
move=> x0. apply: (dlz_inj (CommitG1_valid x r) (on_pedersen x r)).
rewrite -/(dl _) dl_CommitG1 dlz_pedersen. have -> : phN x = 0 by apply/zph_eq0.
by rewrite eqxx add0r.
Qed.
Lemma CommitG1_wrong x r :
  gmul r (value h) = None \/ gmul x gen = gmul r (value h) ->
  value (CommitG1 E x r h) = None.
Proof.
rewrite gmul_h_eq0 gmul_h_eq => H. apply/(dlz_eq0 (CommitG1_valid x r)).
rewrite -/(dl _) dl_CommitG1. case: H => H.
  by rewrite H eqxx; case: ifP.
rewrite H eqxx orbT. case: ifP => // /eqP H'. by rewrite H'.
Qed.
Lemma CommitG1_exact x r : value (CommitG1 E x r h) = pedersen x r h <->
   (x mod secp_N = 0)%Z \/ (gmul r (value h) <> None /\ gmul x gen <> gmul r (value h)).
Proof.
split; last by case=> [/CommitG1_zero->//|[n0 n1]]; exact: (proj2 (CommitG1_law x r)).
rewrite gmul_h_eq0 gmul_h_eq -(zph_eq0 zfN) => H.
have := congr1 dlz H. rewrite -/(dl _) dl_CommitG1 dlz_pedersen.
case: eqP => [x0 _|x0]; first by left.
case: eqP => [-> /=|r0 /=]; first by rewrite addr0 => /esym.
case: eqP => [r1|r1] /=; last by move=> _; right.
rewrite -r1 => /esym/dbl_eq0. by [].
Qed.
Lemma hiding x C : value h <> None -> on_secp C ->
  ((exists r, (0 <= r < secp_N)%Z /\ value (CommitG1 E x r h) = C) <->
   C = None \/ (x mod secp_N = 0)%Z \/ (C <> gmul x gen /\ C <> gmul (2 * x) gen)).
Proof.
move=> nh oC. have d0 : dl h != 0 by apply/eqP => /(dlz_eq0 vh).
have ox := on_gmul x on_gen; have o2x := on_gmul (2 * x) on_gen.
have key r : value (CommitG1 E x r h) = C <-> dl (CommitG1 E x r h) = dlz C.
  split=> [<-//|]. exact: (dlz_inj (CommitG1_valid x r) oC).
have ne1 : C <> gmul x gen <-> dlz C <> phN x.
  rewrite -(dlz_gmul x). split=> H H'; apply: H; [exact: (dlz_inj oC ox)|by rewrite H'].
have ne2 : C <> gmul (2 * x) gen <-> dlz C <> phN x + phN x.
  have -> : phN x + phN x = dlz (gmul (2 * x) gen).
    rewrite dlz_gmul -zph_add. congr (phN _). lia.
  split=> H H'; apply: H; [exact: (dlz_inj oC o2x)|by rewrite H'].
rewrite ne1 ne2 -(dlz_eq0 oC) -(zph_eq0 zfN). split.
  move=> [r [_ /key]]. rewrite dl_CommitG1. case: eqP => [x0 _|x0]; first by right; left.
  case: eqP => [r0|r0] /=; first by left.
  case: eqP => [r1|r1] <-; first by left. right; right.
  split=> [H|/addrI H]; last by case: r1.
  apply: r0. apply: (addrI (phN x)). by rewrite addr0.
case: (eqVneq (phN x) 0) => x0.
  move=> _. have [r rr er] := scal_surj (dlz C) d0. exists r. split; first exact: rr.
  apply/key. by rewrite dl_CommitG1 x0 eqxx.
case: (eqVneq (dlz C) 0) => c0.
  move=> _. exists 0%Z. split; first by have := N_pos; lia.
  apply/key. by rewrite dl_CommitG1 zph_0 mul0r eqxx (negbTE x0).
case=> [/eqP|]; first by rewrite (negbTE c0).
case=> [/eqP|[n1 n2]]; first by rewrite (negbTE x0).
have [r rr er] := scal_surj (dlz C - phN x) d0. exists r. split; first exact: rr.
apply/key. rewrite dl_CommitG1 er (negbTE x0) subr_eq0.
move/eqP: n1 => /negbTE ->. rewrite eq_sym subr_eq. move/eqP: n2 => /negbTE -> /=.
by rewrite addrC subrK.
Qed.
Lemma hiding_ideal x C : value h <> None -> on_secp C ->
  exists! r, (0 <= r < secp_N)%Z /\ pedersen x r h = C.
Proof.
move=> nh oC. have d0 : dl h != 0 by apply/eqP => /(dlz_eq0 vh).
have key r : pedersen x r h = C <-> phN x + phN r * dl h = dlz C.
  rewrite -dlz_pedersen. split=> [->//|]. exact: (dlz_inj (on_pedersen x r) oC).
have [r rr er] := scal_surj (dlz C - phN x) d0. exists r. split.
  split; first exact: rr. apply/key. by rewrite er addrC subrK.
move=> r' [rr' /key H]. apply: (zph_small rr rr'). apply: (mulIf d0). rewrite er -H. by rewrite addrC addKr.
Qed.
Lemma CommitG1_nz x r : value (CommitG1 E x r h) <> None -> dl (CommitG1 E x r h) = phN x + phN r * dl h.
Proof.
move=> n. have: dl (CommitG1 E x r h) <> 0 by move/(dlz_eq0 (CommitG1_valid x r)).
rewrite dl_CommitG1. case: eqP => [->|_]; first by rewrite add0r. by case: ifP.
Qed.
Lemma binding x r x' r' :
  value (CommitG1 E x r h) = value (CommitG1 E x' r' h) -> value (CommitG1 E x r h) <> None ->
  (x mod secp_N <> x' mod secp_N)%Z ->
  gmul ((x - x') * inv_mod secp_N (r' - r)) gen = value h.
Proof.
move=> e n nx. have n' : value (CommitG1 E x' r' h) <> None by rewrite -e.
have := congr1 dlz e. rewrite -!/(dl _) (CommitG1_nz n) (CommitG1_nz n') => H.
have H' : phN x - phN x' = (phN r' - phN r) * dl h.
  rewrite mulrBl. exact: swap_sub H.
apply: (dlz_inj (on_gmul _ on_gen) vh).
rewrite dlz_gmul zph_mul (zph_inv secp_N_pr) !zph_sub H' mulrAC -/(dl h) mulfV ?mul1r //.
apply/eqP => H2. apply: nx. apply/(zph_eq zfN). apply/eqP. by rewrite -subr_eq0 H' H2 mul0r.
Qed.
Lemma homomorphic x r x' r' :
  value (CommitG1 E x r h) <> None -> value (CommitG1 E x' r' h) <> None ->
  value (CommitG1 E (x + x') (r + r') h) <> None ->
  value (Multiply E (CommitG1 E x r h) (CommitG1 E x' r' h)) = value (CommitG1 E (x + x') (r + r') h).
Proof.
move=> n n' n''. have v y s := CommitG1_valid y s.
apply: (dl_inj (MV (v _ _) (v _ _)) (v _ _)).
rewrite (DM (v _ _) (v _ _)) (CommitG1_nz n) (CommitG1_nz n') (CommitG1_nz n'') !zph_add mulrDl.
by rewrite addrACA.
Qed.
Lemma binding_broken x x' k :
  value (CommitG1 E x (k * secp_N) h) = None /\
  value (CommitG1 E x (k * secp_N) h) = value (CommitG1 E x' (k * secp_N) h).
Proof.
have z : gmul (k * secp_N) (value h) = None.
  apply/gmul_h_eq0. by rewrite zph_mul zph_P mulr0 mul0r.
have H y := @CommitG1_wrong y _ (or_introl z). by rewrite !H.
Qed.
End C.
End A.
Lemma C15_example : value (Neg ext_ref None gen) = None /\ gneg (value gen) <> None.
Proof.
split.
  rewrite (Neg_law ext_ref_ok); [|exact: valid_Inf|exact: valid_gen]. by case: (value gen).
rewrite value_gen. discriminate.
Qed.
Lemma ph1 : phN 1 = 1. Proof. exact: zph_1. Qed.
Lemma ph2 : phN 2 = 2%:R. Proof. exact: (zph_nat zfN 2). Qed.
Lemma ph3 : phN 3 = 3%:R. Proof. exact: (zph_nat zfN 3). Qed.
Lemma N3 : (3 mod secp_N <> 0)%Z. Proof. Local Transparent secp_N. by vm_compute. Qed.
Local Opaque secp_N.
Lemma on_g k : on_secp (gmul k gen). Proof. exact: on_gmul on_gen. Qed.
Lemma C16_example : gmul 1 (value (gmul 2 gen)) <> None /\ gmul 1 gen <> gmul 1 (value (gmul 2 gen)) /\
  gmul secp_N (value gen) = None /\ valid gen /\ valid (gmul 2 gen).
Proof.
rewrite (value_on_pt (on_g 2)) value_gen.
have E2 : dlz (gmul 1 (gmul 2 gen)) = 2%:R.
  by rewrite (dlz_mul 1 (on_g 2)) dlz_gmul ph1 ph2 mul1r.
split.
  move=> H. move/eqP: E2. by rewrite H dlz_None eq_sym (negbTE two_N0).
split.
  move=> H. move/eqP: E2. rewrite -H dlz_gmul ph1 mulr2n eq_sym -subr_eq0 addrK.
  by rewrite oner_eq0.
split; first exact: (secp_order' on_gen). split; first exact: valid_gen. exact: valid_on (on_g 2).
Qed.
Lemma C17_example : value (CommitG1 ext_ref 1 1 (gmul 2 gen)) = gmul 3 gen /\ gmul 3 gen <> None.
Proof.
have [a [b [_ [_ v]]]] := C16_example.
split.
  rewrite (proj2 (CommitG1_law ext_ref_ok v 1 1) a b).
  apply: (dlz_inj (on_pedersen v 1 1) (on_g 3)).
  rewrite (dlz_pedersen v) /dl (value_on_pt (on_g 2)) !dlz_gmul -zph_mul -zph_add. exact: erefl.
move=> /(dlz_eq0 (on_g 3)). rewrite dlz_gmul. apply/eqP. apply: zph_neq0. exact: N3.
Qed.
