(** * The vector helpers, in the field Z/N and in terms of discrete logarithms *)
From Coq Require Import ZArith Znumtheory List Bool Lia.
From mathcomp Require Import all_ssreflect all_algebra.
From Verif Require Import Base BaseFacts MCRing ZField P256 Pedersen SpecSecp SecpGroup SecpProofs SecpDL SecpLaws Vector.
Set Implicit Arguments.
Unset Strict Implicit.
Unset Printing Implicit Defensive.
Import GRing.Theory.
Local Open Scope ring_scope.
Delimit Scope Z_scope with Z.
Local Arguments Z.mul : simpl never.
Local Arguments Z.add : simpl never.
Local Arguments Z.sub : simpl never.
Local Arguments Z.modulo : simpl never.
Local Arguments Z.of_nat : simpl never.
Local Opaque secp_P secp_N secp_Gx secp_Gy ORDER value valid dl Multiply ScalarMult ScalarBaseMult Add Neg CommitG1 bmod ModInverse.
Local Notation ph := (zph zfN).

Definition pv (l : list Z) (i : nat) : FN := ph (List.nth i l 0%Z).
Definition dv (l : list point) (i : nat) : FN := dl (List.nth i l None).
Definition allv (l : list point) : Prop := List.Forall valid l.

Lemma ph_bmod z : ph (bmod z ORDER) = ph z. Proof. exact: zph_bmod. Qed.
Lemma bmod_lt z : (0 <= bmod z ORDER < ORDER)%Z.
Proof. apply: Z.mod_pos_bound. exact: SecpMain.N_pos. Qed.
Lemma dl_None : dl None = 0. Proof. exact: dl_Inf. Qed.
Lemma valid_None : valid None. Proof. exact: valid_Inf. Qed.

(** indexing past the end reads 0 resp. infinity *)
Lemma pv_nil i : pv [::] i = 0. Proof. rewrite /pv. case: i => [|i] /=; exact: zph_0. Qed.
Lemma dv_nil i : dv [::] i = 0. Proof. rewrite /dv. case: i => [|i] /=; exact: dl_None. Qed.

Lemma map2_length A B C (f : A -> B -> C) a b : List.length a = List.length b -> List.length (map2 f a b) = List.length a.
Proof. elim: a b => [|x a IH] [|y b] //= [] H. by rewrite IH. Qed.
Lemma nth_map2 A B C (f : A -> B -> C) a b da db dc i : List.length a = List.length b -> f da db = dc ->
  List.nth i (map2 f a b) dc = f (List.nth i a da) (List.nth i b db).
Proof.
move=> L D. elim: a b i L => [|x a IH] [|y b] [|i] //= [] L. exact: IH.
Qed.
Lemma len_eq A B (a : list A) (b : list B) : List.length a = List.length b -> (len a =? len b)%Z = true.
Proof. rewrite /len => ->. exact: Z.eqb_refl. Qed.
Lemma len_neq A B (a : list A) (b : list B) : List.length a <> List.length b -> (len a =? len b)%Z = false.
Proof. rewrite /len => H. apply/Z.eqb_neq. lia. Qed.

Section Two.
Variables (a b : list Z).
Hypothesis L : List.length a = List.length b.
Lemma VectorAdd_ok : exists c, VectorAdd a b = Ok c /\ List.length c = List.length a /\
  forall i, pv c i = pv a i + pv b i.
Proof.
rewrite /VectorAdd (len_eq L) /=. eexists. split; first exact: erefl.
split; first exact: map2_length. move=> i. rewrite /pv -zph_add.
rewrite (@nth_map2 _ _ _ _ a b 0%Z 0%Z) ?ph_bmod //.
Qed.
Lemma VectorSub_ok : exists c, VectorSub a b = Ok c /\ List.length c = List.length a /\
  forall i, pv c i = pv a i - pv b i.
Proof.
rewrite /VectorSub (len_eq L) /=. eexists. split; first exact: erefl.
split; first exact: map2_length. move=> i. rewrite /pv -zph_sub.
rewrite (@nth_map2 _ _ _ _ a b 0%Z 0%Z) ?ph_bmod //.
Qed.
Lemma VectorMul_ok : exists c, VectorMul a b = Ok c /\ List.length c = List.length a /\
  forall i, pv c i = pv a i * pv b i.
Proof.
rewrite /VectorMul (len_eq L) /=. eexists. split; first exact: erefl.
split; first exact: map2_length. move=> i. rewrite /pv -zph_mul.
rewrite (@nth_map2 _ _ _ _ a b 0%Z 0%Z) ?ph_bmod //.
Qed.
Lemma ScalarProduct_ok : exists c, ScalarProduct a b = Ok c /\ ph c = \sum_(i < List.length a) pv a i * pv b i
  /\ (0 <= c < ORDER)%Z.
Proof.
rewrite /ScalarProduct (len_eq L) /=. eexists. split; first exact: erefl.
have R0 : (0 <= 0 < ORDER)%Z by split; [|exact: SecpMain.N_pos].
suff H a' b' r : List.length a' = List.length b' -> (0 <= r < ORDER)%Z ->
  let c := List.fold_left (fun r ab => bmod (r + fst ab * snd ab) ORDER) (List.combine a' b') r in
  ph c = ph r + \sum_(i < List.length a') pv a' i * pv b' i /\ (0 <= c < ORDER)%Z.
  have [-> R] := H a b 0%Z L R0. by rewrite zph_0 add0r.
elim: a' b' r => [|x a' IH] [|y b'] r //= L' R.
  by rewrite big_ord0 addr0.
case: L' => L'. have [-> B] := IH b' (bmod (r + x * y) ORDER) L' (bmod_lt _). split; last exact: B.
rewrite big_ord_recl ph_bmod zph_add zph_mul addrA. by [].
Qed.
End Two.
Lemma VectorScalarMul_ok a b : exists c, VectorScalarMul a (Some b) = Ok c /\ List.length c = List.length a /\
  forall i, pv c i = pv a i * ph b.
Proof.
exists (List.map (fun x => bmod (x * b) ORDER) a). split; first by case: a. split; first exact: List.map_length.
move=> i. rewrite /pv. elim: a i => [|x a IH] [|i] /=; rewrite ?zph_0 ?mul0r //.
by rewrite ph_bmod zph_mul.
Qed.
Lemma VectorScalarMul_nil a : a <> nil -> VectorScalarMul a None = Panic.
Proof. by case: a. Qed.

Lemma VectorCopy_ok a n : exists c, VectorCopy a (Z.of_nat n) = Ok c /\ List.length c = n /\
  forall i, (i < n)%nat -> pv c i = ph a.
Proof.
rewrite /VectorCopy /make_ok. have -> : (Z.of_nat n <? 0)%Z = false by apply/Z.ltb_ge; lia.
rewrite Nat2Z.id. eexists. split; first exact: erefl. split; first exact: List.repeat_length.
rewrite /pv. elim: n => [|n IH] [|i] //= H. exact: IH.
Qed.
Lemma VectorConvertToBig_ok a n : List.length a = n -> VectorConvertToBig a (Z.of_nat n) = Ok a.
Proof.
move=> <-. rewrite /VectorConvertToBig /len. have -> : (Z.of_nat (List.length a) <? 0)%Z = false by apply/Z.ltb_ge; lia.
by rewrite Z.ltb_irrefl Nat2Z.id List.firstn_all.
Qed.
Lemma powerOf_ok x n : exists c, powerOf x (Z.of_nat n) = Ok c /\ List.length c = n /\
  forall i, (i < n)%nat -> pv c i = ph x ^+ i.
Proof.
rewrite /powerOf /make_ok. have -> : (Z.of_nat n <? 0)%Z = false by apply/Z.ltb_ge; lia.
rewrite Nat2Z.id. eexists. split; first exact: erefl.
have H c : List.length (powerOf_loop x c n) = n /\ forall i, (i < n)%nat -> pv (powerOf_loop x c n) i = ph c * ph x ^+ i.
  elim: n c => [|n IH] c //=. have [L P] := IH (bmod (c * x) ORDER). split; first by rewrite L.
  case=> [|i] Hi; first by rewrite /pv /= expr0 mulr1.
  rewrite /pv /= -/(pv _ _) P //. by rewrite ph_bmod zph_mul exprS mulrA.
have [L P] := H 1%Z. split; first exact: L. move=> i Hi. by rewrite P // zph_1 mul1r.
Qed.

Section E.
Variable E : ext.
Hypothesis hE : ext_ok E.
Lemma valid_nth l i : allv l -> valid (List.nth i l None).
Proof.
move=> H. elim: H i => [|p l' vp _ IH] [|i] /=; try exact: valid_None; [exact: vp|exact: IH].
Qed.
Lemma VectorExp_ok a b : List.length a = List.length b -> allv a ->
  exists R, VectorExp E a b = Ok R /\ valid R /\ dl R = \sum_(i < List.length a) dv a i * pv b i.
Proof.
move=> L va. rewrite /VectorExp (len_eq L) /=. eexists. split; first exact: erefl.
suff H R : valid R ->
  let c := List.fold_left (fun r ab => Multiply E r (ScalarMult E (fst ab) (snd ab))) (List.combine a b) R in
  valid c /\ dl c = dl R + \sum_(i < List.length a) dv a i * pv b i.
  have [v ->] := H _ valid_None. split; first exact: v. by rewrite dl_None add0r.
elim: va b R L => [|p a' vp _ IH] [|y b'] R //= L vR.
  by split=> //; rewrite big_ord0 addr0.
case: L => L. have vS := ScalarMult_valid hE y vp. have vM := Multiply_valid hE vR vS.
have [v D] := IH b' _ L vM. split; first exact: v. rewrite D big_ord_recl addrA. congr (_ + _).
by rewrite (dl_Multiply hE) // (dl_ScalarMult hE) // mulrC.
Qed.
Lemma VectorECAdd_ok a b : List.length a = List.length b -> allv a -> allv b ->
  exists c, VectorECAdd E a b = Ok c /\ List.length c = List.length a /\ allv c /\ forall i, dv c i = dv a i + dv b i.
Proof.
move=> L va vb. rewrite /VectorECAdd (len_eq L) /=. eexists. split; first exact: erefl.
split; first exact: map2_length. elim: va b vb L => [|p a' vp _ IH] b vb.
  case: b vb => [|q b'] vb //= _. split; first exact: List.Forall_nil. move=> i. by rewrite !dv_nil addr0.
case: vb => [|q b' vq vb'] //= [] L. have [v D] := IH _ vb' L. have vM := Multiply_valid hE vp vq.
split; first by apply: List.Forall_cons. case=> [|i]; rewrite /dv /=; last exact: D.
exact: (dl_Multiply hE).
Qed.
Lemma ModInverse_cases x : (exists2 i, ModInverse x ORDER = Some i & ph i = (ph x)^-1 /\ ph x != 0)
  \/ (ModInverse x ORDER = None /\ ph x = 0).
Proof.
case: (Z.eq_dec (x mod secp_N) 0) => [H|H].
  right. split; last by apply/zph_eq0. apply: ModInverse_None; first by have := zf_P1 secp_N_pr.
  move=> G. have D : (secp_N | x)%Z by apply/Z.mod_divide => //; have := SecpMain.N_pos; lia.
  have := Z.gcd_greatest _ _ _ D (Z.divide_refl secp_N). rewrite G => /Z.divide_1_r_nonneg.
  have := zf_P1 secp_N_pr. have := SecpMain.N_pos. move: secp_N => n. lia.
left. have [i Ei Pi] := zph_ModInverse secp_N_pr zfN H. exists i; first exact: Ei. split; first exact: Pi.
exact: zph_neq0.
Qed.
Lemma ScalarMultP_ok p n : valid p -> valid (ScalarMult E p n) /\ dl (ScalarMult E p n) = ph n * dl p.
Proof. move=> vp. split; [exact: (ScalarMult_valid hE)|exact: (dl_ScalarMult hE)]. Qed.
End E.
