(** * The points of a curve y^2 = x^3 + b over any field form a group. *)
From Coq Require Import ZArith Lia.
From mathcomp Require Import all_ssreflect all_algebra.
From Verif Require Import ZMod MCRing EC ECGroup.
Set Implicit Arguments.
Unset Strict Implicit.
Unset Printing Implicit Defensive.
Import GRing.Theory.
Local Open Scope ring_scope.
Delimit Scope Z_scope with Z.

Record fcurve : Type := FCurve {
  fcF : fieldType;
  fcb : fcF;
  fc2 : (2%:R : fcF) != 0;
  fc3 : (3%:R : fcF) != 0;
  fc_b : fcb != 0 }.
Record fpoint (c : fcurve) : Type := FPoint { fpv :> pt (fcF c); fpP : on_curve (fcb c) fpv }.

(** k-fold sum *)
Definition ptmul (F : fieldType) (k : Z) (p : pt F) : pt F :=
  match k with
  | Z0 => Inf
  | Zpos n => Pos.iter (pt_add p) Inf n
  | Zneg n => pt_neg (Pos.iter (pt_add p) Inf n)
  end.

Section Sub.
Variable c : fcurve.
Canonical fp_subType := Eval hnf in [subType for @fpv c].
Definition fp_eqMixin := [eqMixin of fpoint c by <:].
Canonical fp_eqType := Eval hnf in EqType (fpoint c) fp_eqMixin.
Definition fp_choiceMixin := [choiceMixin of fpoint c by <:].
Canonical fp_choiceType := Eval hnf in ChoiceType (fpoint c) fp_choiceMixin.
Definition fp0 : fpoint c := @FPoint c Inf isT.
Definition fpneg (p : fpoint c) : fpoint c := FPoint (oc_neg (fpP p)).
Definition fpadd (p q : fpoint c) : fpoint c := FPoint (oc_add (fc2 c) (fc3 c) (fc_b c) (fpP p) (fpP q)).
Lemma fpaddA : associative fpadd.
Proof. move=> p q r. apply: val_inj => /=. apply: pt_addA; try exact: fpP; [exact: fc2|exact: fc3|exact: fc_b]. Qed.
Lemma fpaddC : commutative fpadd.
Proof. move=> p q. apply: val_inj => /=. apply: (@pt_addC _ (fcb c)); exact: fpP. Qed.
Lemma fpadd0 : left_id fp0 fpadd.
Proof. by move=> p; apply: val_inj. Qed.
Lemma fpaddN : left_inverse fp0 fpneg fpadd.
Proof. move=> p. rewrite fpaddC. apply: val_inj => /=. apply: (@pt_addN _ (fcb c)). exact: fpP. Qed.
Definition fp_zmodMixin := ZmodMixin fpaddA fpaddC fpadd0 fpaddN.
Canonical fp_zmodType := Eval hnf in ZmodType (fpoint c) fp_zmodMixin.
Lemma fpv_inj : injective (@fpv c). Proof. exact: val_inj. Qed.
Lemma fpv_add (p q : fpoint c) : fpv (p + q) = pt_add p q. Proof. by []. Qed.
Lemma fpv_opp (p : fpoint c) : fpv (- p) = pt_neg p. Proof. by []. Qed.
Lemma fpv_0 : fpv (0 : fpoint c) = Inf. Proof. by []. Qed.
Lemma fpv_iter (p : fpoint c) n : Pos.iter (pt_add p) Inf n = fpv (p *+ Pos.to_nat n).
Proof.
elim/Pos.peano_ind: n => [|n IH]; first by rewrite /= mulr1n; case: (fpv p).
by rewrite Pos.iter_succ IH Pos2Nat.inj_succ mulrS.
Qed.
Lemma fpv_mul k (p : fpoint c) : fpv (smul k p) = ptmul k (fpv p).
Proof. by case: k => [|n|n] //=; rewrite fpv_iter. Qed.
Lemma ptmul_on k (p : pt (fcF c)) : on_curve (fcb c) p -> on_curve (fcb c) (ptmul k p).
Proof. move=> o. rewrite -(fpv_mul k (FPoint o)). exact: fpP. Qed.
Lemma pt_add_on (p q : pt (fcF c)) : on_curve (fcb c) p -> on_curve (fcb c) q -> on_curve (fcb c) (pt_add p q).
Proof. exact: (oc_add (fc2 c) (fc3 c) (fc_b c)). Qed.
Lemma ptmulD k l (p : pt (fcF c)) : on_curve (fcb c) p -> ptmul (k + l)%Z p = pt_add (ptmul k p) (ptmul l p).
Proof. move=> o. by rewrite -!(fpv_mul _ (FPoint o)) smulDl. Qed.
Lemma ptmulN k (p : pt (fcF c)) : on_curve (fcb c) p -> ptmul (- k)%Z p = pt_neg (ptmul k p).
Proof. move=> o. by rewrite -!(fpv_mul _ (FPoint o)) smulN. Qed.
Lemma ptmul1 (p : pt (fcF c)) : ptmul 1 p = p. Proof. by case: p. Qed.
Lemma ptmulA k l (p : pt (fcF c)) : on_curve (fcb c) p -> ptmul (k * l)%Z p = ptmul k (ptmul l p).
Proof.
move=> o. have E := fpv_mul l (FPoint o). rewrite /= in E. rewrite -E -!fpv_mul -smulA. by rewrite fpv_mul.
Qed.
Lemma ptmulDr k (p q : pt (fcF c)) : on_curve (fcb c) p -> on_curve (fcb c) q ->
  ptmul k (pt_add p q) = pt_add (ptmul k p) (ptmul k q).
Proof.
move=> o o'. have E := fpv_mul k (FPoint o + FPoint o').
by rewrite smulDr fpv_add !fpv_mul in E.
Qed.
End Sub.
