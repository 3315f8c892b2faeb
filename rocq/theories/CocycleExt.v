(** * The abelian extension given by a symmetric 2-cocycle *)
From Coq Require Import ZArith Lia Ring_theory Field_theory Field.
From mathcomp Require Import all_ssreflect all_algebra.
From Verif Require Import ZMod MCRing ZExp.
Set Implicit Arguments.
Unset Strict Implicit.
Unset Printing Implicit Defensive.
Import GRing.Theory.
Local Open Scope ring_scope.
Delimit Scope Z_scope with Z.

(** a symmetric normalised 2-cocycle of a group with values in the units of a field *)
Record cocyc (G : zmodType) (F : fieldType) : Type := Cocyc {
  cd : G -> G -> F;
  cd0 : forall A B, cd A B != 0;
  cdC : forall A B, cd A B = cd B A;
  cdA : forall A B C, cd A B * cd (A + B) C = cd B C * cd A (B + C);
  cd1 : forall A, cd 0 A = 1 }.
(** pairs (a, A) with (a, A) + (b, B) = (a b c(A, B), A + B) *)
Record ext (G : zmodType) (F : fieldType) (c : cocyc G F) : Type := Ext { exv :> F * G; exP : exv.1 != 0 }.

Lemma zx_Zpos (F : fieldType) (x : F) p : zx x (Zpos p) = x ^+ Pos.to_nat p.
Proof. exact: (zx_pos _ (Pos2Z.is_nonneg p)). Qed.
Lemma zx_Zneg (F : fieldType) (x : F) p : zx x (Zneg p) = (x ^+ Pos.to_nat p)^-1.
Proof. by rewrite -Pos2Z.opp_pos zxN zx_Zpos. Qed.

Section Ext.
Variables (G : zmodType) (F : fieldType) (c : cocyc G F).
Local Notation d := (cd c).
Canonical ex_subType := Eval hnf in [subType for @exv G F c].
Definition ex_eqMixin := [eqMixin of ext c by <:].
Canonical ex_eqType := Eval hnf in EqType (ext c) ex_eqMixin.
Definition ex_choiceMixin := [choiceMixin of ext c by <:].
Canonical ex_choiceType := Eval hnf in ChoiceType (ext c) ex_choiceMixin.
Lemma ex0P : ((1, 0) : F * G).1 != 0. Proof. exact: oner_neq0. Qed.
Definition ex0 : ext c := Ext c ex0P.
Lemma exDP (e g : ext c) : ((exv e).1 * (exv g).1 * d (exv e).2 (exv g).2, (exv e).2 + (exv g).2).1 != 0.
Proof. by rewrite /= !mulf_neq0 ?exP ?cd0. Qed.
Definition exD (e g : ext c) : ext c := Ext c (exDP e g).
Lemma exNP (e : ext c) : (((exv e).1 * d (exv e).2 (- (exv e).2))^-1, - (exv e).2).1 != 0.
Proof. by rewrite /= invr_neq0 // mulf_neq0 ?exP ?cd0. Qed.
Definition exN (e : ext c) : ext c := Ext c (exNP e).
Lemma exDA : associative exD.
Proof.
case=> [[a A] a0] [[b B] b0] [[e E] e0]. apply: val_inj => /=. congr pair; last exact: addrA.
have H := cdA c A B E.
transitivity (a * b * e * (d B E * d A (B + E))); first by rewrite !mulrA.
rewrite -H !mulrA. congr (_ * _). by rewrite mulrAC.
Qed.
Lemma exDC : commutative exD.
Proof.
case=> [[a A] a0] [[b B] b0]. apply: val_inj => /=. by rewrite (cdC c) (mulrC a) (addrC A).
Qed.
Lemma ex0D : left_id ex0 exD.
Proof. case=> [[a A] a0]. apply: val_inj => /=. by rewrite cd1 mul1r mulr1 add0r. Qed.
Lemma exND : left_inverse ex0 exN exD.
Proof.
case=> [[a A] a0]. apply: val_inj => /=. rewrite addNr (cdC c (- A)). congr pair.
rewrite -mulrA mulVf //. by rewrite mulf_neq0 ?cd0.
Qed.
Definition ex_zmodMixin := ZmodMixin exDA exDC ex0D exND.
Canonical ex_zmodType := Eval hnf in ZmodType (ext c) ex_zmodMixin.

Definition ea (e : ext c) : F := (exv e).1.
Definition eA (e : ext c) : G := (exv e).2.
Lemma ea_neq0 e : ea e != 0. Proof. exact: exP. Qed.
Lemma eaD e g : ea (e + g) = ea e * ea g * d (eA e) (eA g). Proof. by []. Qed.
Lemma eAD e g : eA (e + g) = eA e + eA g. Proof. by []. Qed.
Lemma eaN e : ea (- e) = (ea e * d (eA e) (- eA e))^-1. Proof. by []. Qed.
Lemma eAN e : eA (- e) = - eA e. Proof. by []. Qed.
Lemma ea0 : ea 0 = 1. Proof. by []. Qed.
Lemma eA0 : eA 0 = 0. Proof. by []. Qed.
Lemma ext_inj e g : ea e = ea g -> eA e = eA g -> e = g.
Proof. case: e g => [[a A] ?] [[b B] ?]. rewrite /ea /eA /= => H I. apply: val_inj => /=. by rewrite H I. Qed.
Lemma eA_additive : additive eA. Proof. by move=> e g; rewrite eAD eAN. Qed.
Canonical eA_add := Additive eA_additive.
Lemma eA_smul k e : eA (smul k e) = smul k (eA e). Proof. exact: (smul_additive eA_add). Qed.
(** the point A with first component 1, and the scalar k *)
Lemma liftP (A : G) : ((1, A) : F * G).1 != 0. Proof. exact: oner_neq0. Qed.
Definition lft (A : G) : ext c := Ext c (liftP A).
Lemma ea_lft A : ea (lft A) = 1. Proof. by []. Qed.
Lemma eA_lft A : eA (lft A) = A. Proof. by []. Qed.
End Ext.

(** ** scalars, and an endomorphism that raises the first component to the q *)
Section Ate.
Variables (G : zmodType) (F : fieldType) (c : cocyc G F).
Variables (psi : G -> G) (q : nat).
Hypothesis psiD : forall A B, psi (A + B) = psi A + psi B.
Hypothesis psi_d : forall A B, cd c (psi A) (psi B) = cd c A B ^+ q.
Local Notation E := (ext c).

Lemma ea_mulrn (e : E) n : eA e = 0 -> ea (e *+ n) = ea e ^+ n.
Proof.
move=> Z. elim: n => [|n IH]; first by rewrite mulr0n expr0.
rewrite mulrS eaD Z cd1 mulr1 IH exprS. by [].
Qed.
Lemma eA_mulrn (e : E) n : eA e = 0 -> eA (e *+ n) = 0.
Proof. move=> Z. have := raddfMn (eA_add c) n e. rewrite /= Z mul0rn. by []. Qed.
Lemma cd_0r A : cd c A 0 = 1. Proof. by rewrite cdC cd1. Qed.
Lemma ea_smul0 (e : E) k : eA e = 0 -> ea (smul k e) = zx (ea e) k.
Proof.
move=> Z. case: k => [|p|p]; rewrite ?zx0 ?zx_Zpos ?zx_Zneg //=; first by rewrite ea_mulrn.
by rewrite eaN eA_mulrn // oppr0 cd1 mulr1 ea_mulrn.
Qed.
Lemma ea_add0 (e g : E) : eA g = 0 -> ea (e + g) = ea e * ea g.
Proof. move=> Z. by rewrite eaD Z cd_0r mulr1. Qed.
Lemma ea_opp0 (e : E) : eA e = 0 -> ea (- e) = (ea e)^-1.
Proof. move=> Z. by rewrite eaN Z oppr0 cd1 mulr1. Qed.

Lemma psi0 : psi 0 = 0. Proof. apply: (addrI (psi 0)). by rewrite -psiD !addr0. Qed.
Lemma PhiP (e : E) : ((ea e ^+ q, psi (eA e)) : F * G).1 != 0.
Proof. by rewrite /= expf_neq0 // ea_neq0. Qed.
Definition Phi (e : E) : E := Ext c (PhiP e).
Lemma PhiD e g : Phi (e + g) = Phi e + Phi g.
Proof.
apply: ext_inj; last by rewrite /eA /= psiD.
rewrite eaD /Phi /ea /eA /=. by rewrite psi_d !exprMn.
Qed.
Lemma Phi0 : Phi 0 = 0.
Proof. apply: (addrI (Phi 0)). by rewrite -PhiD !addr0. Qed.
Lemma PhiB : additive Phi.
Proof.
move=> e g. rewrite PhiD. congr (_ + _). apply: (addrI (Phi g)). by rewrite -PhiD !addrN Phi0.
Qed.
Canonical Phi_add := Additive PhiB.
Lemma ea_Phi e : ea (Phi e) = ea e ^+ q. Proof. by []. Qed.
Lemma eA_Phi e : eA (Phi e) = psi (eA e). Proof. by []. Qed.

(** s + phi - phi^2 + phi^3 *)
Variable s : Z.
Definition TT (e : E) : E := smul s e + Phi e - Phi (Phi e) + Phi (Phi (Phi e)).
Definition NN : Z := (s + Z.of_nat q - Z.of_nat q * Z.of_nat q + Z.of_nat q * Z.of_nat q * Z.of_nat q)%Z.
Lemma AC4 (a b d e f g h i : E) : a + b + (d + e) + (f + g) + (h + i) = a + d + f + h + (b + e + g + i).
Proof. by rewrite (addrACA a) (addrACA (a + d)) (addrACA (a + d + f)). Qed.
Lemma TTD e g : TT (e + g) = TT e + TT g.
Proof.
rewrite /TT smulDr !PhiD opprD. exact: AC4.
Qed.
Lemma eA_TT e : eA (TT e) = smul s (eA e) + psi (eA e) - psi (psi (eA e)) + psi (psi (psi (eA e))).
Proof. by rewrite /TT !eAD eAN !eA_Phi eA_smul. Qed.
Lemma TT_scal (e : E) : eA e = 0 -> ea (TT e) = zx (ea e) NN.
Proof.
move=> Z. have p1 : eA (Phi e) = 0 by rewrite eA_Phi Z psi0.
have p2 : eA (Phi (Phi e)) = 0 by rewrite eA_Phi p1 psi0.
have p3 : eA (Phi (Phi (Phi e))) = 0 by rewrite eA_Phi p2 psi0.
rewrite /TT (ea_add0 _ p3) ea_add0; last by rewrite eAN p2 oppr0.
rewrite (ea_add0 _ p1) ea_smul0 // ea_opp0 // !ea_Phi.
have n0 := ea_neq0 e. rewrite /NN -Z.add_opp_r.
rewrite !zxD // zxN !zxM !zx_nat. by [].
Qed.
Definition tt (A : G) : F := ea (TT (lft c A)).
Lemma tt_lin A B : eA (TT (lft c A)) = 0 -> eA (TT (lft c B)) = 0 ->
  tt A * tt B = zx (cd c A B) NN * tt (A + B).
Proof.
move=> ZA ZB.
have k0 : ((cd c A B, 0) : F * G).1 != 0 by exact: cd0.
have X : lft c A + lft c B = (Ext c k0 : E) + lft c (A + B).
  by apply: ext_inj; rewrite ?eaD ?eAD /ea /eA /= ?cd1 ?add0r ?mulr1 ?mul1r.
have Y := congr1 TT X. rewrite !TTD in Y.
have := congr1 (@ea G F c) Y. rewrite ea_add0 // (addrC (TT (Ext c k0))) ea_add0.
  rewrite (TT_scal (e := Ext c k0)) // => H. rewrite /tt H mulrC. by [].
have z : eA (Ext c k0 : E) = 0 by []. by rewrite eA_TT z !psi0 smulr0 oppr0 !addr0.
Qed.
End Ate.

(** ** three cocycles whose product is a coboundary *)
Section Three.
Variables (G : zmodType) (F : fieldType) (a1 a2 a3 : cocyc G F).
Variables (psi : G -> G) (q : nat) (w : G -> F).
Hypothesis psiD : forall A B, psi (A + B) = psi A + psi B.
Hypothesis psi1 : forall A B, cd a1 (psi A) (psi B) = cd a1 A B ^+ q.
Hypothesis psi2 : forall A B, cd a2 (psi A) (psi B) = cd a2 A B ^+ q.
Hypothesis psi3 : forall A B, cd a3 (psi A) (psi B) = cd a3 A B ^+ q.
Hypothesis wn : forall A, w A != 0.
Hypothesis w0 : w 0 = 1.
Hypothesis wd : forall A B, cd a1 A B * cd a2 A B * cd a3 A B * w (A + B) = w A * w B.
Hypothesis wpsi : forall A, w (psi A) = w A ^+ q.
Add Field FF3 : (mc_field F).
Local Notation E1 := (ext a1). Local Notation E2 := (ext a2). Local Notation E3 := (ext a3).
Definition tri (e1 : E1) (e2 : E2) (e3 : E3) (A : G) (v : F) : Prop :=
  [/\ eA e1 = A, eA e2 = A, eA e3 = A & ea e1 * ea e2 * ea e3 * w A = v].
Lemma tri_n0 e1 e2 e3 A v : tri e1 e2 e3 A v -> v != 0.
Proof. case=> _ _ _ <-. by rewrite !mulf_neq0 ?ea_neq0. Qed.
Lemma tri_add e1 e2 e3 A v g1 g2 g3 B u : tri e1 e2 e3 A v -> tri g1 g2 g3 B u ->
  tri (e1 + g1) (e2 + g2) (e3 + g3) (A + B) (v * u).
Proof.
move=> [A1 A2 A3 V] [B1 B2 B3 U]. split; rewrite ?eAD ?A1 ?A2 ?A3 ?B1 ?B2 ?B3 //.
rewrite !eaD A1 A2 A3 B1 B2 B3 -V -U.
have H := wd A B.
have -> : ea e1 * ea e2 * ea e3 * w A * (ea g1 * ea g2 * ea g3 * w B) =
  ea e1 * ea e2 * ea e3 * (ea g1 * ea g2 * ea g3) * (w A * w B) by rewrite mulrACA.
rewrite -H. move: (ea e1) (ea e2) (ea e3) (ea g1) (ea g2) (ea g3) (cd a1 A B) (cd a2 A B) (cd a3 A B) (w (A + B)).
move=> x1 x2 x3 y1 y2 y3 d1 d2 d3 z. mcfr F.
Qed.
Lemma tri_opp e1 e2 e3 A v : tri e1 e2 e3 A v -> tri (- e1) (- e2) (- e3) (- A) v^-1.
Proof.
move=> H. have [A1 A2 A3 V] := H. split; rewrite ?eAN ?A1 ?A2 ?A3 //.
have n0 := tri_n0 H.
have O : tri (- e1) (- e2) (- e3) (- A) (ea (- e1) * ea (- e2) * ea (- e3) * w (- A)).
  by split; rewrite ?eAN ?A1 ?A2 ?A3.
have [_ _ _] := tri_add H O. rewrite !addrN !ea0 w0 !mulr1 => X.
apply: (mulfI n0). by rewrite -X mulfV.
Qed.
Lemma tri_0 : tri 0 0 0 0 1. Proof. by split; rewrite ?eA0 // !ea0 w0 !mulr1. Qed.
Lemma tri_nat e1 e2 e3 A v n : tri e1 e2 e3 A v -> tri (e1 *+ n) (e2 *+ n) (e3 *+ n) (A *+ n) (v ^+ n).
Proof.
move=> H. elim: n => [|n IH]; first exact: tri_0. rewrite !mulrS exprS. exact: tri_add.
Qed.
Lemma tri_smul e1 e2 e3 A v k : tri e1 e2 e3 A v -> tri (smul k e1) (smul k e2) (smul k e3) (smul k A) (zx v k).
Proof.
move=> H. case: k => [|p|p]; rewrite ?zx0 ?zx_Zpos ?zx_Zneg /=; first exact: tri_0.
  exact: tri_nat.
apply: tri_opp. exact: tri_nat.
Qed.
Lemma tri_Phi e1 e2 e3 A v : tri e1 e2 e3 A v ->
  tri (Phi psi q e1) (Phi psi q e2) (Phi psi q e3) (psi A) (v ^+ q).
Proof. move=> [A1 A2 A3 V]. split; rewrite ?eA_Phi ?A1 ?A2 ?A3 // !ea_Phi wpsi -V !exprMn. by []. Qed.
Lemma tri_TT s e1 e2 e3 A v : tri e1 e2 e3 A v ->
  tri (TT psi q s e1) (TT psi q s e2) (TT psi q s e3) (smul s A + psi A - psi (psi A) + psi (psi (psi A))) (zx v (NN q s)).
Proof.
move=> H. have H1 := tri_Phi H. have H2 := tri_Phi H1. have H3 := tri_Phi H2.
have n0 := tri_n0 H.
have -> : zx v (NN q s) = zx v s * v ^+ q * (v ^+ q ^+ q)^-1 * v ^+ q ^+ q ^+ q.
  by rewrite /NN -Z.add_opp_r !zxD // zxN !zxM !zx_nat.
apply: tri_add => //. apply: tri_add; last exact: tri_opp. apply: tri_add => //. exact: tri_smul.
Qed.
Lemma tt_three s A : smul s A + psi A - psi (psi A) + psi (psi (psi A)) = 0 ->
  tt a1 psi q s A * tt a2 psi q s A * tt a3 psi q s A = zx (w A) (NN q s).
Proof.
move=> Z. have H : tri (lft a1 A) (lft a2 A) (lft a3 A) A (w A) by split; rewrite // !ea_lft !mul1r.
have [_ _ _] := tri_TT s H. rewrite Z w0 mulr1. by [].
Qed.
End Three.
