(** * Lemmas for C70 *)
From Coq Require Import ZArith Lia Bool.
From mathcomp Require Import all_ssreflect all_algebra.
From Verif Require Import Base SpecCurve ZField EC BB BN256 BNTower BNField SpecBN BNG1 BNLaws BNAccess.
Set Implicit Arguments.
Unset Strict Implicit.
Unset Printing Implicit Defensive.
Import GRing.Theory.
Delimit Scope Z_scope with Z.
Local Open Scope ring_scope.
Local Opaque bn_P ModInverse.

Lemma Real_Imag e : v2 e = v2 (GfP2 0 (gfP2_Real e)) * v2 (GfP2 1 0) + v2 (GfP2 0 (gfP2_Imag e)).
Proof. case: e => x y. exact: (proj1 (proj2 (proj2 gfP2_field))). Qed.
Lemma Real_Imag_swapped e : v2 e = v2 (GfP2 0 (gfP2_Real e)) + v2 (GfP2 0 (gfP2_Imag e)) * v2 (GfP2 1 0) <->
  (gfP2_Real e mod bn_P = gfP2_Imag e mod bn_P)%Z.
Proof.
case: e => x y. rewrite /gfP2_Real /gfP2_Imag /=. have [_ [I [L _]]] := gfP2_field.
rewrite addrC -L I /=. split; [by case|by move=> ->].
Qed.
Local Transparent bn_P.
Lemma one_swapped : (gfP2_Real gfP2_One mod bn_P <> gfP2_Imag gfP2_One mod bn_P)%Z. Proof. by vm_compute. Qed.
Local Opaque bn_P.
Lemma Real_refuted : exists e, v2 e = 1 /\ v2 (GfP2 0 (gfP2_Real e)) = 0 /\
  v2 e <> v2 (GfP2 0 (gfP2_Real e)) + v2 (GfP2 0 (gfP2_Imag e)) * v2 (GfP2 1 0).
Proof.
exists gfP2_One. split; first exact: v2_One. split; first exact: v2_Zero. by move/Real_Imag_swapped/one_swapped.
Qed.

Lemma CurvePoints_G1 p x y z t : g1_ok p -> G1CurvePoints p = (x, y, z, t) ->
  (g1v p = None <-> z = 0%Z) /\
  forall X Y, g1v p = Some (X, Y) -> (x mod bn_P = (X * z ^ 2) mod bn_P)%Z /\ (y mod bn_P = (Y * z ^ 3) mod bn_P)%Z.
Proof.
move=> [_ [_ N]] [<- <- <- _]. rewrite /g1v. case: Z.eqb_spec => [E|NE]; split=> //.
- split=> // _. exact: N.
- split=> // E. case: NE. by rewrite E Zmod_0_l.
- move=> X Y [<- <-]. have z0 : ph (cpz p) != 0 by apply/eqP => /ph_eq0.
  have S2 : (cpz p ^ 2 = cpz p * cpz p)%Z by lia. have S3 : (cpz p ^ 3 = cpz p * (cpz p * cpz p))%Z by lia.
  rewrite S2 S3. split; apply/ph_eq; rewrite !(phM, phmodZ, ph_inv).
  + by rewrite -mulrA mulrACA mulVf // mulr1 mulr1.
  + by rewrite -mulrA mulrACA mulVf // mul1r mulrACA mulVf // !mulr1.
Qed.
Lemma CurvePoints_G2 p x y z t : g2_ok p -> G2CurvePoints p = (x, y, z, t) ->
  (g2v p = Inf <-> z = GfP2 0 0) /\ forall X Y, g2v p = Aff X Y -> v2 x = X * v2 z ^+ 2 /\ v2 y = Y * v2 z ^+ 3.
Proof.
move=> [_ [_ N]] [<- <- <- _]. rewrite /g2v /jacobian. case: eqP => [E|/eqP NE]; split=> //.
- split=> // _. exact: N.
- split=> // E. move: NE. by rewrite E v2_Zero eqxx.
- move=> X Y [<- <-]. by rewrite !divfK // expf_neq0.
Qed.
Local Transparent bn_P ModInverse.
Lemma two_gen : let p := G1ScalarBaseMult newCurvePoint 2 in
  g1v p <> Some (cpx p mod bn_P, cpy p mod bn_P)%Z. Proof. by vm_compute. Qed.
Local Opaque bn_P ModInverse.
Lemma CurvePoints_refuted : exists p x y z t, g1_ok p /\ G1CurvePoints p = (x, y, z, t) /\
  g1v p = zmul bn_P 2 g1_gen /\ g1v p <> Some (x mod bn_P, y mod bn_P)%Z.
Proof.
have [A B] := g1_base_ok newCurvePoint 2. set p := G1ScalarBaseMult newCurvePoint 2 in A B *.
exists p, (cpx p), (cpy p), (cpz p), (cpt p). split; first exact: A. split; first by []. split; [exact: B|exact: two_gen].
Qed.
Lemma access_ex : g1_ok curveGen /\ G1CurvePoints curveGen = (1, -2, 1, 1)%Z /\ g2_ok twistGen /\
  gfP2_Real (GfP2 3 4) = 3%Z.
Proof. split; first exact: (proj1 g1_gen_ok). split; first by []. split; first exact: (proj1 g2_two). by []. Qed.
