(** * Transfer: points with integer coordinates form a group. *)
From Coq Require Import ZArith Znumtheory Lia.
From mathcomp Require Import all_ssreflect all_algebra all_fingroup finfield.
From Verif Require Import Base BaseFacts Fp ZMod MCRing EC ECGroup SpecCurve.
Set Implicit Arguments.
Unset Strict Implicit.
Unset Printing Implicit Defensive.
Import GRing.Theory.
Local Open Scope ring_scope.
Delimit Scope Z_scope with Z.

Local Arguments Z.mul : simpl never.
Local Arguments Z.add : simpl never.
Local Arguments Z.sub : simpl never.
Local Arguments Z.modulo : simpl never.

Section ZCurve.
Variables P b : Z.
Hypothesis hP : Znumtheory.prime P.
Hypothesis hP3 : (3 < P)%Z.
Hypothesis hb : (b mod P <> 0)%Z.
Local Notation p := (Z.to_nat P).
Local Notation F := ('F_p).
Local Notation ph := (phi P).

Lemma zc2 : (2%:R : F) != 0.
Proof.
apply/eqP. rewrite -(phi_pos hP) => /(phi_eq0 hP). rewrite Zmod_small; lia.
Qed.
Lemma zc3 : (3%:R : F) != 0.
Proof.
apply/eqP. rewrite -(phi_pos hP) => /(phi_eq0 hP). rewrite Zmod_small; lia.
Qed.
Lemma zcb : ph b != 0.
Proof. by apply/eqP => /(phi_eq0 hP). Qed.
Definition zcurve : ecurve := @ECurve [finFieldType of F] (ph b) zc2 zc3 zcb.

Lemma phi_inv a : ph (inv_mod P a) = (ph a)^-1.
Proof.
have P1 := P_pos hP. rewrite /inv_mod.
case: (Z.eq_dec (a mod P) 0) => E.
  rewrite ModInverse_None; [|exact: P1|exact: prime_gcd_0].
  by rewrite (proj2 (phi_eq0 hP a) E) invr0 phi0.
case: (ModInverse_Some a P) => [||i [-> [_ Hi]]]; [exact: P1|exact: prime_gcd|].
have : ph (i * a)%Z = 1.
  by rewrite -phi_mod Hi phi1.
rewrite phi_mul // => H. have a0 : ph a != 0 by apply/eqP => /(phi_eq0 hP).
apply: (mulIf a0). by rewrite H mulVf.
Qed.

Definition emb0 (q : zpt) : pt F :=
  match q with None => Inf | Some (x, y) => Aff (ph x) (ph y) end.
Definition emb (q : zpt) : epoint zcurve := insubd (0 : epoint zcurve) (emb0 q : pt (ecF zcurve)).

Lemma emb_on q : zon P b q -> on_curve (ecb zcurve) (emb0 q : pt (ecF zcurve)).
Proof.
case: q => [[x y]|] //= [_ [_ E]]. apply/eqP.
have := proj2 (phi_inj hP _ _) E. by rewrite phi_add // !phi_mul // => H; rewrite !exprS expr0 !mulr1 mulrA.
Qed.
Lemma embE q : zon P b q -> epv (emb q) = emb0 q.
Proof. by move=> H; rewrite /emb /insubd (insubT (on_curve (ecb zcurve)) (emb_on H)). Qed.

Lemma emb_None : emb None = 0.
Proof. apply: epv_inj. by rewrite /= embE. Qed.

Lemma emb_inj q r : zon P b q -> zon P b r -> emb q = emb r -> q = r.
Proof.
move=> oq or /(congr1 (@epv zcurve)). rewrite !embE //.
case: q oq => [[x y]|] /=; case: r or => [[x' y']|] //=.
move=> [rx' [ry' _]] [rx [ry _]] [ex ey].
by rewrite (phi_injr hP rx rx' ex) (phi_injr hP ry ry' ey).
Qed.

Lemma emb_surj (e : epoint zcurve) : exists2 q, zon P b q & emb q = e.
Proof.
case: e => [[|x y] oe].
  exists None => //. apply: epv_inj. by rewrite /= embE.
have on : zon P b (Some (psi x, psi y)).
  split; first exact: psi_range. split; first exact: psi_range.
  apply/(phi_inj hP). rewrite phi_add // !phi_mul // !psiK //.
  have := eqP oe => /= H. by move: H; rewrite !exprS !expr0 !mulr1 mulrA.
exists (Some (psi x, psi y)) => //. apply: epv_inj. by rewrite /= embE // /= !psiK.
Qed.

Lemma zon_line l x1 y1 x2 : on_curve (ecb zcurve) (emb0 (zline P l x1 y1 x2) : pt (ecF zcurve)) -> zon P b (zline P l x1 y1 x2).
Proof.
have P1 := P_pos hP.
rewrite /zline /= => /eqP E. split; first by apply: Z_mod_lt; lia. split; first by apply: Z_mod_lt; lia.
apply/(phi_inj hP). rewrite phi_add // !phi_mul //.
by move: E; rewrite !exprS !expr0 !mulr1 mulrA.
Qed.

Lemma emb0_line l x1 y1 x2 : emb0 (zline P l x1 y1 x2) =
  let x3 := ph l ^+ 2 - ph x1 - ph x2 in Aff x3 (ph l * (ph x1 - x3) - ph y1).
Proof.
rewrite /zline /= !phi_mod !phi_sub // !phi_mul // !phi_sub // phi_mod !phi_sub // phi_mul // expr2.
Qed.

Lemma emb0_add q r : zon P b q -> zon P b r -> emb0 (zadd P q r) = pt_add (emb0 q) (emb0 r).
Proof.
have P1 := P_pos hP.
case: q => [[x1 y1]|] oq or; last by case: r or => [[? ?]|].
move: oq or.
case: r => [[x2 y2]|] //= [rx1 [ry1 _]] [rx2 [ry2 _]].
case: Z.eqb_spec => ex.
  rewrite ex eqxx.
  have -> : (ph y1 == - ph y2) = ((y1 + y2) mod P =? 0)%Z.
    apply/eqP/Z.eqb_spec => H.
      apply/(phi_eq0 hP). by rewrite phi_add // H addNr.
    apply/eqP. rewrite -addr_eq0 -phi_add //. apply/eqP. by apply/(phi_eq0 hP).
  case: Z.eqb_spec => // _.
  rewrite emb0_line !phi_mul // phi_inv !phi_mul //.
  have -> : ph 3 = 3%:R by rewrite -(phi_pos hP).
  have -> : ph 2 = 2%:R by rewrite -(phi_pos hP).
  by rewrite expr2.
have -> : (ph x1 == ph x2) = false by apply/eqP => /(phi_injr hP rx1 rx2).
by rewrite emb0_line !phi_mul // phi_inv !phi_sub.
Qed.

Lemma zon_of_emb0 q : on_curve (ecb zcurve) (emb0 q : pt (ecF zcurve)) ->
  (match q with None => True | Some (x, y) => 0 <= x < P /\ 0 <= y < P end)%Z -> zon P b q.
Proof.
case: q => [[x y]|] //= /eqP E [rx ry]. split=> //. split=> //.
apply/(phi_inj hP). rewrite phi_add // !phi_mul //. by move: E; rewrite !exprS !expr0 !mulr1 mulrA.
Qed.

Lemma zadd_range q r : zon P b q -> zon P b r ->
  (match zadd P q r with None => True | Some (x, y) => 0 <= x < P /\ 0 <= y < P end)%Z.
Proof.
have P1 := P_pos hP.
case: q => [[x1 y1]|] //=; case: r => [[x2 y2]|] //=; try by move=> [? [? _]].
  move=> _ _. case: Z.eqb => /=; first case: Z.eqb => //=; split; apply: Z_mod_lt; lia.
by move=> _ [? [? _]].
Qed.

Lemma zon_add q r : zon P b q -> zon P b r -> zon P b (zadd P q r).
Proof.
move=> oq or. apply: zon_of_emb0; last exact: zadd_range.
rewrite emb0_add //. exact: (oc_add zc2 zc3 zcb (emb_on oq) (emb_on or)).
Qed.

Lemma emb_add q r : zon P b q -> zon P b r -> emb (zadd P q r) = emb q + emb r.
Proof.
move=> oq or. apply: epv_inj => /=. rewrite embE; last exact: zon_add.
by rewrite emb0_add // !embE.
Qed.

Lemma zon_neg q : zon P b q -> zon P b (zneg P q).
Proof.
have P1 := P_pos hP. move=> oq. apply: zon_of_emb0.
  have := oc_neg (emb_on oq). case: q {oq} => [[x y]|] //=. by rewrite phi_mod phi_opp.
by case: q oq => [[x y]|] //= [? _]; split=> //; apply: Z_mod_lt; lia.
Qed.
Lemma emb_neg q : zon P b q -> emb (zneg P q) = - emb q.
Proof.
move=> oq. apply: epv_inj => /=. rewrite !embE //; last exact: zon_neg.
case: q oq => [[x y]|] //= _. by rewrite phi_mod phi_opp.
Qed.

Lemma iter_add q n : zon P b q ->
  zon P b (Pos.iter (zadd P q) None n) /\ emb (Pos.iter (zadd P q) None n) = emb q *+ Pos.to_nat n.
Proof.
move=> oq. elim/Pos.peano_ind: n => [|n [on IH]].
  rewrite /=. split; first exact: zon_add. by rewrite emb_add // emb_None addr0.
rewrite Pos.iter_succ. split; first exact: zon_add.
by rewrite emb_add // IH Pos2Nat.inj_succ mulrS.
Qed.
Lemma zon_mul k q : zon P b q -> zon P b (zmul P k q).
Proof.
move=> oq. case: k => [|n|n] //=; first by case: (iter_add n oq).
by apply: zon_neg; case: (iter_add n oq).
Qed.
Lemma emb_mul k q : zon P b q -> emb (zmul P k q) = smul k (emb q).
Proof.
move=> oq. case: k => [|n|n] /=; first exact: emb_None.
  by case: (iter_add n oq).
by case: (iter_add n oq) => on E; rewrite emb_neg // E.
Qed.

(** ** laws on integer points *)
Lemma zaddA q r s : zon P b q -> zon P b r -> zon P b s ->
  zadd P q (zadd P r s) = zadd P (zadd P q r) s.
Proof.
move=> oq or os. apply: emb_inj; [by repeat apply: zon_add|by repeat apply: zon_add|].
by rewrite !emb_add //; try exact: zon_add; rewrite addrA.
Qed.
Lemma zaddC q r : zon P b q -> zon P b r -> zadd P q r = zadd P r q.
Proof.
move=> oq or. apply: emb_inj; [exact: zon_add|exact: zon_add|].
by rewrite !emb_add // addrC.
Qed.
Lemma zaddN q : zon P b q -> zadd P q (zneg P q) = None.
Proof.
move=> oq. apply: emb_inj => //; first by apply: zon_add => //; apply: zon_neg.
rewrite emb_add //; last exact: zon_neg. by rewrite emb_neg // subrr emb_None.
Qed.

End ZCurve.
