(** * Certificates for multiples of a point of the twist

    A step carries the slope of the line (two integers) and the quotients of
    the reductions modulo P, so that checking it needs no division. *)
From Coq Require Import ZArith Znumtheory Lia Bool List.
From mathcomp Require Import all_ssreflect all_algebra.
From Verif Require Import Base BaseFacts ZMod MCRing EC PtGroup FieldExt BB BN256 BNTower BNField SpecBN BNG1 BNG2.
Set Implicit Arguments.
Unset Strict Implicit.
Unset Printing Implicit Defensive.
Import GRing.Theory.
Delimit Scope Z_scope with Z.

Inductive cop2 : Type :=
| Dbl2 (lx ly ax ay bx by_ cx cy : Z)
| Add2 (lx ly ax ay bx by_ cx cy : Z)
| Sub2 (lx ly ax ay bx by_ cx cy : Z).

Section Check.
Local Open Scope Z_scope.
Variables P gxx gxy gyx gyy : Z.
Definition inr2 (z : Z) : bool := (0 <=? z) && (z <? P).
Record cst := Cst { ck : Z; cxx : Z; cxy : Z; cyx : Z; cyy : Z }.
Definition cfin (k lx ly bx by_ cx cy x1 x2 y1 y2 u1 u2 : Z) : cst :=
  let nx := 2 * (lx * ly) - x1 - u1 - bx * P in
  let ny := (ly - lx) * (ly + lx) - x2 - u2 - by_ * P in
  let dx := x1 - nx in let dy := x2 - ny in
  Cst k nx ny (lx * dy + ly * dx - y1 - cx * P) (ly * dy - lx * dx - y2 - cy * P).
Definition caddg (s : cst) (k hx hy lx ly ax ay bx by_ cx cy : Z) : option cst :=
  let ex := gxx - cxx s in let ey := gxy - cxy s in
  let fx := hx - cyx s in let fy := hy - cyy s in
  if inr2 (cxx s) && inr2 (cxy s) && negb ((ex =? 0) && (ey =? 0)) &&
     (lx * ey + ly * ex =? fx + ax * P) && (ly * ey - lx * ex =? fy + ay * P)
  then Some (cfin k lx ly bx by_ cx cy (cxx s) (cxy s) (cyx s) (cyy s) gxx gxy) else None.
Definition cstep2 (s : cst) (o : cop2) : option cst :=
  match o with
  | Dbl2 lx ly ax ay bx by_ cx cy =>
      let x1 := cxx s in let x2 := cxy s in let y1 := cyx s in let y2 := cyy s in
      if inr2 y1 && inr2 y2 && negb ((y1 =? 0) && (y2 =? 0)) &&
         (2 * (lx * y2 + ly * y1) =? 6 * (x1 * x2) + ax * P) &&
         (2 * (ly * y2 - lx * y1) =? 3 * ((x2 - x1) * (x2 + x1)) + ay * P)
      then Some (cfin (2 * ck s) lx ly bx by_ cx cy x1 x2 y1 y2 x1 x2) else None
  | Add2 lx ly ax ay bx by_ cx cy => caddg s (ck s + 1) gyx gyy lx ly ax ay bx by_ cx cy
  | Sub2 lx ly ax ay bx by_ cx cy => caddg s (ck s - 1) (- gyx) (- gyy) lx ly ax ay bx by_ cx cy
  end.
Fixpoint crun2 (l : list cop2) (s : cst) : option cst :=
  match l with
  | nil => Some s
  | o :: l' => match cstep2 s o with None => None | Some s' => crun2 l' s' end
  end.
End Check.

Local Open Scope ring_scope.
Local Arguments Z.mul : simpl never.
Local Arguments Z.add : simpl never.
Local Arguments Z.sub : simpl never.
Local Arguments Z.modulo : simpl never.
Local Opaque bn_P mk2.
Add Field K1O : (mc_field K1).
Add Field K2O : (mc_field K2).

(** the two line constructions in a field *)
Section Lines.
Variable F : fieldType.
Hypothesis h2 : (2%:R : F) != 0.
Lemma line_dbl (x y l : F) : y != 0 -> l * (2%:R * y) = 3%:R * x ^+ 2 ->
  pt_add (Aff x y) (Aff x y) = Aff (l ^+ 2 - x - x) (l * (x - (l ^+ 2 - x - x)) - y).
Proof.
move=> y0 E. have d0 : 2%:R * y != 0 by rewrite mulf_neq0.
have -> : l = 3%:R * x ^+ 2 / (2%:R * y) by rewrite -E mulfK.
rewrite /pt_add eqxx. case: eqP => // A. move/eqP: d0. case. by rewrite mulr2n mulrDl mul1r {1}A addNr.
Qed.
Lemma line_add (x y x' y' l : F) : x' - x != 0 -> l * (x' - x) = y' - y ->
  pt_add (Aff x y) (Aff x' y') = Aff (l ^+ 2 - x - x') (l * (x - (l ^+ 2 - x - x')) - y).
Proof.
move=> d0 E. have -> : l = (y' - y) / (x' - x) by rewrite -E mulfK.
rewrite /pt_add. case: eqP => // A. by rewrite A subrr eqxx in d0.
Qed.
End Lines.

Section Sound.
Variables gxx gxy gyx gyy : Z.
Definition w (a b : Z) : K2 := mk2 (ph a) (ph b).
Local Notation G := (Aff (w gxx gxy) (w gyx gyy)).
Hypothesis oG : on_curve g2_b G.
Hypothesis rG : (0 <= gxx < bn_P)%Z /\ (0 <= gxy < bn_P)%Z.
Definition cval (s : cst) : Prop := ptmul (ck s) G = Aff (w (cxx s) (cxy s)) (w (cyx s) (cyy s)).
Lemma phq (u v q : Z) : (u = v + q * bn_P)%Z -> ph u = ph v.
Proof. move=> ->. by rewrite phD phM phP mulr0 addr0. Qed.
Lemma phs (u q : Z) : ph (u - q * bn_P)%Z = ph u.
Proof. by rewrite phB phM phP mulr0 subr0. Qed.
Lemma ph6 : ph 6 = 2%:R * 3%:R. Proof. rewrite -ph2E -ph3E -phM. by []. Qed.
Lemma w_neq0 a b : zz a -> zz b -> negb ((a =? 0)%Z && (b =? 0)%Z) -> w a b != 0.
Proof.
move=> za zb N. apply/eqP. rewrite /w -mk2_0 => /mk2_inj [/ph_eq0 /za A /ph_eq0 /zb B].
by rewrite A B in N.
Qed.
Lemma inr2_ok z : inr2 bn_P z -> (0 <= z < bn_P)%Z.
Proof. move/andP => [/Z.leb_le A /Z.ltb_lt B]. by []. Qed.
Lemma w2 : (2%:R : K2) = mk2 0 2%:R. Proof. by rewrite -(BNFrob.e2n 2). Qed.
Lemma w3 : (3%:R : K2) = mk2 0 3%:R. Proof. by rewrite -(BNFrob.e2n 3). Qed.
Lemma two1 : (2%:R : K1) = 1 + 1. Proof. by []. Qed.
Lemma three1 : (3%:R : K1) = 1 + 1 + 1. Proof. by rewrite !mulrS addr0 addrA. Qed.

Lemma wD a b c d : w a b + w c d = w (a + c) (b + d). Proof. by rewrite /w mk2D !phD. Qed.
Lemma wN a b : - w a b = w (- a) (- b). Proof. by rewrite /w mk2N !phN. Qed.
Lemma wB a b c d : w a b - w c d = w (a - c) (b - d). Proof. by rewrite wN wD !Z.add_opp_r. Qed.
Lemma wM a b c d : w a b * w c d = w (a * d + b * c) (b * d - a * c).
Proof. rewrite /w mk2M !phE. by congr mk2; mcfr K1. Qed.
Lemma w_mod a b c d q r : (a = c + q * bn_P)%Z -> (b = d + r * bn_P)%Z -> w a b = w c d.
Proof. move=> A B. by rewrite /w (phq A) (phq B). Qed.

Lemma cfin_ok k lx ly bx by_ cx cy x1 x2 y1 y2 u1 u2 :
  let s := cfin bn_P k lx ly bx by_ cx cy x1 x2 y1 y2 u1 u2 in
  let L := w lx ly in
  w (cxx s) (cxy s) = L ^+ 2 - w x1 x2 - w u1 u2 /\
  w (cyx s) (cyy s) = L * (w x1 x2 - (L ^+ 2 - w x1 x2 - w u1 u2)) - w y1 y2.
Proof.
move=> s L.
have E : w (cxx s) (cxy s) = L ^+ 2 - w x1 x2 - w u1 u2.
  rewrite /L expr2 wM !wB /s /cfin /=. apply: (@w_mod _ _ _ _ (- bx)%Z (- by_)%Z); ring.
split=> //. rewrite -E wB /L wM wB.
rewrite /s /cfin /=. set nx := (_ - bx * _)%Z. set ny := (_ - by_ * _)%Z.
apply: (@w_mod _ _ _ _ (- cx)%Z (- cy)%Z); ring.
Qed.
Lemma ck_fin k lx ly bx by_ cx cy x1 x2 y1 y2 u1 u2 : ck (cfin bn_P k lx ly bx by_ cx cy x1 x2 y1 y2 u1 u2) = k.
Proof. by []. Qed.
Lemma G1mul : ptmul 1 G = G. Proof. by []. Qed.

Lemma cpadd_ok ux uy s k hx hy lx ly ax ay bx by_ cx cy s' : (0 <= ux < bn_P)%Z /\ (0 <= uy < bn_P)%Z ->
  caddg bn_P ux uy s k hx hy lx ly ax ay bx by_ cx cy = Some s' ->
  pt_add (Aff (w (cxx s) (cxy s)) (w (cyx s) (cyy s))) (Aff (w ux uy) (w hx hy)) =
    Aff (w (cxx s') (cxy s')) (w (cyx s') (cyy s')) /\ ck s' = k.
Proof.
move=> rU. rewrite /caddg. case: ifP => // /andP [/andP [/andP [/andP [R1 R2] N] /Z.eqb_eq E1] /Z.eqb_eq E2] [<-].
rewrite ck_fin. have [-> ->] := cfin_ok k lx ly bx by_ cx cy (cxx s) (cxy s) (cyx s) (cyy s) ux uy. split=> //.
apply: line_add.
  rewrite wB. move: rU (inr2_ok R1) (inr2_ok R2) => [A B] C D.
  apply: w_neq0 => //; apply: small_zz; lia.
rewrite !wB wM. apply: (@w_mod _ _ _ _ ax ay); [rewrite -E1|rewrite -E2]; ring.
Qed.
Lemma cadd_ok s k hx hy lx ly ax ay bx by_ cx cy s' : cval s ->
  ptmul k G = pt_add (ptmul (ck s) G) (Aff (w gxx gxy) (w hx hy)) ->
  caddg bn_P gxx gxy s k hx hy lx ly ax ay bx by_ cx cy = Some s' -> cval s'.
Proof.
rewrite /cval => V K H. have [E ->] := cpadd_ok rG H. by rewrite K V E.
Qed.
Lemma cstep2_ok s o s' : cval s -> cstep2 bn_P gxx gxy gyx gyy s o = Some s' -> cval s'.
Proof.
move=> V. have V0 := V. rewrite /cval in V0. case: o => lx ly ax ay bx by_ cx cy; rewrite /cstep2.
- case: ifP => // /andP [/andP [/andP [/andP [R1 R2] N] /Z.eqb_eq E1] /Z.eqb_eq E2] [<-].
  rewrite /cval ck_fin.
  have [-> ->] := cfin_ok (2 * ck s) lx ly bx by_ cx cy (cxx s) (cxy s) (cyx s) (cyy s) (cxx s) (cxy s).
  rewrite -Z.add_diag (@ptmulD c2) // V0. apply: (line_dbl k2_2).
    move: (inr2_ok R1) (inr2_ok R2) => C D. apply: w_neq0 => //; apply: small_zz; lia.
  have T2 : (2%:R : K2) = w 0 2 by rewrite w2 /w ph0 ph2E.
  have T3 : (3%:R : K2) = w 0 3 by rewrite w3 /w ph0 ph3E.
  rewrite T2 T3 expr2 !wM. apply: (@w_mod _ _ _ _ ax ay).
    transitivity (2 * (lx * cyy s + ly * cyx s))%Z; first ring. rewrite E1. ring.
  transitivity (2 * (ly * cyy s - lx * cyx s))%Z; first ring. rewrite E2. ring.
- apply: cadd_ok => //. by rewrite (@ptmulD c2) // G1mul.
- apply: cadd_ok => //. rewrite -Z.add_opp_r (@ptmulD c2) // (@ptmulN c2) // G1mul /=. by rewrite wN.
Qed.
Lemma crun2_ok l : forall s s', cval s -> crun2 bn_P gxx gxy gyx gyy l s = Some s' -> cval s'.
Proof.
elim: l => [|o l IH] s s' V /=; first by move=> [<-].
case E : cstep2 => [t|] //. apply: IH. exact: (cstep2_ok V E).
Qed.
Lemma order_cert2 l N : crun2 bn_P gxx gxy gyx gyy l (Cst 1 gxx gxy gyx gyy)
    = Some (Cst (N - 1) gxx gxy (bn_P - gyx) (bn_P - gyy)) -> ptmul N G = Inf.
Proof.
move/crun2_ok => H. have V : cval (Cst 1 gxx gxy gyx gyy) by [].
have := H V. rewrite /cval [ck _]/= [cxx _]/= [cxy _]/= [cyx _]/= [cyy _]/= => E.
have -> : N = (N - 1 + 1)%Z by ring.
rewrite (@ptmulD c2) // E G1mul.
have -> : w (bn_P - gyx) (bn_P - gyy) = - w gyx gyy.
  rewrite wN. apply: (@w_mod _ _ _ _ 1%Z 1%Z); ring.
by rewrite /pt_add eqxx eqxx.
Qed.
End Sound.
