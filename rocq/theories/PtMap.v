(** * Twisted field homomorphisms commute with the chord-and-tangent law *)
From Coq Require Import ZArith Ring_theory Field_theory.
From mathcomp Require Import all_ssreflect all_algebra.
From Verif Require Import MCRing EC ECGroup PtGroup Jac SpecPair.
Set Implicit Arguments.
Unset Strict Implicit.
Unset Printing Implicit Defensive.
Import GRing.Theory.
Delimit Scope Z_scope with Z.
Local Open Scope ring_scope.

Section Map.
Variables F E : fieldType.
Variable f : F -> E.
Variable s : E.
Hypothesis fD : forall x y, f (x + y) = f x + f y.
Hypothesis fM : forall x y, f (x * y) = f x * f y.
Hypothesis f1 : f 1 = 1.
Hypothesis s0 : s != 0.
Hypothesis h2 : (2%:R : E) != 0.
Add Field EE : (mc_field E).
Add Field FF : (mc_field F).
Lemma fm0 : f 0 = 0.
Proof. apply: (addrI (f 0)). by rewrite -fD !addr0. Qed.
Lemma fmN x : f (- x) = - f x.
Proof. apply: (addrI (f x)). by rewrite -fD !addrN fm0. Qed.
Lemma fmB x y : f (x - y) = f x - f y. Proof. by rewrite fD fmN. Qed.
Lemma fmn n : f n%:R = n%:R. Proof. elim: n => [|n IH]; [exact: fm0|by rewrite !mulrS fD IH f1]. Qed.
Lemma fmX x n : f (x ^+ n) = f x ^+ n. Proof. elim: n => [|n IH]; [by rewrite !expr0 f1|by rewrite !exprS fM IH]. Qed.
Lemma fm_eq0 x : (f x == 0) = (x == 0).
Proof.
apply/eqP/eqP => [H|->]; last exact: fm0. apply/eqP/negPn/negP => x0.
have : f (x * x^-1) = 0 by rewrite fM H mul0r. rewrite mulfV // f1 => /eqP. by rewrite oner_eq0.
Qed.
Lemma fmV x : f (x^-1) = (f x)^-1.
Proof.
case: (eqVneq x 0) => [->|x0]; first by rewrite invr0 fm0 invr0.
have fx : f x != 0 by rewrite fm_eq0. apply: (mulfI fx). by rewrite -fM !mulfV.
Qed.
Lemma fm_eq x y : (f x == f y) = (x == y).
Proof. by rewrite -subr_eq0 -fmB fm_eq0 subr_eq0. Qed.
Definition pt_map (p : pt F) : pt E :=
  match p with Inf => Inf | Aff x y => Aff (f x * s ^+ 2) (f y * s ^+ 3) end.
Lemma pm_inj p q : pt_map p = pt_map q -> p = q.
Proof.
have s2 : s ^+ 2 != 0 by rewrite expf_neq0. have s3 : s ^+ 3 != 0 by rewrite expf_neq0.
case: p q => [|x y] [|x' y'] //= [/(mulIf s2)/eqP A /(mulIf s3)/eqP B].
by move: A B; rewrite !fm_eq => /eqP -> /eqP ->.
Qed.
Lemma pm_neg p : pt_map (pt_neg p) = pt_neg (pt_map p).
Proof. by case: p => //= x y; rewrite fmN mulNr. Qed.
Lemma s2n : s ^+ 2 != 0. Proof. by rewrite expf_neq0. Qed.
Lemma s3n : s ^+ 3 != 0. Proof. by rewrite expf_neq0. Qed.
Lemma eqs2 x y : (f x * s ^+ 2 == f y * s ^+ 2) = (x == y).
Proof. rewrite (inj_eq (mulIf s2n)). exact: fm_eq. Qed.
Lemma eqs3 x y : (f x * s ^+ 3 == - (f y * s ^+ 3)) = (x == - y).
Proof. rewrite -mulNr -fmN (inj_eq (mulIf s3n)). exact: fm_eq. Qed.
(** slopes scale by s *)
Lemma slope_t x y : 3%:R * (f x * s ^+ 2) ^+ 2 / (2%:R * (f y * s ^+ 3)) = f (3%:R * x ^+ 2 / (2%:R * y)) * s.
Proof.
case: (eqVneq y 0) => [->|y0]; first by rewrite fm0 mul0r !mulr0 !invr0 !mulr0 fm0 mul0r.
rewrite (fM _ (_^-1)) fmV (fM 3%:R) (fM 2%:R) (fmX x 2) !fmn.
have b0 : f y != 0 by rewrite fm_eq0.
move: (3%:R : E) => t. move: (2%:R : E) h2 => w w0.
move: (f x) (f y) b0 => a b b0. rewrite !exprS !expr0 !mulr1.
mcf E; repeat split; apply/eqP; rewrite ?mulf_neq0 //.
Qed.
Lemma slope_c x y x' y' : x' - x != 0 -> (f y' * s ^+ 3 - f y * s ^+ 3) / (f x' * s ^+ 2 - f x * s ^+ 2) = f ((y' - y) / (x' - x)) * s.
Proof.
move=> d0. rewrite (fM _ (_^-1)) fmV -!mulrBl -!fmB.
have b0 : f (x' - x) != 0 by rewrite fm_eq0.
move: (f (x' - x)) (f (y' - y)) b0 => a b b0. rewrite !exprS !expr0 !mulr1.
mcf E; repeat split; apply/eqP; rewrite ?mulf_neq0 //.
Qed.
Lemma third (l x1 x2 : F) : (f l * s) ^+ 2 - f x1 * s ^+ 2 - f x2 * s ^+ 2 = f (l ^+ 2 - x1 - x2) * s ^+ 2.
Proof. by rewrite !fmB (fmX l 2) exprMn !mulrBl. Qed.
Lemma third_y (l x1 y1 x3 : F) : (f l * s) * (f x1 * s ^+ 2 - f x3 * s ^+ 2) - f y1 * s ^+ 3 = f (l * (x1 - x3) - y1) * s ^+ 3.
Proof. rewrite fmB (fM l) fmB. rewrite !exprS !expr0 !mulr1. mcfr E. Qed.
Lemma pm_add p q : pt_map (pt_add p q) = pt_add (pt_map p) (pt_map q).
Proof.
case: p q => [|x y] [|x' y'] //=. rewrite eqs2. case: eqP => [<-|/eqP N].
  rewrite eqs3. case: eqP => // /eqP N.
  by rewrite slope_t third third_y.
have d0 : x' - x != 0 by rewrite subr_eq0 eq_sym.
by rewrite slope_c // third third_y.
Qed.
Lemma pm_iter p n : pt_map (Pos.iter (pt_add p) Inf n) = Pos.iter (pt_add (pt_map p)) Inf n.
Proof.
elim/Pos.peano_ind: n => [|n IH]; first by rewrite /= pm_add.
by rewrite !Pos.iter_succ pm_add IH.
Qed.
Lemma pm_mul k p : pt_map (ptmul k p) = ptmul k (pt_map p).
Proof. case: k => [|n|n] //=; rewrite ?pm_neg pm_iter //. Qed.
(** lines *)
Lemma pm_line_t x1 y1 x y : y1 != 0 -> (y1 == - y1) = false ->
  line_at (pt_map (Aff x1 y1)) (pt_map (Aff x1 y1)) (Aff x y) =
  y - f (3%:R * x1 ^+ 2 / (2%:R * y1)) * x * s + f (3%:R * x1 ^+ 2 / (2%:R * y1) * x1 - y1) * s ^+ 3.
Proof.
move=> y0 N. rewrite /= eqxx eqs3 N slope_t fmB (fM (_ / _) x1).
move: (f (_ / _)) (f x1) (f y1) => l a b. rewrite !exprS !expr0 !mulr1. mcfr E.
Qed.
Lemma pm_line_c x1 y1 x2 y2 x y : x2 - x1 != 0 ->
  line_at (pt_map (Aff x1 y1)) (pt_map (Aff x2 y2)) (Aff x y) =
  y - f ((y2 - y1) / (x2 - x1)) * x * s + f ((y2 - y1) / (x2 - x1) * x2 - y2) * s ^+ 3.
Proof.
move=> d0. rewrite /= eqs2. have -> : (x1 == x2) = false by apply/negbTE; rewrite eq_sym -subr_eq0.
rewrite slope_c //.
have -> : (y2 - y1) / (x2 - x1) * x2 - y2 = (y2 - y1) / (x2 - x1) * x1 - y1.
  apply/eqP. rewrite -subr_eq0. apply/eqP.
  have H (m : F) : m * x2 - y2 - (m * x1 - y1) = m * (x2 - x1) - (y2 - y1) by mcfr F.
  rewrite H.
  by rewrite divfK // subrr.
rewrite fmB (fM (_ / _) x1).
move: (f (_ / _)) (f x1) (f y1) => l a b. rewrite !exprS !expr0 !mulr1. mcfr E.
Qed.
End Map.
