(** * Line functions on y^2 = x^3 + b as a 2-cocycle, and reciprocity for lines

    For points A, B the function c(A,B) with divisor A + B - (A+B) - O is the line
    through A and B divided by the vertical line through A+B. Its values at a point
    satisfy the cocycle identity (up to a fourth root of unity); for three points
    with sum O the product of the values is a coboundary (Weil reciprocity for two
    lines). *)
From Coq Require Import Ring Field Lia.
From Coq Require Permutation.
From mathcomp Require Import all_ssreflect all_algebra.
From Verif Require Import MCRing EC.
Set Implicit Arguments.
Unset Strict Implicit.
Unset Printing Implicit Defensive.
Import GRing.Theory.
Local Open Scope ring_scope.

Section Cocycle.
Variable F : fieldType.
Variable b : F.
Hypothesis h2 : (2%:R : F) != 0.
Hypothesis h3 : (3%:R : F) != 0.
Hypothesis hb : b != 0.
Let K : comRingType := [comRingType of {poly F}].
Let f : K := fX b.
Add Ring Rring2 : (cr_ring f).
Add Ring FFr2 : (mc_ring F).
Add Field FF2 : (mc_field F).
Local Notation R := (cr K).
Local Notation "a *c b" := (cmul f a b) (at level 40, left associativity).
Local Notation point := (pt F).
Local Notation oc := (on_curve b).
Local Notation pr := (pr b).

(** evaluation at an affine point *)
Definition ev (x y : F) (g : R) : F := (c0 g).[x] + (c1 g).[x] * y.
Lemma evM x y g h : oc (Aff x y) -> ev x y (g *c h) = ev x y g * ev x y h.
Proof.
move=> /eqP E. rewrite /ev /= !hornerD !hornerM (horner_f b) -E. mcr F.
Qed.
Lemma evC x y g : oc (Aff x y) -> ev x y g * ev x (- y) g = (cnorm f g).[x].
Proof.
move=> /eqP E. rewrite /ev /cnorm hornerD hornerN !expr2 !hornerM (horner_f b) -E. mcr F.
Qed.

(** the line through p and q *)
Definition slope (x1 y1 x2 y2 : F) : F :=
  if x1 == x2 then (3%:R * x1 ^+ 2) / (2%:R * y1) else (y2 - y1) / (x2 - x1).
Definition linep (la x1 y1 : F) : R := CR (- (la%:P * ('X - x1%:P) + y1%:P)) (1 : K).
Definition gl (p q : point) : R :=
  match p, q with
  | Inf, _ => @cK K (vert q)
  | _, Inf => @cK K (vert p)
  | Aff x1 y1, Aff x2 y2 =>
      if (x1 == x2) && (y1 == - y2) then @cK K (vert p) else linep (slope x1 y1 x2 y2) x1 y1
  end.
Lemma slope_add x1 y1 x2 y2 : ~~ ((x1 == x2) && (y1 == - y2)) ->
  pt_add (Aff x1 y1) (Aff x2 y2) = third (slope x1 y1 x2 y2) x1 y1 x2.
Proof.
rewrite /= /slope /third. case: eqP => //= _. by case: eqP.
Qed.
(** what a chord or tangent satisfies *)
Lemma slope_ok x1 y1 x2 y2 : oc (Aff x1 y1) -> oc (Aff x2 y2) -> ~~ ((x1 == x2) && (y1 == - y2)) ->
  let la := slope x1 y1 x2 y2 in y2 = la * (x2 - x1) + y1 /\
  x1 ^+ 2 + x1 * x2 + x2 ^+ 2 + la ^+ 2 * (x1 - x2) = 2%:R * la * y1.
Proof.
move=> /eqP e1 /eqP e2. rewrite /slope. have [ex|nx] /= := eqVneq x1 x2.
  move=> ny. have ey : y1 = y2.
    have : y1 ^+ 2 = y2 ^+ 2 by rewrite e1 e2 ex.
    by case/sqr_eq_pm => // E; move: ny; rewrite E eqxx.
  have y0 : y1 != 0.
    by apply/eqP => E; move: ny; rewrite -ey E oppr0 eqxx.
  have y20 : 2%:R * y1 != 0 by rewrite mulf_neq0.
  set la := 3%:R * x1 ^+ 2 / (2%:R * y1).
  have Hla : la * (2%:R * y1) = 3%:R * x1 ^+ 2 by rewrite divfK.
  split; first by rewrite -ex -ey subrr mulr0 add0r.
  rewrite -ex subrr mulr0 addr0.
  have -> : 2%:R * la * y1 = la * (2%:R * y1) by mcr F.
  rewrite Hla. mcr F.
move=> _. have d0 : x2 - x1 != 0 by rewrite subr_eq0 eq_sym.
set la := (y2 - y1) / (x2 - x1).
have Hla : la * (x2 - x1) = y2 - y1 by rewrite divfK.
split; first by rewrite Hla subrK.
apply: (mulIf d0).
have -> : (x1 ^+ 2 + x1 * x2 + x2 ^+ 2 + la ^+ 2 * (x1 - x2)) * (x2 - x1)
   = (x2 ^+ 3 + b) - (x1 ^+ 3 + b) - (la * (x2 - x1)) ^+ 2 by mcr F.
have -> : 2%:R * la * y1 * (x2 - x1) = 2%:R * (la * (x2 - x1)) * y1 by mcr F.
rewrite Hla -e1 -e2. mcr F.
Qed.
Lemma pr_inf q : oc q -> pr [:: Inf; q; pt_neg q] (@cK K (vert q)).
Proof.
have Minf l z : all oc l -> M b (Inf :: l) z <-> M b l z.
  move=> ol; have [J0 JA JM] := ideal_M ol; split=> /=.
    by apply: ip_closed; [exact: ideal_M|move=> x y _; apply: JM].
  by apply: ip_unit => //; apply: ideal_M.
move=> oq z. have oq2 : all oc [:: q; pt_neg q] by rewrite /= oq (oc_neg oq).
split=> [/(Minf _ _ oq2)/(pr_vert h2 h3 hb oq)|/(pr_vert h2 h3 hb oq)/(Minf _ _ oq2)] //.
Qed.
Lemma gl_pr p q : oc p -> oc q -> pr [:: p; q; pt_neg (pt_add p q)] (gl p q).
Proof.
case: p => [|x1 y1] o1; first exact: pr_inf.
case: q => [|x2 y2] o2.
  apply: (pr_perm (l1 := [:: Inf; Aff x1 y1; pt_neg (Aff x1 y1)])); first exact: Permutation.perm_swap.
  exact: pr_inf.
rewrite /gl. case: ifP => [/andP [/eqP ex /eqP ey]|/negbT N].
  apply: (pr_perm (l1 := [:: Inf; Aff x1 y1; pt_neg (Aff x1 y1)])); last exact: pr_inf.
  rewrite /= ex ey eqxx opprK eqxx /=.
  apply: (Permutation.Permutation_cons_app [:: _; _]). exact: Permutation.Permutation_refl.
have [E1 E2] := slope_ok o1 o2 N. rewrite (slope_add N).
exact: (proj2 (third_line h2 h3 hb o1 o2 E1 E2)).
Qed.

(** normalisation *)
Definition um (g : R) : Prop := lead_coef (cnorm f g : {poly F}) ^+ 2 = 1.
Lemma umM g h : um g -> um h -> um (g *c h).
Proof. move=> A B. by rewrite /um cnorm_mul lead_coefM exprMn A B mulr1. Qed.
Lemma um_vert p : um (@cK K (vert p)).
Proof.
rewrite /um /cnorm /=.
have -> : vert p ^+ 2 - 0 ^+ 2 * f = vert p ^+ 2 :> {poly F} by rewrite expr0n mul0r subr0.
rewrite lead_coef_exp. case: p => [|x y] /=; first by rewrite lead_coef1 !expr1n.
by rewrite lead_coefXsubC !expr1n.
Qed.
Lemma um_line la x1 y1 : um (linep la x1 y1).
Proof.
rewrite /um /linep cnorm_line. set L : {poly F} := la%:P * _ + _.
have sL : (size L <= 2)%N.
  apply: leq_trans (size_add _ _) _. rewrite geq_max. apply/andP; split.
    have [->|l0] := eqVneq la 0; first by rewrite mul0r size_poly0.
    by rewrite size_Cmul // size_XsubC.
  apply: leq_trans (size_polyC_leq1 _) _. by [].
have sL2 : (size (L ^+ 2) < 4)%N.
  rewrite expr2. apply: leq_ltn_trans (size_mul_leq _ _) _.
  by move: sL; case: (size L) => [|[|[|n]]].
have sf : size (- f : {poly F}) = 4%N by rewrite size_opp; exact: sz_f.
have -> : lead_coef (L ^+ 2 - f : {poly F}) = -1.
  rewrite lead_coefDr; last by rewrite sf.
  rewrite lead_coefN /f /fX lead_coefDl ?lead_coefXn //.
  rewrite size_polyXn. apply: leq_ltn_trans (size_polyC_leq1 _) _. by [].
by rewrite sqrrN expr1n.
Qed.
Lemma um_gl p q : um (gl p q).
Proof.
case: p => [|x1 y1]; first exact: um_vert.
case: q => [|x2 y2]; first exact: um_vert.
rewrite /gl. case: ifP => _; [exact: um_vert|exact: um_line].
Qed.
Lemma um_neq0 g : um g -> g <> czero K.
Proof.
move=> U E. move: U. rewrite /um E /cnorm /=.
have -> : 0 ^+ 2 - 0 ^+ 2 * f = 0 :> {poly F} by rewrite expr0n mul0r subr0.
by rewrite lead_coef0 expr0n => /eqP; rewrite eq_sym oner_eq0.
Qed.
(** two normalised functions with the same zeros *)
Lemma unit_const (r s : R) : r *c s = cone K -> exists k : F, r = CR k%:P 0.
Proof.
move=> E. have N : cnorm f r * cnorm f s = 1 :> {poly F}.
  rewrite -cnorm_mul E /cnorm /= expr0n mul0r subr0 expr1n. by [].
have rs : size (cnorm f r : {poly F}) = 1%N.
  have : (cnorm f r : {poly F}) %| 1 by rewrite -N dvdp_mulr.
  rewrite dvdp1. by move/eqP.
have n0 : cnorm f r <> 0 by move=> Z; move: rs; rewrite Z size_poly0.
case: (norm_sizes n0) => [[C1]|]; rewrite /sz rs //.
move=> S. have sr : size (c0 r : {poly F}) == 1%N.
  move: S. case: (size _) => [|[|n]]; [by []|by []|]. move=> S. exfalso. mlia.
case/size_poly1P: sr => k _ Ek. exists k. apply: cr_eq => //=.
Qed.
Lemma cA (a c d : R) : a *c (c *c d) = a *c c *c d. Proof. ring. Qed.
Lemma c1r (a : R) : a *c cone K = a. Proof. ring. Qed.
Lemma uniq4 l (g h : R) : pr l g -> pr l h -> um g -> um h ->
  forall x y, oc (Aff x y) -> ev x y g ^+ 4 = ev x y h ^+ 4.
Proof.
move=> Pg Ph Ug Uh x y o.
have [r Er] : exists r, g = h *c r by apply/Ph; exact: (pr_mem Pg).
have [s Es] : exists s, h = g *c s by apply/Pg; exact: (pr_mem Ph).
have U1 : r *c s = cone K.
  apply: (cmul_cancel (um_neq0 Uh)).
  exact: (etrans (cA h r s) (etrans (congr1 (fun g => g *c s) (esym Er)) (etrans (esym Es) (esym (c1r h))))).
have [k Ek] := unit_const U1.
have k4 : k ^+ 4 = 1.
  move: Ug. rewrite /um Er cnorm_mul lead_coefM exprMn Uh mul1r Ek /cnorm /=.
  have -> : k%:P ^+ 2 - 0 ^+ 2 * f = (k ^+ 2)%:P :> {poly F} by rewrite expr0n mul0r subr0 -polyC_exp.
  by rewrite lead_coefC -exprM.
rewrite Er evM // exprMn Ek {2}/ev /= !hornerC mul0r addr0 k4 mulr1. by [].
Qed.

(** ** the cocycle *)
Local Notation pa := (@pt_add F).
Definition vt (A : point) (x : F) : F := match A with Inf => 1 | Aff xA _ => x - xA end.
Lemma ev_vert A x y : ev x y (@cK K (vert A)) = vt A x.
Proof. rewrite /ev /=. case: A => [|xA yA] /=; by rewrite ?hornerXsubC !hornerC mul0r addr0. Qed.
Lemma vt_neg A x : vt (pt_neg A) x = vt A x. Proof. by case: A. Qed.

(** the norm of a line *)
Lemma norm_gl A B x y : oc A -> oc B -> oc (Aff x y) ->
  ev x y (gl A B) * ev x (- y) (gl A B) = vt A x * vt B x * vt (pa A B) x \/
  ev x y (gl A B) * ev x (- y) (gl A B) = - (vt A x * vt B x * vt (pa A B) x).
Proof.
move=> oA oB o. case: A oA => [|x1 y1] oA; first by left; rewrite [gl _ _]/(@cK K (vert B)) !ev_vert /=; mcr F.
case: B oB => [|x2 y2] oB; first by left; rewrite [gl _ _]/(@cK K (vert (Aff x1 y1))) !ev_vert /=; mcr F.
rewrite /gl. case: ifP => [/andP [/eqP ex /eqP ey]|/negbT N].
  left. rewrite !ev_vert /= ex eqxx ey eqxx /=. mcr F.
right. have [E1 E2] := slope_ok oA oB N. rewrite (slope_add N). set la := slope _ _ _ _ in E1 E2 *.
rewrite /third /vt /ev /linep /= !hornerN !hornerD hornerM hornerD hornerN !hornerC !hornerX.
move/eqP: o => o. move/eqP: oA => oA.
have -> : (- (la * (x - x1) + y1) + 1 * y) * (- (la * (x - x1) + y1) + 1 * - y) =
  (la * (x - x1) + y1) ^+ 2 - y ^+ 2 by mcr F.
rewrite o. have -> : b = y1 ^+ 2 - x1 ^+ 3 by rewrite oA addrAC subrr add0r.
apply/eqP. rewrite -subr_eq0. apply/eqP.
transitivity ((x - x1) * (2%:R * la * y1 - (x1 ^+ 2 + x1 * x2 + x2 ^+ 2 + la ^+ 2 * (x1 - x2)))); first by mcr F.
by rewrite E2 subrr mulr0.
Qed.
Lemma gl_neq0 A B x y : oc A -> oc B -> oc (Aff x y) -> vt A x != 0 -> vt B x != 0 -> vt (pa A B) x != 0 ->
  ev x y (gl A B) != 0.
Proof.
move=> oA oB o a0 b0 c0. have n0 : vt A x * vt B x * vt (pa A B) x != 0 by rewrite !mulf_neq0.
apply/eqP => E. case: (norm_gl oA oB o); rewrite E mul0r => /esym/eqP; rewrite ?oppr_eq0 (negbTE n0) //.
Qed.
Lemma gl_sym A B x y : oc A -> oc B -> oc (Aff x y) -> ev x y (gl A B) ^+ 4 = ev x y (gl B A) ^+ 4.
Proof.
move=> oA oB. have P1 := gl_pr oA oB. have P2 := gl_pr oB oA.
apply: (uniq4 (l := [:: A; B; pt_neg (pa A B)])) => //; try exact: um_gl.
rewrite (pt_addC oA oB). apply: pr_perm P2. exact: Permutation.perm_swap.
Qed.
Local Ltac perm_pull a r k :=
  lazymatch r with
  | a :: ?r' => k (@nil point) r'
  | ?c :: ?r' => perm_pull a r' ltac:(fun p q => k (c :: p) q)
  end.
Local Ltac perm_tac :=
  lazymatch goal with
  | |- Permutation.Permutation nil nil => exact: Permutation.perm_nil
  | |- Permutation.Permutation (?a :: ?l) ?r =>
      perm_pull a r ltac:(fun p q =>
        apply: (@Permutation.Permutation_cons_app _ l p q a); rewrite /=; perm_tac)
  end.
Lemma perm8 (A B u m C w n v : point) :
  Permutation.Permutation [:: A; B; u; m; C; w; n; v] [:: B; C; v; A; n; w; m; u].
Proof. perm_tac. Qed.
Lemma gl_cocycle A B C x y : oc A -> oc B -> oc C -> oc (Aff x y) ->
  (ev x y (gl A B) * ev x y (gl (pa A B) C) * vt (pa B C) x) ^+ 4 =
  (ev x y (gl B C) * ev x y (gl A (pa B C)) * vt (pa A B) x) ^+ 4.
Proof.
move=> oA oB oC o.
have oAB := oc_add h2 h3 hb oA oB. have oBC := oc_add h2 h3 hb oB oC.
have oS := oc_add h2 h3 hb oA oBC.
have P1 := gl_pr oA oB. have P2 := gl_pr oAB oC. have P3 := pr_vert h2 h3 hb oBC.
have P4 := gl_pr oB oC. have P5 := gl_pr oA oBC. have P6 := pr_vert h2 h3 hb oAB.
rewrite -(pt_addA h2 h3 hb oA oB oC) in P2. 
set S := pa A (pa B C) in oS P2 P5 *.
have W1 : pr ([:: A; B; pt_neg (pa A B)] ++ ([:: pa A B; C; pt_neg S] ++ [:: pa B C; pt_neg (pa B C)]))
   (gl A B *c (gl (pa A B) C *c @cK K (vert (pa B C)))).
  apply: pr_cat2 => //; first by rewrite /= oAB oC oBC !oc_neg.
  apply: pr_cat2 => //. by rewrite /= oBC !oc_neg.
have W2 : pr ([:: B; C; pt_neg (pa B C)] ++ ([:: A; pa B C; pt_neg S] ++ [:: pa A B; pt_neg (pa A B)]))
   (gl B C *c (gl A (pa B C) *c @cK K (vert (pa A B)))).
  apply: pr_cat2 => //; first by rewrite /= oAB oA oBC !oc_neg.
  apply: pr_cat2 => //. by rewrite /= oAB !oc_neg.
have U p q r s t : um (gl p q *c (gl r s *c @cK K (vert t))).
  apply: umM; first exact: um_gl. apply: umM; [exact: um_gl|exact: um_vert].
have := uniq4 (pr_perm _ W1) W2 (U _ _ _ _ _) (U _ _ _ _ _) o.
rewrite !evM // !ev_vert !mulrA. apply.
rewrite /=. move: (pt_neg (pa A B)) (pt_neg (pa B C)) (pt_neg S) => u v w.
move: (pa A B) (pa B C) => m n. exact: perm8.
Qed.

(** ** reciprocity *)
(** the elementary symmetric functions of the abscissas on a line *)
Lemma line_sym la x1 y1 x2 : oc (Aff x1 y1) ->
  x1 ^+ 2 + x1 * x2 + x2 ^+ 2 + la ^+ 2 * (x1 - x2) = 2%:R * la * y1 ->
  let x3 := la ^+ 2 - x1 - x2 in let nu := y1 - la * x1 in
  x1 * x2 + x1 * x3 + x2 * x3 = - (2%:R * la * nu) /\ x1 * x2 * x3 = nu ^+ 2 - b.
Proof.
move=> /eqP o E x3 nu.
have e2 : x1 * x2 + x1 * x3 + x2 * x3 = - (2%:R * la * nu).
  have -> : 2%:R * la * nu = 2%:R * la * y1 - 2%:R * la ^+ 2 * x1 by rewrite /nu; mcr F.
  rewrite -E /x3. mcr F.
split=> //.
have -> : x1 * x2 * x3 = x1 ^+ 3 - la ^+ 2 * x1 ^+ 2 + (x1 * x2 + x1 * x3 + x2 * x3) * x1 by rewrite /x3; mcr F.
have Eb : b = y1 ^+ 2 - x1 ^+ 3 by rewrite o addrAC subrr add0r.
rewrite e2 Eb /nu. mcr F.
Qed.
(** prod_i (alpha a_i + beta) for the points of the other line *)
Lemma prod_sym (al be la nu x1 x2 x3 : F) : x1 + x2 + x3 = la ^+ 2 ->
  x1 * x2 + x1 * x3 + x2 * x3 = - (2%:R * la * nu) -> x1 * x2 * x3 = nu ^+ 2 - b ->
  (al * x1 + be) * (al * x2 + be) * (al * x3 + be) =
  al ^+ 3 * (nu ^+ 2 - b) - 2%:R * al ^+ 2 * be * la * nu + al * be ^+ 2 * la ^+ 2 + be ^+ 3.
Proof.
move=> e1 e2 e3.
transitivity (al ^+ 3 * (x1 * x2 * x3) + al ^+ 2 * be * (x1 * x2 + x1 * x3 + x2 * x3) + al * be ^+ 2 * (x1 + x2 + x3) + be ^+ 3);
  first by mcr F.
rewrite e1 e2 e3. mcr F.
Qed.
Lemma line_line la x1 y1 x2 mu a1 b1 a2 : oc (Aff x1 y1) -> oc (Aff a1 b1) ->
  x1 ^+ 2 + x1 * x2 + x2 ^+ 2 + la ^+ 2 * (x1 - x2) = 2%:R * la * y1 ->
  a1 ^+ 2 + a1 * a2 + a2 ^+ 2 + mu ^+ 2 * (a1 - a2) = 2%:R * mu * b1 ->
  let x3 := la ^+ 2 - x1 - x2 in let a3 := mu ^+ 2 - a1 - a2 in
  let l a := mu * (a - a1) + b1 - (la * (a - x1) + y1) in
  let m x := la * (x - x1) + y1 - (mu * (x - a1) + b1) in
  l a1 * l a2 * l a3 = - (m x1 * m x2 * m x3).
Proof.
move=> o1 p1 E1 E2 x3 a3 l m.
have [e2 e3] := line_sym o1 E1. have [g2 g3] := line_sym p1 E2.
rewrite /= -/x3 -/a3 in e2 e3 g2 g3. set nu := y1 - la * x1 in e2 e3. set ka := b1 - mu * a1 in g2 g3.
set al := mu - la. set be := ka - nu.
have El a : l a = al * a + be by rewrite /l /al /be /ka /nu; mcr F.
have Em x : m x = - (al * x + be) by rewrite /m /al /be /ka /nu; mcr F.
rewrite !El !Em.
have -> : - (- (al * x1 + be) * - (al * x2 + be) * - (al * x3 + be)) = (al * x1 + be) * (al * x2 + be) * (al * x3 + be) by mcr F.
have s1 : x1 + x2 + x3 = la ^+ 2 by rewrite /x3; mcr F.
have s2 : a1 + a2 + a3 = mu ^+ 2 by rewrite /a3; mcr F.
rewrite (prod_sym al be s1 e2 e3) (prod_sym al be s2 g2 g3) /be /al.
move: nu ka {e2 e3 g2 g3 be El Em} => nu ka. mcr F.
Qed.

(** the cocycle at P, and the line through P1, P2 as a function on points *)
Definition cc (P A B : point) : F :=
  match P with Inf => 1 | Aff x y => ev x y (gl A B) / vt (pa A B) x end.
Definition wl (P1 P2 A : point) : F :=
  match A with Inf => 1 | Aff x y => ev x y (gl P1 P2) end.
(** two affine points with different abscissas *)
Definition apart (P A : point) : bool :=
  match P, A with Aff x _, Aff x' _ => x != x' | _, _ => true end.
Lemma apart_vt x y A : apart (Aff x y) A = (vt A x != 0).
Proof. case: A => [|x' y'] /=; by rewrite ?oner_eq0 // subr_eq0. Qed.
Lemma apart_sym P A : apart P A = apart A P.
Proof. by case: P A => [|x y] [|x' y'] //=; rewrite eq_sym. Qed.
Lemma apart_neg P A : apart P (pt_neg A) = apart P A. Proof. by case: P A => [|x y] [|x' y']. Qed.

Definition pm (x y : F) : Prop := x = y \/ x = - y.
Lemma pm_mul x y z w : pm x y -> pm z w -> pm (x * z) (y * w).
Proof. rewrite /pm. move=> [] -> [] ->; rewrite ?mulrN ?mulNr ?opprK; auto. Qed.
Lemma pm_refl x : pm x x. Proof. by left. Qed.
Lemma pm_sym x y : pm x y -> pm y x. Proof. move=> [] ->; [by left|by right; rewrite opprK]. Qed.
Lemma pm_trans y x z : pm x y -> pm y z -> pm x z.
Proof. move=> [] -> [] ->; rewrite ?opprK; [left|right|right|left]; by []. Qed.
Lemma pm_opp x y : x = - y -> pm x y. Proof. by right. Qed.
Lemma pm_cancel z x y : z != 0 -> pm (x * z) (y * z) -> pm x y.
Proof. move=> z0 []; rewrite -?mulNr => /(mulIf z0) ->; [by left|by right]. Qed.
Lemma pm_sq x y : pm x y -> x ^+ 4 = y ^+ 4.
Proof. move=> [] -> //. by rewrite -[4%N]/(2 * 2)%N !exprM sqrrN. Qed.

Lemma cc_vt P A B : (match P with Inf => true | Aff x _ => vt (pa A B) x != 0 end) ->
  cc P A B * (match P with Inf => 1 | Aff x _ => vt (pa A B) x end) = (match P with Inf => 1 | Aff x y => ev x y (gl A B) end).
Proof. case: P => [|x y] /=; [by rewrite mulr1|move=> H; by rewrite divfK]. Qed.

Lemma rec_vert x y A B : oc (Aff x y) -> oc A -> oc B -> 
  vt A x != 0 -> vt B x != 0 -> vt (pa A B) x != 0 ->
  pm (cc (Aff x y) A B * cc (Aff x (- y)) A B * vt (pa A B) x) (vt A x * vt B x).
Proof.
move=> o oA oB a0 b0 c0. rewrite /cc.
have N := norm_gl oA oB o. set S := vt (pa A B) x in N c0 *.
apply: (pm_cancel c0).
have -> : ev x y (gl A B) / S * (ev x (- y) (gl A B) / S) * S * S = ev x y (gl A B) * ev x (- y) (gl A B).
  by rewrite mulrACA -invfM -(mulrA _ S S) divfK ?mulf_neq0.
exact: N.
Qed.

Lemma wl_inf Q A : oc Q -> pm (wl Inf Q A) (match Q with Inf => 1 | Aff x _ => vt A x end).
Proof.
case: Q => [|x y]; case: A => [|x' y'] _; rewrite /wl ?[gl _ _]/(@cK K (vert _)) ?ev_vert /=; try by left.
right. by rewrite opprB.
Qed.
Lemma rec_vert' Q A B : oc Q -> oc A -> oc B -> apart Q A -> apart Q B -> apart Q (pa A B) ->
  pm (cc Q A B * cc (pt_neg Q) A B * wl Inf Q (pa A B)) (wl Inf Q A * wl Inf Q B).
Proof.
move=> oQ oA oB. case: Q oQ => [|x y] oQ.
  move=> _ _ _. rewrite /cc /= !mul1r. 
  have E C : wl Inf Inf C = 1 by case: C => [|x' y'] //; rewrite /wl [gl _ _]/(@cK K (vert Inf)) ev_vert.
  rewrite !E mulr1. by left.
rewrite !apart_vt => a0 b0 c0. have H := rec_vert oQ oA oB a0 b0 c0.
have W C := wl_inf C oQ.
apply: pm_trans (pm_mul (pm_refl _) (W _)) _.
apply: pm_trans H _. apply: pm_sym. exact: pm_mul.
Qed.
Lemma gl_inf_r Q : oc Q -> gl Q Inf = gl Inf Q. Proof. by case: Q. Qed.
Lemma pt_neg_inf : pt_neg Inf = Inf :> point. Proof. by []. Qed.

Lemma evL la x1 y1 x y : ev x y (linep la x1 y1) = y - (la * (x - x1) + y1).
Proof. rewrite /ev /linep /= hornerN hornerD hornerM hornerD hornerN !hornerC !hornerX. mcr F. Qed.

Lemma rec_line a1 b1 a2 b2 A B : oc (Aff a1 b1) -> oc (Aff a2 b2) -> oc A -> oc B ->
  ~~ ((a1 == a2) && (b1 == - b2)) ->
  let P1 := Aff a1 b1 in let P2 := Aff a2 b2 in let P3 := pt_neg (pa P1 P2) in
  (forall C, C = A \/ C = B \/ C = pa A B -> [/\ apart P1 C, apart P2 C & apart P3 C]) ->
  pm (cc P1 A B * cc P2 A B * cc P3 A B * wl P1 P2 (pa A B)) (wl P1 P2 A * wl P1 P2 B).
Proof.
move=> p1 p2 oA oB N P1 P2 P3 H.
have [F1 F2] := slope_ok p1 p2 N. set mu := slope a1 b1 a2 b2 in F1 F2.
have oP : oc (pa P1 P2) := oc_add h2 h3 hb p1 p2.
have o3 : oc P3 := oc_neg oP.
have E3 : P3 = Aff (mu ^+ 2 - a1 - a2) (mu * ((mu ^+ 2 - a1 - a2) - a1) + b1).
  rewrite /P3 /P1 /P2 (slope_add N) /third /= -/mu. congr Aff. mcr F.
have Eg : gl P1 P2 = linep mu a1 b1 by rewrite /gl /P1 /P2 (negbTE N).
set a3 := mu ^+ 2 - a1 - a2 in E3. set b3 := mu * (a3 - a1) + b1 in E3.
have [A1 A2 A3] := H A (or_introl erefl).
have [B1 B2 B3] := H B (or_intror (or_introl erefl)).
have [S1 S2 S3] := H (pa A B) (or_intror (or_intror erefl)).
rewrite E3 in A3 B3 S3 o3 *. rewrite !apart_vt in A1 A2 A3 B1 B2 B3 S1 S2 S3.
case: A oA H A1 A2 A3 S1 S2 S3 => [|x1 y1] oA H A1 A2 A3 S1 S2 S3.
  have E a c : vt B a != 0 -> cc (Aff a c) Inf B = 1.
    move=> n. rewrite /cc [gl _ _]/(@cK K (vert B)) ev_vert /= divff //.
  rewrite !E // !mul1r. exact: pm_refl.
case: B oB H B1 B2 B3 S1 S2 S3 => [|x2 y2] oB H B1 B2 B3 S1 S2 S3.
  have E a c : vt (Aff x1 y1) a != 0 -> cc (Aff a c) (Aff x1 y1) Inf = 1.
    move=> n. rewrite /cc [gl _ _]/(@cK K (vert (Aff x1 y1))) ev_vert /= divff //.
  rewrite !E // !mul1r mulr1. exact: pm_refl.
(* the zeros of the line through the P_i, seen from a point *)
have Z x y : oc (Aff x y) -> pm (ev x y (gl P1 P2) * ev x (- y) (gl P1 P2))
    (vt (Aff x y) a1 * vt (Aff x y) a2 * vt (Aff x y) a3).
  move=> o. have := norm_gl p1 p2 o. rewrite -/P1 -/P2 -(vt_neg (pa P1 P2)) -/P3 E3 /P1 /P2 /= => Q.
  apply: pm_trans Q _. right. mcr F.
have [/andP [/eqP ex /eqP ey]|NAB] := boolP ((x1 == x2) && (y1 == - y2)).
  have EA : pa (Aff x1 y1) (Aff x2 y2) = Inf by rewrite /= ex ey !eqxx.
  have EG : gl (Aff x1 y1) (Aff x2 y2) = @cK K (vert (Aff x1 y1)) by rewrite /gl ex ey !eqxx.
  have E a c : cc (Aff a c) (Aff x1 y1) (Aff x2 y2) = vt (Aff x1 y1) a by rewrite /cc EA EG ev_vert /= divr1.
  rewrite /P1 /P2 !E EA /wl mulr1. apply: pm_sym.
  have -> : ev x2 y2 (gl (Aff a1 b1) (Aff a2 b2)) = ev x1 (- y1) (gl P1 P2) by rewrite ex ey opprK.
  exact: (Z _ _ oA).
have [E1 E2] := slope_ok oA oB NAB. set la := slope x1 y1 x2 y2 in E1 E2.
have EG : gl (Aff x1 y1) (Aff x2 y2) = linep la x1 y1 by rewrite /gl (negbTE NAB).
have ES : pa (Aff x1 y1) (Aff x2 y2) = third la x1 y1 x2 by rewrite (slope_add NAB).
have oS : oc (third la x1 y1 x2) by rewrite -ES; exact: (oc_add h2 h3 hb oA oB).
rewrite ES in S1 S2 S3 *. rewrite /cc EG ES. set x3 := la ^+ 2 - x1 - x2 in oS *.
set y3 := la * (x3 - x1) + y1.
have ET : third la x1 y1 x2 = Aff x3 (- y3) by rewrite /third -/x3 /y3; congr Aff; mcr F.
rewrite ET in oS S1 S2 S3 *.
have ZS := Z _ _ oS. rewrite opprK in ZS.
have L := line_line oA p1 E2 F2. rewrite /= -/x3 -/a3 in L.
rewrite /P1 /P2 !evL /wl -/P1 -/P2 in ZS *. rewrite Eg !evL in ZS *.
set V1 := vt _ a1 in S1 ZS *. set V2 := vt _ a2 in S2 ZS *. set V3 := vt _ a3 in S3 ZS *.
have n0 : (y3 - (mu * (x3 - a1) + b1)) != 0.
  apply/eqP => E. have V0 : V1 * V2 * V3 != 0 by rewrite !mulf_neq0.
  move: ZS. rewrite E mulr0 => -[] /esym/eqP; rewrite ?oppr_eq0 (negbTE V0) //.
set m3 := y3 - _ in n0 ZS *. set mS := - y3 - _ in ZS *.
have V0 : V1 * V2 * V3 != 0 by rewrite !mulf_neq0.
apply: (pm_cancel n0).
have -> (u v w : F) : u / V1 * (v / V2) * (w / V3) * mS * m3 = (u * v * w) / (V1 * V2 * V3) * (mS * m3).
  by rewrite (mulrACA u V1^-1) -(invfM V1 V2) (mulrACA (u * v)) -(invfM (V1 * V2)) mulrA.
apply: (@pm_trans ((b1 - (la * (a1 - x1) + y1)) * (b2 - (la * (a2 - x1) + y1)) * (b3 - (la * (a3 - x1) + y1)))).
  apply: (pm_cancel V0). 
  have -> (u : F) : u / (V1 * V2 * V3) * (mS * m3) * (V1 * V2 * V3) = u * (mS * m3).
    by rewrite mulrAC divfK.
  exact: pm_mul (pm_refl _) ZS.
right. move: L. rewrite F1 E1 /b3 /m3 /y3 !subrr !mulr0 !add0r. 
have -> : mu * (a2 - a1) + b1 = b2 by rewrite -F1.
have -> : la * (x2 - x1) + y1 = y2 by rewrite -E1.
move=> ->. by [].
Qed.

(** Weil reciprocity for the line through P1, P2 and the function c(A,B) *)
Lemma reciprocity P1 P2 A B : oc P1 -> oc P2 -> oc A -> oc B ->
  (forall C P, C = A \/ C = B \/ C = pa A B -> P = P1 \/ P = P2 \/ P = pa P1 P2 -> apart P C) ->
  pm (cc P1 A B * cc P2 A B * cc (pt_neg (pa P1 P2)) A B * wl P1 P2 (pa A B)) (wl P1 P2 A * wl P1 P2 B).
Proof.
move=> p1 p2 oA oB H.
have HA P := H A P (or_introl erefl).
have HB P := H B P (or_intror (or_introl erefl)).
have HS P := H (pa A B) P (or_intror (or_intror erefl)).
case: P1 p1 H HA HB HS => [|a1 b1] p1 H HA HB HS.
  have -> : cc Inf A B = 1 by []. rewrite mul1r. have -> : pa Inf P2 = P2 by [].
  have I : P2 = Inf \/ P2 = P2 \/ P2 = pa Inf P2 by auto.
  exact: (rec_vert' p2 oA oB (HA _ I) (HB _ I) (HS _ I)).
case: P2 p2 H HA HB HS => [|a2 b2] p2 H HA HB HS.
  have -> : cc Inf A B = 1 by []. rewrite mulr1. have -> : pa (Aff a1 b1) Inf = Aff a1 b1 by [].
  have I : Aff a1 b1 = Aff a1 b1 \/ Aff a1 b1 = Inf \/ Aff a1 b1 = pa (Aff a1 b1) Inf by auto.
  have := rec_vert' p1 oA oB (HA _ I) (HB _ I) (HS _ I). by rewrite /wl.
have [/andP [/eqP ex /eqP ey]|N] := boolP ((a1 == a2) && (b1 == - b2)).
  have EA : pa (Aff a1 b1) (Aff a2 b2) = Inf by rewrite /= ex ey !eqxx.
  have I : Aff a1 b1 = Aff a1 b1 \/ Aff a1 b1 = Aff a2 b2 \/ Aff a1 b1 = pa (Aff a1 b1) (Aff a2 b2) by auto.
  have := rec_vert' p1 oA oB (HA _ I) (HB _ I) (HS _ I).
  have -> : cc (pt_neg (Aff a1 b1)) A B = cc (Aff a2 b2) A B by rewrite /pt_neg ex ey opprK.
  rewrite EA. have -> : cc (pt_neg Inf) A B = 1 by []. rewrite mulr1.
  have E C : wl (Aff a1 b1) (Aff a2 b2) C = wl Inf (Aff a1 b1) C.
    by rewrite /wl {1}/gl ex ey !eqxx.
  by rewrite !E.
apply: rec_line => // C IC.
have HH P := H C P IC. split; [apply: HH; auto|apply: HH; auto|].
rewrite apart_sym apart_neg apart_sym. apply: HH; auto.
Qed.
End Cocycle.
