(** * The group law of y^2 = x^3 + b over a field with 2, 3, b non-zero. *)
From Coq Require Import Ring Field Lia.
From Coq Require Permutation.
From mathcomp Require Import all_ssreflect all_algebra.
From Verif Require Import MCRing.
Set Implicit Arguments.
Unset Strict Implicit.
Unset Printing Implicit Defensive.
Import GRing.Theory.
Local Open Scope ring_scope.

(** natural-number goals in MathComp notation *)
Ltac mlia :=
  repeat match goal with
  | H : is_true (_ <= _)%N |- _ => move/leP: H => H
  | |- is_true (_ <= _)%N -> _ => move/leP => ?
  | |- is_true (_ <= _)%N => apply/leP
  end;
  rewrite -?plusE -?multE -?minusE;
  repeat match goal with
  | H : context [addn] |- _ => rewrite -plusE in H
  | H : context [muln] |- _ => rewrite -multE in H
  | H : context [subn] |- _ => rewrite -minusE in H
  end; lia.

(** ** points and the chord-and-tangent addition (textbook definition) *)
Inductive pt (F : Type) : Type := Inf | Aff (x y : F).
Arguments Inf {F}.

Definition pt_code (F : Type) (p : pt F) : option (F * F) :=
  match p with Inf => None | Aff x y => Some (x, y) end.
Definition pt_decode (F : Type) (c : option (F * F)) : pt F :=
  match c with None => Inf | Some (x, y) => Aff x y end.
Lemma pt_codeK F : cancel (@pt_code F) (@pt_decode F).
Proof. by case. Qed.

Section Def.
Variable F : fieldType.
Variable b : F.

Definition on_curve (p : pt F) : bool :=
  match p with Inf => true | Aff x y => y ^+ 2 == x ^+ 3 + b end.

Definition pt_neg (p : pt F) : pt F :=
  match p with Inf => Inf | Aff x y => Aff x (- y) end.

Definition pt_add (p q : pt F) : pt F :=
  match p, q with
  | Inf, _ => q
  | _, Inf => p
  | Aff x1 y1, Aff x2 y2 =>
      if x1 == x2 then
        if y1 == - y2 then Inf
        else let l := (3%:R * x1 ^+ 2) / (2%:R * y1) in
             let x3 := l ^+ 2 - x1 - x2 in
             Aff x3 (l * (x1 - x3) - y1)
      else let l := (y2 - y1) / (x2 - x1) in
           let x3 := l ^+ 2 - x1 - x2 in
           Aff x3 (l * (x1 - x3) - y1)
  end.
End Def.

(** ** the coordinate ring F[X] + F[X] Y, Y^2 = X^3 + b *)
Section CoordRing.
Variable K : comRingType.   (* K = F[X] *)
Variable f : K.             (* f = X^3 + b *)
Add Ring Kring : (mc_ring K).

Record cr : Type := CR { c0 : K; c1 : K }.
Definition cadd a b := CR (c0 a + c0 b) (c1 a + c1 b).
Definition copp a := CR (- c0 a) (- c1 a).
Definition cmul a b := CR (c0 a * c0 b + c1 a * c1 b * f) (c0 a * c1 b + c1 a * c0 b).
Definition czero := CR 0 0.
Definition cone := CR 1 0.
Definition csub a b := cadd a (copp b).
Definition cconj a := CR (c0 a) (- c1 a).
Definition cK (k : K) := CR k 0.
Definition cnorm a := c0 a ^+ 2 - c1 a ^+ 2 * f.

Lemma cr_eq a b : c0 a = c0 b -> c1 a = c1 b -> a = b.
Proof. by case: a => a0 a1; case: b => b0 b1 /= -> ->. Qed.

Lemma cr_ring : @ring_theory cr czero cone cadd cmul csub copp eq.
Proof. split => *; apply: cr_eq => /=; mcr K. Qed.

Lemma cconj_mul a b : cconj (cmul a b) = cmul (cconj a) (cconj b).
Proof. apply: cr_eq => /=; mcr K. Qed.
Lemma cconj_add a b : cconj (cadd a b) = cadd (cconj a) (cconj b).
Proof. apply: cr_eq => /=; mcr K. Qed.
Lemma cconjK a : cconj (cconj a) = a.
Proof. apply: cr_eq => /=; mcr K. Qed.
Lemma cmul_conj a : cmul a (cconj a) = cK (cnorm a).
Proof. apply: cr_eq => /=; rewrite /cnorm ?exprS ?expr0; mcr K. Qed.
Lemma cnorm_mul a b : cnorm (cmul a b) = cnorm a * cnorm b.
Proof. rewrite /cnorm /= !exprS !expr0; mcr K. Qed.
Lemma cK_mul a b : cK (a * b) = cmul (cK a) (cK b).
Proof. apply: cr_eq => /=; mcr K. Qed.

(** ideals as predicates *)
Definition ideal (I : cr -> Prop) : Prop :=
  [/\ I czero, forall a b, I a -> I b -> I (cadd a b) & forall r a, I a -> I (cmul r a)].

Inductive iprod (I J : cr -> Prop) : cr -> Prop :=
| ip0 : iprod I J czero
| ipS a b z : I a -> J b -> iprod I J z -> iprod I J (cadd (cmul a b) z).

End CoordRing.

Arguments cr_ring {K} f.

(** ** ideal calculus *)
Section Ideals.
Variable K : comRingType.
Variable f : K.
Add Ring crR : (cr_ring f).
Local Notation R := (cr K).
Local Notation "a +c b" := (cadd a b) (at level 50, left associativity).
Local Notation "a *c b" := (cmul f a b) (at level 40, left associativity).
Local Notation ip := (iprod f).
Implicit Types (I J : R -> Prop).

Lemma cmulr0 r : r *c czero K = czero K. Proof. ring. Qed.
Lemma cmul0r r : czero K *c r = czero K. Proof. ring. Qed.

Lemma ip_add I J a b : ip I J a -> ip I J b -> ip I J (a +c b).
Proof.
elim=> [|x y z Ix Jy _ IH] Hb; first by have -> : czero K +c b = b by ring.
have -> : (x *c y +c z) +c b = x *c y +c (z +c b) by ring.
by apply: ipS => //; apply: IH.
Qed.

Lemma ip_mem I J a b : I a -> J b -> ip I J (a *c b).
Proof.
move=> Ia Jb; have -> : a *c b = a *c b +c czero K by ring.
by apply: ipS => //; apply: ip0.
Qed.

Lemma ip_scal I J r a : (forall r a, I a -> I (r *c a)) -> ip I J a -> ip I J (r *c a).
Proof.
move=> HI; elim=> [|x y z Ix Jy _ IH]; first by rewrite cmulr0; apply: ip0.
have -> : r *c (x *c y +c z) = (r *c x) *c y +c r *c z by ring.
by apply: ipS => //; apply: HI.
Qed.

Lemma ideal_ip I J : ideal f I -> ideal f (ip I J).
Proof.
case=> _ _ HI; split; [exact: ip0|exact: ip_add|].
by move=> r a; apply: ip_scal.
Qed.

Lemma ip_mono I I' J J' a : (forall z, I z -> I' z) -> (forall z, J z -> J' z) ->
  ip I J a -> ip I' J' a.
Proof. by move=> HI HJ; elim=> [|x y z Ix Jy _ IH]; [apply: ip0|apply: ipS; auto]. Qed.

Lemma ip_comm I J a : ip I J a -> ip J I a.
Proof.
elim=> [|x y z Ix Jy _ IH]; first exact: ip0.
have -> : x *c y +c z = y *c x +c z by ring.
exact: ipS.
Qed.

Lemma ip_swap I J L a : ip I (ip J L) a -> ip J (ip I L) a.
Proof.
elim=> [|x y z Ix Jy _ IH]; first exact: ip0.
apply: ip_add => // {IH z}.
elim: Jy => [|u v w Ju Lv _ IH]; first by rewrite cmulr0; apply: ip0.
have -> : x *c (u *c v +c w) = u *c (x *c v) +c x *c w by ring.
by apply: ipS => //; apply: ip_mem.
Qed.

Lemma ip_closed I J a : ideal f J -> (forall x y, I x -> J y -> J (x *c y)) -> ip I J a -> J a.
Proof. by case=> J0 JA JM H; elim=> [|x y z Ix Jy _ IH] //; apply: JA => //; apply: H. Qed.

Lemma ip_unit I J : ideal f J -> I (cone K) -> forall a, J a -> ip I J a.
Proof. move=> _ I1 a Ja; have -> : a = cone K *c a by ring. exact: ip_mem. Qed.

Lemma ip_assoc I J L a : ip (ip I J) L a <-> ip I (ip J L) a.
Proof.
split.
- elim=> [|x y z Ix Ly _ IH]; first exact: ip0.
  apply: ip_add => // {IH z}.
  elim: Ix => [|u v w Iu Jv _ IH]; first by rewrite cmul0r; apply: ip0.
  have -> : (u *c v +c w) *c y = u *c (v *c y) +c w *c y by ring.
  by apply: ipS => //; apply: ip_mem.
- elim=> [|x y z Ix Ly _ IH]; first exact: ip0.
  apply: ip_add => // {IH z}.
  elim: Ly => [|u v w Iu Jv _ IH]; first by rewrite cmulr0; apply: ip0.
  have -> : x *c (u *c v +c w) = (x *c u) *c v +c x *c w by ring.
  by apply: ipS => //; apply: ip_mem.
Qed.
End Ideals.

(** ** ideals of points *)
Section Group.
Variable F : fieldType.
Variable b : F.
Hypothesis h2 : (2%:R : F) != 0.
Hypothesis h3 : (3%:R : F) != 0.
Hypothesis hb : b != 0.
Let K : comRingType := [comRingType of {poly F}].
Definition fX : {poly F} := 'X^3 + b%:P.
Let f : K := fX.
Add Ring crRF : (cr_ring f).
Add Ring KringF : (mc_ring K).
Add Ring FringF : (mc_ring F).
Add Field FfieldF : (mc_field F).
Local Notation R := (cr K).
Local Notation "a +c b" := (@cadd K a b) (at level 50, left associativity).
Local Notation "a *c b" := (cmul f a b) (at level 40, left associativity).
Local Notation ip := (iprod f).
Local Notation point := (pt F).
Local Notation oc := (on_curve b).

Definition sz (p : {poly F}) : nat := size p.

Lemma sz_f : sz f = 4%N.
Proof.
rewrite /sz /f /fX size_addl ?size_polyXn //.
exact: (leq_ltn_trans (size_polyC_leq1 _)).
Qed.
Lemma sz0 : sz 0 = 0%N. Proof. exact: size_poly0. Qed.
Lemma sz_gt0 (p : {poly F}) : (0 < sz p)%N = (p != 0). Proof. exact: size_poly_gt0. Qed.
Lemma f_neq0 : f != 0 :> {poly F}.
Proof. by rewrite -sz_gt0 sz_f. Qed.

Lemma sz_sqr (p : {poly F}) : p != 0 -> sz (p ^+ 2) = (2 * sz p).-1.
Proof.
move=> p0; rewrite /sz expr2 size_mul //. by rewrite mul2n addnn.
Qed.
Lemma sz_sqrf (q : {poly F}) : q != 0 -> sz (q ^+ 2 * f) = (2 * sz q + 2)%N.
Proof.
move=> q0; have H : (0 < sz q)%N by rewrite sz_gt0.
have E : sz (q ^+ 2 * f) = (sz (q ^+ 2) + sz f).-1.
  by rewrite /sz size_mul ?f_neq0 ?expf_neq0.
rewrite E sz_sqr // sz_f. mlia.
Qed.

Lemma sz_sub (p q : {poly F}) : sz p <> sz q -> sz (p - q) = maxn (sz p) (sz q).
Proof.
rewrite /sz. case: ltngtP => // H _.
- by rewrite addrC size_addl ?size_opp.
- by rewrite size_addl ?size_opp.
Qed.

Lemma norm_sizes0 (p q : {poly F}) : p ^+ 2 - q ^+ 2 * f != 0 ->
  (q = 0 /\ sz (p ^+ 2 - q ^+ 2 * f) = (2 * sz p).-1) \/ (3 < sz (p ^+ 2 - q ^+ 2 * f))%N.
Proof.
have [->|q0] := eqVneq q 0.
  rewrite expr0n mul0r subr0 => S. left; split=> //.
  apply: sz_sqr. by apply/eqP => p0; move: S; rewrite p0 expr0n eqxx.
have Hq : (0 < sz q)%N by rewrite sz_gt0.
have [->|p0] := eqVneq p 0 => _; right.
  rewrite expr0n sub0r.
  have -> : sz (- (q ^+ 2 * f)) = sz (q ^+ 2 * f) by rewrite /sz size_opp.
  rewrite sz_sqrf //. mlia.
have Hp : (0 < sz p)%N by rewrite sz_gt0.
rewrite sz_sub sz_sqrf ?sz_sqr //.
  rewrite leq_max; apply/orP; right. mlia.
move=> E; mlia.
Qed.

Lemma norm_sizes (a : R) : cnorm f a <> 0 ->
  (c1 a = 0 /\ sz (cnorm f a) = (2 * sz (c0 a)).-1) \/ (3 < sz (cnorm f a))%N.
Proof. move/eqP. exact: norm_sizes0. Qed.

Lemma norm_eq00 (p q : {poly F}) : p ^+ 2 - q ^+ 2 * f = 0 -> p = 0 /\ q = 0.
Proof.
have [->|q0] := eqVneq q 0.
  rewrite expr0n mul0r subr0 => /eqP. by rewrite expf_eq0 /= => /eqP ->.
have Hq : (0 < sz q)%N by rewrite sz_gt0.
have [->|p0] := eqVneq p 0.
  rewrite expr0n sub0r => /eqP.
  by rewrite oppr_eq0 mulf_eq0 (negbTE f_neq0) orbF expf_eq0 /= => /eqP ->.
have Hp : (0 < sz p)%N by rewrite sz_gt0.
move/(congr1 sz). rewrite sz_sub sz_sqrf ?sz_sqr // ?sz0.
  move/eqP. rewrite -leqn0 geq_max => /andP [_ H]. exfalso. mlia.
move=> E; mlia.
Qed.

Lemma norm_eq0 (a : R) : cnorm f a = 0 -> a = czero K.
Proof. by move/norm_eq00 => [A B]; apply: cr_eq. Qed.

Lemma norm_size3 (a : R) : sz (cnorm f a) = 3%N -> c1 a = 0 /\ sz (c0 a) = 2%N.
Proof.
move=> S. have N : cnorm f a <> 0 by move=> E; move: S; rewrite E sz0.
case: (norm_sizes N) => [[H]|]; rewrite S // => E; split=> //. mlia.
Qed.

Lemma norm_size2 (a : R) : sz (cnorm f a) <> 2%N.
Proof.
move=> S. have N : cnorm f a <> 0 by move=> E; move: S; rewrite E sz0.
case: (norm_sizes N) => [[H]|]; rewrite S // => E. mlia.
Qed.

Lemma cmul_eq0 (a c : R) : a *c c = czero K -> a = czero K \/ c = czero K.
Proof.
move=> E. have : cnorm f (a *c c) = 0 by rewrite E /cnorm /= expr0n mul0r subr0.
rewrite cnorm_mul => /eqP; rewrite mulf_eq0 => /orP [] /eqP /norm_eq0; auto.
Qed.
Lemma cmul_cancel (a c d : R) : a <> czero K -> a *c c = a *c d -> c = d.
Proof.
move=> a0 E. have : a *c (c +c @copp K d) = czero K.
  have -> : a *c (c +c @copp K d) = a *c c +c @copp K (a *c d) by ring. rewrite E. ring.
case/cmul_eq0 => // H. have -> : c = (c +c @copp K d) +c d by ring. rewrite H. ring.
Qed.
Lemma cmul_neq0 (a c : R) : a <> czero K -> c <> czero K -> a *c c <> czero K.
Proof. by move=> a0 c0 /cmul_eq0 []. Qed.

(** the ideal of a point *)
Definition Ipt (p : point) : R -> Prop :=
  match p with Inf => fun _ => True | Aff x y => fun r => (c0 r).[x] + (c1 r).[x] * y = 0 end.
Definition vert (p : point) : K := match p with Inf => 1 | Aff x _ => 'X - x%:P end.
Fixpoint M (l : seq point) : R -> Prop :=
  match l with [::] => fun _ => True | p :: l => ip (Ipt p) (M l) end.

Lemma horner_f x : f.[x] = x ^+ 3 + b.
Proof. by rewrite /f /fX hornerD hornerXn hornerC. Qed.

Lemma ideal_Ipt p : oc p -> ideal f (Ipt p).
Proof.
case: p => [|x y] //= /eqP E; split=> /=.
- by rewrite hornerC mul0r addr0.
- move=> a c; rewrite !hornerD => A C.
  have -> : (c0 a).[x] + (c0 c).[x] + ((c1 a).[x] + (c1 c).[x]) * y
    = ((c0 a).[x] + (c1 a).[x] * y) + ((c0 c).[x] + (c1 c).[x] * y) by mcr F.
  by rewrite A C addr0.
- move=> r a A; rewrite !hornerD !hornerM horner_f -E.
  have -> : (c0 r).[x] * (c0 a).[x] + (c1 r).[x] * (c1 a).[x] * y ^+ 2 +
     ((c0 r).[x] * (c1 a).[x] + (c1 r).[x] * (c0 a).[x]) * y
    = ((c0 r).[x] + (c1 r).[x] * y) * ((c0 a).[x] + (c1 a).[x] * y) by mcr F.
  by rewrite A mulr0.
Qed.

Lemma ideal_M l : all oc l -> ideal f (M l).
Proof.
case: l => [|p l] //= /andP [op _]. apply: ideal_ip. exact: ideal_Ipt.
Qed.

Lemma M1 p z : oc p -> M [:: p] z <-> Ipt p z.
Proof.
move=> op; split=> /=.
- move=> H. apply: (ip_closed (I := fun _ => True) (ideal_Ipt op)).
    by case: (ideal_Ipt op) => _ _ S x y _; apply: S.
  exact: ip_comm.
- move=> H. apply: ip_comm. by apply: ip_unit => //; apply: ideal_Ipt.
Qed.

Lemma M_cat l1 l2 z : all oc l2 -> M (l1 ++ l2) z <-> ip (M l1) (M l2) z.
Proof.
move=> o2; elim: l1 z => [|p l1 IH] z /=.
  split=> H.
    by apply: ip_unit => //; apply: ideal_M.
  apply: (ip_closed (I := fun _ => True) (ideal_M o2)) => //.
  by case: (ideal_M o2) => _ _ S x y _; apply: S.
split=> H.
- apply/ip_assoc. apply: ip_mono H => // w; exact: (proj1 (IH w)).
- move/ip_assoc: H => H. apply: ip_mono H => // w; exact: (proj2 (IH w)).
Qed.

Lemma M_perm l1 l2 : Permutation.Permutation l1 l2 -> forall z, M l1 z -> M l2 z.
Proof.
elim=> {l1 l2} //=.
- move=> p l l' _ IH z. exact: ip_mono.
- move=> p q l z. exact: ip_swap.
- move=> l l' l'' _ IH1 _ IH2 z H. auto.
Qed.
Lemma M_permE l1 l2 : Permutation.Permutation l1 l2 -> forall z, M l1 z <-> M l2 z.
Proof. by move=> H z; split; apply: M_perm => //; apply: Permutation.Permutation_sym. Qed.

Definition pr (l : seq point) (g : R) : Prop := forall z, M l z <-> exists r, z = g *c r.

Lemma pr_mem l g : pr l g -> M l g.
Proof. by move=> H; apply/H; exists (cone K); ring. Qed.

Lemma pr_cat l1 l2 g z : all oc l2 -> pr l1 g ->
  M (l1 ++ l2) z <-> exists w, M l2 w /\ z = g *c w.
Proof.
move=> o2 H; split.
- move/(M_cat _ _ o2) => E. have [J0 JA JM] := ideal_M o2.
  elim: E => [|x y w Mx My _ [v [Mv ->]]]; first by exists (czero K); split=> //; ring.
  case/H: Mx => r ->. exists (r *c y +c v); split; last by ring.
  by apply: JA => //; apply: JM.
- move=> [w [Mw ->]]. apply/(M_cat _ _ o2). apply: ip_mem => //. exact: pr_mem.
Qed.

Lemma pr_cat2 l1 l2 g1 g2 : all oc l2 -> pr l1 g1 -> pr l2 g2 -> pr (l1 ++ l2) (g1 *c g2).
Proof.
move=> o2 H1 H2 z; split.
- move/(pr_cat _ o2 H1) => [w [/H2 [r ->] ->]]. exists r. ring.
- move=> [r ->]. apply/(pr_cat _ o2 H1). exists (g2 *c r). split; last by ring.
  apply/H2. by exists r.
Qed.

Lemma pr_perm l1 l2 g : Permutation.Permutation l1 l2 -> pr l1 g -> pr l2 g.
Proof.
move=> P H z; split.
- move/(M_permE P) => Z. by apply/H.
- move=> Z. apply/(M_permE P). by apply/H.
Qed.

(** shape of the elements of the ideal of a point *)
Lemma Ipt_gen0 x y (p q : {poly F}) : p.[x] + q.[x] * y = 0 ->
  exists s : {poly F}, p = s * ('X - x%:P) - y%:P * q.
Proof.
move=> H. have : root (p + y%:P * q) x.
  by apply/rootP; rewrite hornerD hornerM hornerC (mulrC y).
case/factor_theorem => s E. exists s. by rewrite -E addrK.
Qed.
Lemma Ipt_gen x y (a : R) : Ipt (Aff x y) a ->
  exists s q : K, a = CR (s * ('X - x%:P) - y%:P * q) q.
Proof.
case: a => p q /= /Ipt_gen0 [s E]. exists s, q. apply: cr_eq => //=.
Qed.

Lemma natC n : n%:R%:P = n%:R :> {poly F}.
Proof. by rewrite polyCMn polyC1. Qed.
Lemma curveC x y : y ^+ 2 == x ^+ 3 + b -> b%:P = y%:P ^+ 2 - x%:P ^+ 3 :> {poly F}.
Proof. by move/eqP => E; rewrite -!polyC_exp -polyCB E addrC addKr. Qed.

Lemma f_split x y : oc (Aff x y) ->
  f = ('X - x%:P) * ('X ^+ 2 + x%:P * 'X + x%:P ^+ 2) + y%:P ^+ 2 :> K.
Proof. move=> /curveC E. rewrite /f /fX E. mcr K. Qed.

Lemma oc_neg p : oc p -> oc (pt_neg p).
Proof. by case: p => //= x y; rewrite sqrrN. Qed.

Lemma M2 p q z : oc p -> oc q -> M [:: p; q] z <-> ip (Ipt p) (Ipt q) z.
Proof.
move=> op oq; split; apply: ip_mono => // w; exact: (proj1 (M1 _ oq)) || exact: (proj2 (M1 _ oq)).
Qed.

Lemma Ipt_const x y (s : K) : Ipt (Aff x y) (CR (s * ('X - x%:P)) 0).
Proof. by rewrite /= hornerM hornerXsubC subrr mulr0 horner0 mul0r addr0. Qed.
Lemma Ipt_Y x y : Ipt (Aff x y) (CR (- y%:P) 1).
Proof. by rewrite /= hornerN !hornerC mul1r addrC subrr. Qed.

(** (A): a point and its opposite *)
Lemma pr_vert p : oc p -> pr [:: p; pt_neg p] (cK (vert p)).
Proof.
case: p => [|x y] op z.
  split=> [_|_] /=.
    exists z. apply: cr_eq => /=; mcr K.
  apply: (proj2 (M2 (p := Inf) (q := Inf) z isT isT)).
  have -> : z = cone K *c z by ring. by apply: ip_mem.
have on := oc_neg op. have Ef := f_split op.
split.
- move/(M2 _ op on); elim=> [|u v w Iu Iv _ [r ->]]; first by exists (czero K); ring.
  case: (Ipt_gen Iu) => s1 [q1 ->]. case: (Ipt_gen Iv) => s2 [q2 ->].
  exists (CR (s1 * s2 * ('X - x%:P) + s1 * y%:P * q2 - s2 * y%:P * q1
       + q1 * q2 * ('X ^+ 2 + x%:P * 'X + x%:P ^+ 2)) (s1 * q2 + s2 * q1) +c r).
  apply: cr_eq => /=; rewrite ?Ef polyCN; mcr K.
- move=> [r ->]. apply/(M2 _ op on).
  have -> : cK (vert (Aff x y)) *c r = r *c cK (vert (Aff x y)) by ring.
  apply: ip_scal; first by case: (ideal_Ipt op).
  rewrite /vert.
  have [y0|y0] := eqVneq y 0.
  + have x0 : 3%:R * x ^+ 2 != 0.
      rewrite mulf_neq0 // expf_neq0 //. apply/eqP => x0. move: op.
      by rewrite /= x0 y0 !expr0n /= add0r eq_sym (negbTE hb).
    have -> : cK ('X - x%:P : K) =
      cK ((3%:R * x ^+ 2)^-1%:P : K) *c
       (CR (- y%:P : K) 1 *c CR (- (- y)%:P : K) 1
        +c CR (((- ('X + 2%:R * x%:P)) : K) * ('X - x%:P)) 0 *c CR ((1 : K) * ('X - x%:P)) 0).
      apply: cr_eq => /=; last by rewrite ?polyCN; mcr K.
      have I : (3%:R * x ^+ 2)^-1%:P * (3%:R * x%:P ^+ 2) = 1 :> K.
        by rewrite -natC -polyC_exp -!polyCM mulVf.
      rewrite Ef y0 oppr0 polyC0 -[LHS]mul1r -[in LHS]I. mcr K.
    apply: ip_scal; first by case: (ideal_Ipt op).
    apply: ip_add; apply: ip_mem.
    * exact: Ipt_Y.
    * exact: Ipt_Y.
    * exact: Ipt_const.
    * exact: Ipt_const.
  + have y2 : 2%:R * y != 0 by rewrite mulf_neq0.
    have -> : cK ('X - x%:P : K) =
      cK ((2%:R * y)^-1%:P : K) *c
       (CR ((1 : K) * ('X - x%:P)) 0 *c CR (- (- y)%:P : K) 1
        +c CR (- y%:P : K) 1 *c CR ((- 1 : K) * ('X - x%:P)) 0).
      have I : (2%:R * y)^-1%:P * (2%:R * y%:P) = 1 :> K.
        by rewrite -natC -!polyCM mulVf.
      apply: cr_eq => /=; last by rewrite ?polyCN; mcr K.
      rewrite -[LHS]mul1r -[in LHS]I polyCN. mcr K.
    apply: ip_scal; first by case: (ideal_Ipt op).
    apply: ip_add; apply: ip_mem.
    * exact: Ipt_const.
    * exact: Ipt_Y.
    * exact: Ipt_Y.
    * exact: Ipt_const.
Qed.

(** (B): three points on a line *)
Definition lu (l : R) (u : K) (z : R) : Prop := exists q s, z = l *c q +c cK u *c s.

Lemma lu_prod l u v (I J : R -> Prop) z : (forall a, I a -> lu l u a) -> (forall a, J a -> lu l v a) ->
  ip I J z -> lu l (u * v) z.
Proof.
move=> HI HJ; elim=> [|a c w Ia Jc _ [q [s ->]]].
  by exists (czero K), (czero K); rewrite !cmulr0; ring.
case: (HI _ Ia) => q1 [s1 ->]. case: (HJ _ Jc) => q2 [s2 ->].
exists (q1 *c (l *c q2 +c cK v *c s2) +c cK u *c s1 *c q2 +c q), (s1 *c s2 +c s).
rewrite (cK_mul f). ring.
Qed.

Lemma Ipt_line (L : K) x y a : y = L.[x] -> Ipt (Aff x y) a -> lu (CR (- L) 1) ('X - x%:P) a.
Proof.
case: a => p q E /= H.
have : root (p + q * L) x by apply/rootP; rewrite hornerD hornerM -E.
case/factor_theorem => s Es. exists (CR q 0), (CR s 0).
apply: cr_eq => /=; last by mcr K.
have -> : p = s * ('X - x%:P) - q * L by rewrite -Es addrK.
mcr K.
Qed.

Lemma Ipt_conj p a : Ipt p a -> Ipt (pt_neg p) (@cconj K a).
Proof. by case: p => [|x y] //=; rewrite hornerN mulrNN. Qed.

Lemma M_conj l a : M l a -> M (map (@pt_neg F) l) (@cconj K a).
Proof.
elim: l a => [|p l IH] a //=; elim=> [|u v w Iu Iv _ H].
  have -> : cconj (czero K) = czero K by apply: cr_eq => /=; mcr K.
  exact: ip0.
rewrite cconj_add cconj_mul. apply: ipS => //; [exact: Ipt_conj|exact: IH].
Qed.

Lemma all_oc_neg l : all oc l -> all oc (map (@pt_neg F) l).
Proof. by elim: l => //= p l IH /andP [/oc_neg -> /IH ->]. Qed.

Lemma cnorm_line (L : K) : cnorm f (CR (- L) 1) = L ^+ 2 - f.
Proof. rewrite /cnorm /=; mcr K. Qed.

Lemma line_neq0 (L : K) : CR (- L) 1 <> czero K.
Proof. by case=> _ /eqP; rewrite oner_eq0. Qed.
Lemma line_neq0' (L : K) : CR L 1 <> czero K.
Proof. by case=> _ /eqP; rewrite oner_eq0. Qed.

Lemma pr_line (L : K) x1 y1 x2 y2 x3 y3 :
  oc (Aff x1 y1) -> oc (Aff x2 y2) -> oc (Aff x3 y3) ->
  y1 = L.[x1] -> y2 = L.[x2] -> y3 = L.[x3] ->
  f - L ^+ 2 = ('X - x1%:P) * ('X - x2%:P) * ('X - x3%:P) ->
  pr [:: Aff x1 y1; Aff x2 y2; Aff x3 y3] (CR (- L) 1).
Proof.
move=> o1 o2 o3 e1 e2 e3 Ef.
set l := [:: _; _; _]. set ell := CR (- L) 1. set ellc := CR L 1.
have ol : all oc l by apply/and4P.
have onl := all_oc_neg ol.
have Hll : cK (('X - x1%:P) * (('X - x2%:P) * ('X - x3%:P)) : K) = ell *c ellc.
  rewrite mulrA -Ef. apply: cr_eq => /=; mcr K.
have sub z : M l z -> exists r, z = ell *c r.
  move=> H.
  have : lu ell (('X - x1%:P) * (('X - x2%:P) * ('X - x3%:P))) z.
    apply: lu_prod H => [a|a]; first exact: Ipt_line.
    apply: lu_prod => [a'|a']; first exact: Ipt_line.
    move/(M1 _ o3). exact: Ipt_line.
  case=> q [s ->]. exists (q +c ellc *c s). rewrite Hll. ring.
have subc z : M (map (@pt_neg F) l) z -> exists r, z = ellc *c r.
  move=> H. have := M_conj H.
  have -> : map (@pt_neg F) (map (@pt_neg F) l) = l by rewrite /l /= !opprK.
  case/sub => r E. exists (@copp K (@cconj K r)).
  rewrite -[z](cconjK) E cconj_mul. apply: cr_eq => /=; mcr K.
have all6 : pr (l ++ map (@pt_neg F) l) (ell *c ellc).
  have P : pr ([:: Aff x1 y1; pt_neg (Aff x1 y1)] ++ ([:: Aff x2 y2; pt_neg (Aff x2 y2)] ++ [:: Aff x3 y3; pt_neg (Aff x3 y3)]))
     (ell *c ellc).
    rewrite -Hll !(cK_mul f).
    have n2 := oc_neg o2. have n3 := oc_neg o3.
    apply: pr_cat2; [by rewrite /= in n2 n3 *; apply/and5P|exact: pr_vert|].
    apply: pr_cat2; [by rewrite /= in n2 n3 *; apply/and3P|exact: pr_vert|exact: pr_vert].
  apply: pr_perm P. rewrite /l /=. apply: Permutation.perm_skip.
  apply: (Permutation.Permutation_cons_app [:: _; _]) => /=.
  apply: Permutation.perm_skip.
  apply: (Permutation.Permutation_cons_app [:: _]) => /=.
  exact: Permutation.Permutation_refl.
have [J0 JA JM] := ideal_M ol.
have main z : ip (M l) (M (map (@pt_neg F) l)) z -> exists k, z = ell *c ellc *c k /\ M l (ell *c k).
  elim=> [|u v w Mu Mv _ [k [-> Mk]]].
    exists (czero K). by rewrite !cmulr0.
  case: (sub _ Mu) => u' Eu. case: (subc _ Mv) => v' Ev.
  exists (u' *c v' +c k); split; first by rewrite Eu Ev; ring.
  have -> : ell *c (u' *c v' +c k) = v' *c u +c ell *c k by rewrite Eu; ring.
  by apply: JA => //; apply: JM.
have Mell : M l ell.
  have := pr_mem all6. move/(M_cat _ _ onl)/main => [k [Ek Mk]].
  have -> : ell = ell *c k.
    have N : ell *c ellc <> czero K.
      by apply: cmul_neq0; [exact: line_neq0|exact: line_neq0'].
    have <- : cone K = k; last by ring.
    apply: (cmul_cancel N). rewrite -Ek. ring.
  exact: Mk.
move=> z; split; first exact: sub.
move=> [r ->]. have -> : ell *c r = r *c ell by ring. exact: JM.
Qed.

(** the line through two points *)
Lemma line_id (X X1 X2 Y1 La B : K) : B = Y1 ^+ 2 - X1 ^+ 3 ->
  X1 ^+ 2 + X1 * X2 + X2 ^+ 2 + La ^+ 2 * (X1 - X2) = 2%:R * La * Y1 ->
  X ^+ 3 + B - (La * (X - X1) + Y1) ^+ 2 = (X - X1) * (X - X2) * (X - (La ^+ 2 - X1 - X2)).
Proof.
move=> -> E.
have -> : X ^+ 3 + (Y1 ^+ 2 - X1 ^+ 3) - (La * (X - X1) + Y1) ^+ 2 =
  (X - X1) * (X - X2) * (X - (La ^+ 2 - X1 - X2)) +
  (X - X1) * ((X1 ^+ 2 + X1 * X2 + X2 ^+ 2 + La ^+ 2 * (X1 - X2)) - 2%:R * La * Y1) by mcr K.
by rewrite E subrr mulr0 addr0.
Qed.

Definition third (la x1 y1 x2 : F) : point :=
  let x3 := la ^+ 2 - x1 - x2 in Aff x3 (la * (x1 - x3) - y1).

Lemma third_line la x1 y1 x2 y2 : oc (Aff x1 y1) -> oc (Aff x2 y2) ->
  y2 = la * (x2 - x1) + y1 ->
  x1 ^+ 2 + x1 * x2 + x2 ^+ 2 + la ^+ 2 * (x1 - x2) = 2%:R * la * y1 ->
  oc (third la x1 y1 x2) /\
  pr [:: Aff x1 y1; Aff x2 y2; pt_neg (third la x1 y1 x2)] (CR (- (la%:P * ('X - x1%:P) + y1%:P)) (1 : K)).
Proof.
move=> o1 o2 E2 E.
set x3 := la ^+ 2 - x1 - x2.
have Ef : f - (la%:P * ('X - x1%:P) + y1%:P) ^+ 2 = ('X - x1%:P) * ('X - x2%:P) * ('X - x3%:P).
  rewrite /f /fX (line_id (La := la%:P) (X2 := x2%:P) 'X (curveC o1)).
    by rewrite /x3 !polyCB polyC_exp.
  by rewrite -!polyC_exp -!polyCM -polyCB -!polyCM -!polyCD E -natC !polyCM.
have o3 : oc (third la x1 y1 x2).
  have := congr1 (fun p : {poly F} => p.[x3]) Ef.
  rewrite /= !hornerM !hornerXsubC subrr mulr0 hornerD hornerN horner_f horner_exp.
  rewrite hornerD hornerM !hornerC hornerXsubC => /eqP. rewrite subr_eq0 => /eqP H.
  apply/eqP. rewrite /third -/x3 H. mcr F.
split=> //.
apply: pr_line => //.
- exact: (oc_neg o3).
- by rewrite hornerD hornerM !hornerC hornerXsubC subrr mulr0 add0r.
- by rewrite hornerD hornerM !hornerC hornerXsubC.
- rewrite hornerD hornerM !hornerC hornerXsubC. mcr F.
Qed.

Lemma sqr_eq_pm (u v : F) : u ^+ 2 = v ^+ 2 -> u = v \/ u = - v.
Proof. move/eqP. by rewrite eqf_sqr => /orP [] /eqP; auto. Qed.

(** P + Q - (P+Q) is principal; addition stays on the curve *)
Lemma pr_add p q : oc p -> oc q ->
  oc (pt_add p q) /\ exists2 g, g <> czero K & pr [:: p; q; pt_neg (pt_add p q)] g.
Proof.
have V0 r : @cK K (vert r) <> czero K.
  case: r => [|x y] [] /eqP; first by rewrite oner_eq0.
  by rewrite polyXsubC_eq0.
have Minf l z : all oc l -> M (Inf :: l) z <-> M l z.
  move=> ol; have [J0 JA JM] := ideal_M ol; split=> /=.
    by apply: ip_closed; [exact: ideal_M|move=> x y _; apply: JM].
  by apply: ip_unit => //; apply: ideal_M.
case: p => [|x1 y1] o1.
  move=> oq; split=> //. exists (cK (vert q)) => // z.
  have oq2 : all oc [:: q; pt_neg q] by rewrite /= oq (oc_neg oq).
  split=> [/(Minf _ _ oq2)/(pr_vert oq)|/(pr_vert oq)/(Minf _ _ oq2)] //.
case: q => [|x2 y2] o2.
  split=> //. exists (cK (vert (Aff x1 y1))) => //.
  apply: (pr_perm (l1 := [:: Inf; Aff x1 y1; pt_neg (Aff x1 y1)])).
    exact: Permutation.perm_swap.
  have oq2 : all oc [:: Aff x1 y1; pt_neg (Aff x1 y1)] by rewrite /= in o1 *; rewrite sqrrN o1.
  move=> z. split=> [/(Minf _ _ oq2)/(pr_vert o1)|/(pr_vert o1)/(Minf _ _ oq2)] //.
rewrite /=. have e1 := eqP o1. have e2 := eqP o2. rewrite /= in e1 e2.
have [ex|nx] := eqVneq x1 x2.
  have [ey|ny] := eqVneq y1 (- y2).
    split=> //. exists (cK (vert (Aff x1 y1))) => //.
    apply: (pr_perm (l1 := [:: Inf; Aff x1 y1; pt_neg (Aff x1 y1)])).
      rewrite /= ex ey opprK.
      apply: (Permutation.Permutation_cons_app [:: _; _]). exact: Permutation.Permutation_refl.
    have oq2 : all oc [:: Aff x1 y1; pt_neg (Aff x1 y1)] by rewrite /= in o1 *; rewrite sqrrN o1.
    move=> z. split=> [/(Minf _ _ oq2)/(pr_vert o1)|/(pr_vert o1)/(Minf _ _ oq2)] //.
  have ey : y1 = y2.
    have : y1 ^+ 2 = y2 ^+ 2 by rewrite e1 e2 ex.
    by case/sqr_eq_pm => // E; move: ny; rewrite E eqxx.
  have y0 : y1 != 0.
    by apply/eqP => E; move: ny; rewrite -ey E oppr0 eqxx.
  have y20 : 2%:R * y1 != 0 by rewrite mulf_neq0.
  set la := 3%:R * x1 ^+ 2 / (2%:R * y1).
  have Hla : la * (2%:R * y1) = 3%:R * x1 ^+ 2 by rewrite divfK.
  have E1 : y2 = la * (x2 - x1) + y1 by rewrite -ex -ey subrr mulr0 add0r.
  have E2 : x1 ^+ 2 + x1 * x2 + x2 ^+ 2 + la ^+ 2 * (x1 - x2) = 2%:R * la * y1.
    rewrite -ex subrr mulr0 addr0.
    have -> : 2%:R * la * y1 = la * (2%:R * y1) by mcr F.
    rewrite Hla. mcr F.
  have [H1 H2] := third_line o1 o2 E1 E2.
  split=> //. eexists; last exact: H2. exact: line_neq0.
have d0 : x2 - x1 != 0 by rewrite subr_eq0 eq_sym.
set la := (y2 - y1) / (x2 - x1).
have Hla : la * (x2 - x1) = y2 - y1 by rewrite divfK.
have E1 : y2 = la * (x2 - x1) + y1 by rewrite Hla subrK.
have E2 : x1 ^+ 2 + x1 * x2 + x2 ^+ 2 + la ^+ 2 * (x1 - x2) = 2%:R * la * y1.
  apply: (mulIf d0).
  have -> : (x1 ^+ 2 + x1 * x2 + x2 ^+ 2 + la ^+ 2 * (x1 - x2)) * (x2 - x1)
     = (x2 ^+ 3 + b) - (x1 ^+ 3 + b) - (la * (x2 - x1)) ^+ 2 by mcr F.
  have -> : 2%:R * la * y1 * (x2 - x1) = 2%:R * (la * (x2 - x1)) * y1 by mcr F.
  rewrite Hla -e1 -e2. mcr F.
have [H1 H2] := third_line o1 o2 E1 E2.
split=> //. eexists; last exact: H2. exact: line_neq0.
Qed.

(** ideals of points are equivalent only when the points are equal *)
Definition sc (a : R) (I : R -> Prop) (z : R) : Prop := exists w, I w /\ z = a *c w.

Lemma ip_sc a I J z : ip (sc a I) J z <-> sc a (ip I J) z.
Proof.
split.
- elim=> [|u v w [u' [Iu ->]] Jv _ [w' [H ->]]].
    by exists (czero K); split; [apply: ip0|rewrite cmulr0].
  exists (u' *c v +c w'); split; last by ring. exact: ipS.
- move=> [w [H ->]]. elim: H => [|u v w' Iu Jv _ H]; first by rewrite cmulr0; apply: ip0.
  have -> : a *c (u *c v +c w') = (a *c u) *c v +c a *c w' by ring.
  apply: ipS => //. by exists u.
Qed.

Lemma dvd_pair (V r0 : {poly F}) : V %| V * r0. Proof. exact: dvdp_mulr. Qed.

Lemma class_inj S T a c : oc S -> oc T -> a <> czero K -> c <> czero K ->
  (forall z, sc a (Ipt S) z <-> sc c (Ipt T) z) -> S = T.
Proof.
move=> oS oT a0 c0' E.
have onT := oc_neg oT. have onS := oc_neg oS.
have E2 z : sc a (M [:: S; pt_neg T]) z <-> sc c (M [:: T; pt_neg T]) z.
  split=> [[w [/(M2 _ oS onT) H ->]]|[w [/(M2 _ oT onT) H ->]]].
    have : ip (sc a (Ipt S)) (Ipt (pt_neg T)) (a *c w) by apply/ip_sc; exists w.
    move=> H1. have : ip (sc c (Ipt T)) (Ipt (pt_neg T)) (a *c w).
      by apply: ip_mono H1 => // z' /E.
    by case/ip_sc => w' [H2 E']; exists w'; split=> //; apply/M2.
  have : ip (sc c (Ipt T)) (Ipt (pt_neg T)) (c *c w) by apply/ip_sc; exists w.
  move=> H1. have : ip (sc a (Ipt S)) (Ipt (pt_neg T)) (c *c w).
    by apply: ip_mono H1 => // z' /E.
  by case/ip_sc => w' [H2 E']; exists w'; split=> //; apply/M2.
have VT := pr_vert oT.
have [g [Mg Eg]] : sc a (M [:: S; pt_neg T]) (c *c cK (vert T)).
  apply/E2. exists (cK (vert T)); split=> //. exact: pr_mem.
have Pg : pr [:: S; pt_neg T] g.
  move=> z; split=> [Mz|[r ->]].
    have : sc c (M [:: T; pt_neg T]) (a *c z) by apply/E2; exists z.
    case=> w [/VT [r ->] E']. exists r. apply: (cmul_cancel a0). rewrite E'.
    have -> : c *c (cK (vert T) *c r) = (c *c cK (vert T)) *c r by ring.
    rewrite Eg. ring.
  have -> : g *c r = r *c g by ring.
  have [_ _ JM] : ideal f (M [:: S; pt_neg T]) by apply: ideal_M; rewrite /= oS onT.
  exact: JM.
have Pgc : pr [:: pt_neg S; T] (@cconj K g).
  have nnT : pt_neg (pt_neg T) = T by case: (T) => //= x y; rewrite opprK.
  have nnS : pt_neg (pt_neg S) = S by case: (S) => //= x y; rewrite opprK.
  move=> z; split=> [Mz|[r ->]].
    have := M_conj Mz. rewrite /= nnS. case/Pg => r Er. exists (@cconj K r).
    by rewrite -cconj_mul -Er cconjK.
  have : M [:: S; pt_neg T] (g *c @cconj K r) by apply/Pg; exists (@cconj K r).
  move/M_conj. by rewrite /= nnT cconj_mul cconjK.
have N1 : pr [:: S; pt_neg T; pt_neg S; T] (cK (cnorm f g)).
  rewrite -cmul_conj. apply: (pr_cat2 (l1 := [:: S; pt_neg T])) => //.
  by rewrite /= onS oT.
have N2 : pr [:: S; pt_neg T; pt_neg S; T] (cK (vert S * vert T)).
  apply: (pr_perm (l1 := [:: S; pt_neg S; T; pt_neg T])).
    apply: Permutation.perm_skip.
    apply: (Permutation.Permutation_cons_app [:: _]) => /=.
    exact: Permutation.perm_swap.
  rewrite (cK_mul f). apply: (pr_cat2 (l1 := [:: S; pt_neg S])); first by rewrite /= oT onT.
    exact: pr_vert.
  exact: VT.
have D1 : exists r : {poly F}, cnorm f g = (vert S * vert T) * r.
  case/N2: (pr_mem N1) => r /(congr1 (@c0 K)) /=. rewrite mul0r mul0r addr0. by exists (c0 r).
have D2 : exists r : {poly F}, vert S * vert T = cnorm f g * r.
  case/N1: (pr_mem N2) => r /(congr1 (@c0 K)) /=. rewrite mul0r mul0r addr0. by exists (c0 r).
have Sz : sz (cnorm f g) = sz (vert S * vert T).
  apply: eqp_size. rewrite /eqp. apply/andP; split.
    case: D2 => r ->. exact: dvd_pair.
  case: D1 => r ->. exact: dvd_pair.
case: S oS E E2 Mg Pg Pgc N1 N2 D1 D2 Sz onS => [|xS yS] oS E E2 Mg Pg Pgc N1 N2 D1 D2 Sz onS.
  case: T oT E E2 Mg Pg Pgc N1 N2 D1 D2 Sz onT VT Eg => [|xT yT] oT E E2 Mg Pg Pgc N1 N2 D1 D2 Sz onT VT Eg //.
  case: (@norm_size2 g). rewrite Sz /= mul1r. exact: size_XsubC.
case: T oT E E2 Mg Pg Pgc N1 N2 D1 D2 Sz onT VT Eg => [|xT yT] oT E E2 Mg Pg Pgc N1 N2 D1 D2 Sz onT VT Eg.
  case: (@norm_size2 g). rewrite Sz /= mulr1. exact: size_XsubC.
have S3 : sz (cnorm f g) = 3%N.
  rewrite Sz /=. rewrite /sz size_mul ?polyXsubC_eq0 // !size_XsubC. by [].
case: (norm_size3 S3) => g1 sg0.
have gm z : ip (Ipt (Aff xS yS)) (Ipt (Aff xT (- yT))) z -> exists r : {poly F}, c1 z = (c0 g : {poly F}) * r.
  move=> H. have : M [:: Aff xS yS; Aff xT (- yT)] z by apply/M2.
  case/Pg => r ->. exists (c1 r). by rewrite /= g1 mul0r addr0.
have dS : c0 g %= ('X - xS%:P : {poly F}).
  have [r Er] := gm _ (ip_mem f (Ipt_const xS yS 1) (Ipt_Y xT (- yT))).
  rewrite /= mul0r addr0 mulr1 mul1r in Er.
  rewrite -dvdp_size_eqp. by rewrite size_XsubC -/(sz (c0 g)) sg0.
  rewrite Er. exact: dvd_pair.
have dT : c0 g %= ('X - xT%:P : {poly F}).
  have [r Er] := gm _ (ip_mem f (Ipt_Y xS yS) (Ipt_const xT (- yT) 1)).
  rewrite /= mulr0 add0r !mul1r in Er.
  rewrite -dvdp_size_eqp. by rewrite size_XsubC -/(sz (c0 g)) sg0.
  rewrite Er. exact: dvd_pair.
have xE : xS = xT.
  have : root ('X - xS%:P) xS by rewrite root_XsubC.
  rewrite -(eqp_root dS) (eqp_root dT) root_XsubC => /eqP. by [].
have yE : yS = yT.
  have [r Er] := gm _ (ip_mem f (Ipt_Y xS yS) (Ipt_Y xT (- yT))).
  rewrite /= mulr1 mul1r polyCN opprK in Er.
  have : (- yS%:P + yT%:P : {poly F}).[xS] = 0.
    rewrite Er hornerM. have /rootP -> : root (c0 g) xS by rewrite (eqp_root dS) root_XsubC.
    by rewrite mul0r.
  by rewrite hornerD hornerN !hornerC => /eqP; rewrite addrC subr_eq0 => /eqP ->.
by rewrite xE yE.
Qed.

Ltac perm_pull a l k :=
  lazymatch l with
  | a :: ?t => k (@nil point) t
  | ?h :: ?t => perm_pull a t ltac:(fun p q => k (h :: p) q)
  end.
Ltac perm_tac :=
  lazymatch goal with
  | |- Permutation.Permutation nil nil => exact: Permutation.perm_nil
  | |- Permutation.Permutation (?a :: ?l) ?r =>
      perm_pull a r ltac:(fun p q =>
        apply: (@Permutation.Permutation_cons_app _ l p q a); rewrite /=; perm_tac)
  end.

Lemma Ipt_M1 p : oc p -> forall z, M [:: p] z <-> Ipt p z.
Proof. by move=> op z; apply: M1. Qed.

Lemma perm7 (P Q nA A T nS S : point) :
  Permutation.Permutation [:: P; Q; nA; A; T; nS; S] [:: A; nA; S; nS; P; Q; T].
Proof. perm_tac. Qed.

(** one bracketing *)
Lemma assoc_class P Q T : oc P -> oc Q -> oc T ->
  exists g v : R, [/\ g <> czero K, v <> czero K &
    forall z, sc g (Ipt (pt_add (pt_add P Q) T)) z <-> sc v (M [:: P; Q; T]) z].
Proof.
move=> oP oQ oT.
have [oA [g1 n1 P1]] := pr_add oP oQ. set A := pt_add P Q in oA P1 *.
have [oS [g2 n2 P2]] := pr_add oA oT. set S := pt_add A T in oS P2 *.
have V0 r : @cK K (vert r) <> czero K.
  case: r => [|x y] [] /eqP; first by rewrite oner_eq0.
  by rewrite polyXsubC_eq0.
exists (g1 *c g2), (cK (vert A) *c cK (vert S)).
split; [exact: cmul_neq0|exact: cmul_neq0|move=> z].
have onA := oc_neg oA. have onS := oc_neg oS.
have H1 w : M ([:: P; Q; pt_neg A; A; T; pt_neg S] ++ [:: S]) w <-> sc (g1 *c g2) (Ipt S) w.
  have PP : pr [:: P; Q; pt_neg A; A; T; pt_neg S] (g1 *c g2).
    apply: (pr_cat2 (l1 := [:: P; Q; pt_neg A])) => //. by rewrite /= oA oT onS.
  split.
    move/(pr_cat _ _ PP) => []; first by rewrite /= oS.
    move=> u [/(M1 _ oS) Mu ->]. by exists u.
  move=> [u [Iu ->]]. apply/(pr_cat _ _ PP); first by rewrite /= oS.
  exists u. split=> //. by apply/M1.
have H2 w : M ([:: A; pt_neg A; S; pt_neg S] ++ [:: P; Q; T]) w <-> sc (cK (vert A) *c cK (vert S)) (M [:: P; Q; T]) w.
  apply: pr_cat; first by rewrite /= oP oQ oT.
  apply: (pr_cat2 (l1 := [:: A; pt_neg A])); [by rewrite /= oS onS|exact: pr_vert|exact: pr_vert].
have PE : Permutation.Permutation ([:: P; Q; pt_neg A; A; T; pt_neg S] ++ [:: S])
   ([:: A; pt_neg A; S; pt_neg S] ++ [:: P; Q; T]) by exact: perm7.
split=> [/H1/(M_permE PE)/H2 //|/H2/(M_permE PE)/H1 //].
Qed.

Lemma pt_addC p q : oc p -> oc q -> pt_add p q = pt_add q p.
Proof.
case: p => [|x1 y1]; case: q => [|x2 y2] //= /eqP e1 /eqP e2.
rewrite (eq_sym x2 x1). have [ex|nx] := eqVneq x1 x2.
  have -> : (y2 == - y1) = (y1 == - y2) by rewrite eq_sym eqr_oppLR.
  have [//|ny] := eqVneq y1 (- y2).
  have ey : y1 = y2.
    have : y1 ^+ 2 = y2 ^+ 2 by rewrite e1 e2 ex.
    by case/sqr_eq_pm => // E; move: ny; rewrite E eqxx.
  by rewrite ex ey.
have d0 : x2 - x1 != 0 by rewrite subr_eq0 eq_sym.
have -> : (y1 - y2) / (x1 - x2) = (y2 - y1) / (x2 - x1).
  by rewrite -[y1 - y2]opprB -[x1 - x2]opprB invrN mulrNN.
set la := (y2 - y1) / (x2 - x1).
have Hla : la * (x2 - x1) = y2 - y1 by rewrite divfK.
have -> : la ^+ 2 - x2 - x1 = la ^+ 2 - x1 - x2 by rewrite addrAC.
congr Aff. apply/eqP; rewrite -subr_eq0; apply/eqP.
move: (la ^+ 2 - x1 - x2) => x3.
have -> : la * (x1 - x3) - y1 - (la * (x2 - x3) - y2) = (y2 - y1) - la * (x2 - x1) by mcr F.
by rewrite Hla subrr.
Qed.

Lemma oc_add p q : oc p -> oc q -> oc (pt_add p q).
Proof. by move=> op oq; case: (pr_add op oq). Qed.

Lemma pt_addN p : oc p -> pt_add p (pt_neg p) = Inf.
Proof. by case: p => //= x y _; rewrite eqxx opprK eqxx. Qed.

Lemma pt_negK p : pt_neg (pt_neg p) = p :> point.
Proof. by case: p => //= x y; rewrite opprK. Qed.

Lemma sc_mul a c I z : sc (a *c c) I z <-> sc a (sc c I) z.
Proof.
split=> [[w [Iw ->]]|[w [[u [Iu ->]] ->]]].
  exists (c *c w); split; last by ring. by exists w.
exists u; split=> //. ring.
Qed.
Lemma sc_ext a (I J : R -> Prop) z : (forall z, I z <-> J z) -> sc a I z <-> sc a J z.
Proof. by move=> E; split=> [[w [H ->]]|[w [H ->]]]; exists w; split=> //; apply/E. Qed.

(** *** associativity *)
Lemma pt_addA p q r : oc p -> oc q -> oc r ->
  pt_add p (pt_add q r) = pt_add (pt_add p q) r.
Proof.
move=> op oq or.
have oqr := oc_add oq or. have opq := oc_add op oq.
rewrite (pt_addC op oqr). symmetry.
have [g [v [g0 v0 E1]]] := assoc_class op oq or.
have [h [w [h0 w0 E2]]] := assoc_class oq or op.
have E3 z : M [:: q; r; p] z <-> M [:: p; q; r] z.
  apply: M_permE. perm_tac.
apply: (@class_inj _ _ (w *c g) (v *c h)).
- exact: oc_add.
- exact: oc_add.
- exact: cmul_neq0.
- exact: cmul_neq0.
move=> z. rewrite !sc_mul.
rewrite (sc_ext w z E1) (sc_ext v z E2) -!sc_mul.
have -> : w *c v = v *c w by ring.
rewrite !sc_mul. apply: sc_ext => z'. apply: sc_ext => z''. symmetry. exact: E3.
Qed.

End Group.
