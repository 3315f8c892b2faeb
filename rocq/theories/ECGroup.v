(** * The points of y^2 = x^3 + b over a finite field as a finite abelian group. *)
From mathcomp Require Import all_ssreflect all_algebra all_fingroup all_solvable.
From Verif Require Import MCRing EC.
Set Implicit Arguments.
Unset Strict Implicit.
Unset Printing Implicit Defensive.
Import GRing.Theory.
Local Open Scope ring_scope.

Definition pt_eqMixin (F : eqType) := CanEqMixin (@pt_codeK F).
Canonical pt_eqType (F : eqType) := Eval hnf in EqType (pt F) (pt_eqMixin F).
Definition pt_choiceMixin (F : choiceType) := CanChoiceMixin (@pt_codeK F).
Canonical pt_choiceType (F : choiceType) := Eval hnf in ChoiceType (pt F) (pt_choiceMixin F).
Definition pt_countMixin (F : countType) := CanCountMixin (@pt_codeK F).
Canonical pt_countType (F : countType) := Eval hnf in CountType (pt F) (pt_countMixin F).
Definition pt_finMixin (F : finType) := CanFinMixin (@pt_codeK F).
Canonical pt_finType (F : finType) := Eval hnf in FinType (pt F) (pt_finMixin F).

(** a curve: a finite field and a coefficient, with the three non-degeneracy facts *)
Record ecurve : Type := ECurve {
  ecF : finFieldType;
  ecb : ecF;
  ec2 : (2%:R : ecF) != 0;
  ec3 : (3%:R : ecF) != 0;
  ec_b : ecb != 0 }.

Record epoint (c : ecurve) : Type := EPoint { epv :> pt (ecF c); epP : on_curve (ecb c) epv }.

Section Sub.
Variable c : ecurve.
Canonical ep_subType := Eval hnf in [subType for @epv c].
Definition ep_eqMixin := [eqMixin of epoint c by <:].
Canonical ep_eqType := Eval hnf in EqType (epoint c) ep_eqMixin.
Definition ep_choiceMixin := [choiceMixin of epoint c by <:].
Canonical ep_choiceType := Eval hnf in ChoiceType (epoint c) ep_choiceMixin.
Definition ep_countMixin := [countMixin of epoint c by <:].
Canonical ep_countType := Eval hnf in CountType (epoint c) ep_countMixin.
Canonical ep_subCountType := Eval hnf in [subCountType of epoint c].
Definition ep_finMixin := [finMixin of epoint c by <:].
Canonical ep_finType := Eval hnf in FinType (epoint c) ep_finMixin.
Canonical ep_subFinType := Eval hnf in [subFinType of epoint c].

Definition ep0 : epoint c := @EPoint c Inf isT.
Definition epneg (p : epoint c) : epoint c := EPoint (oc_neg (epP p)).
Definition epadd (p q : epoint c) : epoint c :=
  EPoint (oc_add (ec2 c) (ec3 c) (ec_b c) (epP p) (epP q)).

Lemma epaddA : associative epadd.
Proof.
move=> p q r; apply: val_inj => /=.
exact: (pt_addA (ec2 c) (ec3 c) (ec_b c) (epP p) (epP q) (epP r)).
Qed.
Lemma epaddC : commutative epadd.
Proof. move=> p q; apply: val_inj => /=. exact: (pt_addC (epP p) (epP q)). Qed.
Lemma epadd0 : left_id ep0 epadd.
Proof. by move=> p; apply: val_inj. Qed.
Lemma epaddN : left_inverse ep0 epneg epadd.
Proof.
move=> p; rewrite epaddC; apply: val_inj => /=. exact: (pt_addN (epP p)).
Qed.
Definition ep_zmodMixin := ZmodMixin epaddA epaddC epadd0 epaddN.
Canonical ep_zmodType := Eval hnf in ZmodType (epoint c) ep_zmodMixin.
Canonical ep_finZmodType := Eval hnf in [finZmodType of epoint c].
Canonical ep_baseFinGroupType := Eval hnf in [baseFinGroupType of epoint c for +%R].
Canonical ep_finGroupType := Eval hnf in [finGroupType of epoint c for +%R].

Lemma epv_inj : injective (@epv c). Proof. exact: val_inj. Qed.
Lemma epv_add (p q : epoint c) : epv (p + q) = pt_add p q. Proof. by []. Qed.
Lemma epv_opp (p : epoint c) : epv (- p) = pt_neg p. Proof. by []. Qed.
Lemma epv_0 : epv (0 : epoint c) = Inf. Proof. by []. Qed.

(** every point is killed by the number of points *)
Lemma card_mul (p : epoint c) : p *+ #|{: epoint c}| = 0.
Proof.
have := order_dvdG (in_setT p : p \in [set: epoint c]%G).
by rewrite cardsT order_dvdn => /eqP.
Qed.

(** a point of prime order N: N divides the number of points *)
Lemma prime_order_dvd (p : epoint c) N : prime N -> p != 0 -> p *+ N = 0 -> (N %| #|{: epoint c}|)%N.
Proof.
move=> N_pr p0 pN.
have : #[p]%g = N.
  have : (#[p]%g %| N)%N by rewrite order_dvdn; apply/eqP.
  case/primeP: N_pr => _ H /H /orP [] /eqP // E.
  by move: p0; rewrite -order_eq1 E.
move=> <-. rewrite -cardsT. exact: (order_dvdG (in_setT p)).
Qed.

(** at most two points per abscissa *)
Definition ep_root (x : ecF c) : ecF c := odflt 0 [pick y | y ^+ 2 == x ^+ 3 + ecb c].
Definition ep_key (p : epoint c) : option (ecF c * bool) :=
  match epv p with Inf => None | Aff x y => Some (x, y == ep_root x) end.
Lemma ep_key_inj : injective ep_key.
Proof.
case=> [[|x y] op] [[|x' y'] op'] //.
  by move=> _; apply: val_inj.
rewrite /ep_key /= => -[ex ey]. apply: val_inj => /=. move: op op' ey. rewrite /= -{}ex => /eqP e /eqP e'.
have R : ep_root x ^+ 2 = x ^+ 3 + ecb c.
  rewrite /ep_root. case: pickP => [z /eqP //|/(_ y)]. by rewrite e eqxx.
have [->|n] := eqVneq y (ep_root x); have [->|n'] := eqVneq y' (ep_root x) => // _.
congr Aff.
have P z : z ^+ 2 = x ^+ 3 + ecb c -> z != ep_root x -> z = - ep_root x.
  move=> ez nz. have : z ^+ 2 = ep_root x ^+ 2 by rewrite ez R.
  by move/eqP; rewrite eqf_sqr (negbTE nz) => /eqP.
by rewrite (P _ e n) (P _ e' n').
Qed.
Lemma card_bound : (#|{: epoint c}| <= 2 * #|ecF c| + 1)%N.
Proof.
have := leq_card _ ep_key_inj. by rewrite card_option card_prod card_bool mulnC addn1.
Qed.

(** no point of order two when -b has no cube root *)
Lemma card_odd : (forall x : ecF c, x ^+ 3 != - ecb c) -> odd #|{: epoint c}|.
Proof.
move=> H. apply/negPn/negP => E.
have : (2 %| #|[set: epoint c]|)%N by rewrite cardsT dvdn2.
case/(Cauchy (isT : prime 2)) => p _ Hp.
have : p + p = 0.
  by have := expg_order p; rewrite Hp.
have p0 : p != 0 by rewrite -order_eq1 Hp.
case: p p0 {Hp} => [[|x y] op] p0.
  by move: p0; have -> : EPoint op = 0 by apply: val_inj.
move/(congr1 (@epv c)) => /=. rewrite eqxx. case: eqP => // ey _.
have y0 : y = 0.
  apply/eqP. have : 2%:R * y == 0 by rewrite mulr_natl mulr2n {1}ey addNr.
  by rewrite mulf_eq0 (negbTE (ec2 c)).
have := op. rewrite /= y0 expr0n /= => /eqP /esym/eqP. rewrite addr_eq0. exact/negP/H.
Qed.

(** the whole group has prime order N *)
Lemma card_is_prime (p : epoint c) N : prime N -> p != 0 -> p *+ N = 0 ->
  (forall x : ecF c, x ^+ 3 != - ecb c) -> (2 * #|ecF c| + 1 < 3 * N)%N ->
  #|{: epoint c}| = N.
Proof.
move=> N_pr p0 pN nc B.
have /dvdnP [k E] := prime_order_dvd N_pr p0 pN.
have k3 : (k < 3)%N.
  rewrite -(ltn_pmul2r (prime_gt0 N_pr)) -E. exact: leq_ltn_trans card_bound B.
have o := card_odd nc.
case: k k3 E => [|[|[|k]]] // _ E.
- by move: o; rewrite E.
- by rewrite E mul1n.
- by move: o; rewrite E oddM.
Qed.
End Sub.
