(** * Certificates for scalar multiples, and the order of the group. *)
From Coq Require Import ZArith Znumtheory Lia List Bool.
From mathcomp Require Import all_ssreflect all_algebra all_fingroup all_solvable finfield.
From Verif Require Import Base BaseFacts Fp Pock ZMod MCRing EC ECGroup SpecCurve ZCurve.
Set Implicit Arguments.
Unset Strict Implicit.
Unset Printing Implicit Defensive.
Import GRing.Theory.
Local Open Scope ring_scope.
Delimit Scope Z_scope with Z.
Local Arguments Z.mul : simpl never.
Local Arguments Z.add : simpl never.
Local Arguments Z.sub : simpl never.
Local Arguments Z.modulo : simpl never.

(** a step of a certified chain: the slope and three quotients *)
Inductive cop : Type :=
| Dbl (l q1 q2 q3 : Z)
| AddG (l q1 q2 q3 : Z)
| SubG (l q1 q2 q3 : Z).

Section Run.
Local Open Scope Z_scope.
Variables P gx gy : Z.
Definition inr (z : Z) : bool := (0 <=? z) && (z <? P).
Definition cstep (o : cop) (s : Z * Z * Z) : option (Z * Z * Z) :=
  let '(k, x, y) := s in
  match o with
  | Dbl l q1 q2 q3 =>
      let x3 := l * l - x - x - q2 * P in
      let y3 := l * (x - x3) - y - q3 * P in
      if (l * (2 * y) =? 3 * (x * x) + q1 * P) && negb (y =? 0) && inr x3 && inr y3
      then Some (2 * k, x3, y3) else None
  | AddG l q1 q2 q3 =>
      let x3 := l * l - x - gx - q2 * P in
      let y3 := l * (x - x3) - y - q3 * P in
      if (l * (gx - x) =? (gy - y) + q1 * P) && negb (x =? gx) && inr x3 && inr y3
      then Some (k + 1, x3, y3) else None
  | SubG l q1 q2 q3 =>
      let x3 := l * l - x - gx - q2 * P in
      let y3 := l * (x - x3) - y - q3 * P in
      if (l * (gx - x) =? (P - gy - y) + q1 * P) && negb (x =? gx) && inr x3 && inr y3
      then Some (k - 1, x3, y3) else None
  end.
Fixpoint crun (l : list cop) (s : Z * Z * Z) : option (Z * Z * Z) :=
  match l with
  | nil => Some s
  | cons o l' => match cstep o s with Some s' => crun l' s' | None => None end
  end.
End Run.

Section Order.
Variables P b : Z.
Hypothesis hP : Znumtheory.prime P.
Hypothesis hP3 : (3 < P)%Z.
Hypothesis hb : (b mod P <> 0)%Z.
Variables gx gy : Z.
Hypothesis hg : zon P b (Some (gx, gy)).
Hypothesis gy0 : gy <> 0%Z.
Local Notation p := (Z.to_nat P).
Local Notation F := ('F_p).
Local Notation ph := (phi P).
Local Notation G := (Some (gx, gy)).
Local Notation eG := (emb hP hP3 hb G).
Local Notation ec := (zcurve hP hP3 hb).

Lemma line_eq l l' x1 y1 x2 q2 q3 :
  ph l = ph l' ->
  let x3 := (l * l - x1 - x2 - q2 * P)%Z in
  let y3 := (l * (x1 - x3) - y1 - q3 * P)%Z in
  inr P x3 -> inr P y3 -> zline P l' x1 y1 x2 = Some (x3, y3).
Proof.
move=> E x3 y3 /andP [/Z.leb_le r1 /Z.ltb_lt r2] /andP [/Z.leb_le r3 /Z.ltb_lt r4].
have P0 : ph P = 0 by apply/(phi_eq0 hP); apply: Z_mod_same_full.
have P1 := P_pos hP.
have Ex : ((l' * l' - x1 - x2) mod P = x3)%Z.
  rewrite -(Zmod_small x3 P) //. apply/(phi_inj hP).
  by rewrite /x3 !phi_sub // !phi_mul // P0 mulr0 subr0 E.
rewrite /zline Ex. congr (Some (_, _)).
rewrite -(Zmod_small y3 P) //. apply/(phi_inj hP).
by rewrite /y3 !phi_sub // !phi_mul // !phi_sub // P0 mulr0 subr0 E.
Qed.

Lemma slope_div a d l q : (l * d = a + q * P)%Z -> (d mod P <> 0)%Z -> ph l = ph (a * inv_mod P d)%Z.
Proof.
move=> E d0. have P0 : ph P = 0 by apply/(phi_eq0 hP); apply: Z_mod_same_full.
have D0 : ph d != 0 by apply/eqP => /(phi_eq0 hP).
rewrite phi_mul // phi_inv //. apply: (mulIf D0). rewrite mulfVK // -phi_mul // E.
by rewrite phi_add // phi_mul // P0 mulr0 addr0.
Qed.

Lemma zmul_succ k : zmul P (k + 1) G = zadd P (zmul P k G) G.
Proof.
apply: (emb_inj (hP := hP) (hP3 := hP3) (hb := hb)).
- exact: zon_mul.
- by apply: zon_add => //; apply: zon_mul.
- rewrite emb_add //; last exact: zon_mul. by rewrite !emb_mul // smulDl.
Qed.
Lemma zmul_pred k : zmul P (k - 1) G = zadd P (zmul P k G) (zneg P G).
Proof.
apply: (emb_inj (hP := hP) (hP3 := hP3) (hb := hb)).
- exact: zon_mul.
- by apply: zon_add => //; [apply: zon_mul|apply: zon_neg].
- rewrite emb_add //; [|exact: zon_mul|exact: zon_neg]. by rewrite emb_neg // !emb_mul // smulB.
Qed.
Lemma zmul_dbl k : zmul P (2 * k) G = zadd P (zmul P k G) (zmul P k G).
Proof.
apply: (emb_inj (hP := hP) (hP3 := hP3) (hb := hb)).
- exact: zon_mul.
- by apply: zon_add => //; apply: zon_mul.
- rewrite emb_add //; try exact: zon_mul. rewrite !emb_mul // -smulDl. congr smul. lia.
Qed.

Lemma gneg : zneg P G = Some (gx, P - gy)%Z.
Proof.
case: hg => _ [ry _]. rewrite /zneg. congr (Some (_, _)).
rewrite Z_mod_nz_opp_full ?Zmod_small //; lia.
Qed.

Lemma cstep_ok o k x y k' x' y' : zmul P k G = Some (x, y) ->
  cstep P gx gy o (k, x, y) = Some (k', x', y') -> zmul P k' G = Some (x', y').
Proof.
move=> E. have on := zon_mul hP hP3 hb k hg. rewrite E in on. case: (on) => rx [ry _].
case: (hg) => rgx [rgy _].
case: o => l q1 q2 q3 /=.
- case: ifP => // /andP [/andP [/andP [/Z.eqb_eq El /negbTE/Z.eqb_neq y0] r1] r2] [<- <- <-].
  have y20 : ((2 * y) mod P <> 0)%Z.
    move/Z.mod_divide => [|m Hm]; first by lia.
    have [m0|m1] : (m = 0 \/ m = 1)%Z by nia.
      rewrite m0 in Hm. lia.
    rewrite m1 in Hm.
    have : (2 | P)%Z by exists y; lia.
    move/(prime_divisors _ hP) => [|[|[|]]]; lia.
  rewrite zmul_dbl E /zadd Z.eqb_refl.
  have -> : ((y + y) mod P =? 0)%Z = false.
    apply/Z.eqb_neq. have -> : (y + y = 2 * y)%Z by lia. exact: y20.
  apply: line_eq r1 r2. exact: slope_div El y20.
- case: ifP => // /andP [/andP [/andP [/Z.eqb_eq El /negbTE/Z.eqb_neq xg] r1] r2] [<- <- <-].
  rewrite zmul_succ E /zadd. have -> : (x =? gx)%Z = false by apply/Z.eqb_neq.
  apply: line_eq r1 r2. apply: slope_div El _.
  move=> H. apply: xg. apply/esym.
  apply: (phi_injr hP) => //. apply/eqP. rewrite -subr_eq0 -phi_sub //. apply/eqP. exact/(phi_eq0 hP).
- case: ifP => // /andP [/andP [/andP [/Z.eqb_eq El /negbTE/Z.eqb_neq xg] r1] r2] [<- <- <-].
  rewrite zmul_pred E gneg /zadd. have -> : (x =? gx)%Z = false by apply/Z.eqb_neq.
  apply: line_eq r1 r2. apply: slope_div El _.
  move=> H. apply: xg. apply/esym.
  apply: (phi_injr hP) => //. apply/eqP. rewrite -subr_eq0 -phi_sub //. apply/eqP. exact/(phi_eq0 hP).
Qed.

Lemma crun_ok l k x y k' x' y' : zmul P k G = Some (x, y) ->
  crun P gx gy l (k, x, y) = Some (k', x', y') -> zmul P k' G = Some (x', y').
Proof.
elim: l k x y => [|o l IH] k x y E; first by move=> [<- <- <-].
rewrite [crun _ _ _ _ _]/crun -/(crun P gx gy).
case S : (cstep P gx gy o (k, x, y)) => [[[k1 x1] y1]|] // H.
exact: (IH _ _ _ (cstep_ok E S) H).
Qed.

Lemma zmul1 : zmul P 1 G = G.
Proof. by []. Qed.

Lemma order_cert l N : crun P gx gy l (1, gx, gy)%Z = Some (N - 1, gx, P - gy)%Z -> zmul P N G = None.
Proof.
move=> C. have := crun_ok zmul1 C. rewrite -gneg => E.
have -> : N = (N - 1 + 1)%Z by lia.
rewrite zmul_succ E. apply: (emb_inj (hP := hP) (hP3 := hP3) (hb := hb)) => //.
  by apply: zon_add => //; apply: zon_neg.
rewrite emb_add //; last exact: zon_neg. by rewrite emb_neg // addNr emb_None.
Qed.

(** ** the group has prime order *)
Variable N : Z.
Hypothesis hN : Znumtheory.prime N.
Hypothesis hGN : zmul P N G = None.
Hypothesis hB : (2 * P + 1 < 3 * N)%Z.
(** [-b] is not a cube *)
Variables (e r : Z).
Hypothesis he : (0 <= e)%Z.
Hypothesis h3 : (P - 1 = 3 * e)%Z.
Hypothesis hcube : cong P ((- b) ^ e) r.
Hypothesis hr : (r mod P <> 1)%Z.

Lemma eG0 : eG <> 0.
Proof.
rewrite -(emb_None hP hP3 hb) => H. by have := emb_inj (hP := hP) (hP3 := hP3) (hb := hb) hg (I : zon P b None) H.
Qed.
Lemma eGN : smul N eG = 0.
Proof. by rewrite -emb_mul // hGN emb_None. Qed.
Lemma N_nat : Z.of_nat (Z.to_nat N) = N.
Proof. have := prime_ge_2 _ hN. lia. Qed.

Lemma no_cube (x : F) : x ^+ 3 != - ph b.
Proof.
apply/eqP => E.
have P0 : ph P = 0 by apply/(phi_eq0 hP); apply: Z_mod_same_full.
have P1 := P_pos hP.
have x0 : x != 0.
  apply/eqP => x0. move: E. rewrite x0 expr0n /= => /eqP. rewrite eq_sym oppr_eq0.
  by move/eqP/(phi_eq0 hP).
have xp : x ^+ p.-1 = 1.
  apply: (mulfI x0). rewrite -exprS mulr1 prednK; last by apply/ltP; lia.
  have := expf_card x. by rewrite (card_F hP).
have ep : p.-1 = (3 * Z.to_nat e)%N by rewrite -multE; lia.
have : ph ((- b) ^ e)%Z = 1.
  by rewrite phi_powZ // phi_opp // -E -exprM -ep.
case: hcube => k ->. rewrite phi_add // phi_mul // P0 mulr0 addr0 -(phi1 hP) => /(phi_inj hP).
by rewrite [(1 mod P)%Z]Zmod_small //; lia.
Qed.

Lemma card_E : #|{: epoint ec}| = Z.to_nat N.
Proof.
apply: (@card_is_prime ec eG).
- exact: prime_Z_nat.
- by apply/eqP; exact: eG0.
- by rewrite -smul_nat N_nat eGN.
- exact: no_cube.
- have -> : #|ecF ec| = p := card_F hP. apply/ltP. rewrite -!multE -!plusE.
  have := P_pos hP. have := prime_ge_2 _ hN. lia.
Qed.

Lemma smul_card (x : epoint ec) : smul N x = 0.
Proof. by rewrite -N_nat smul_nat -card_E card_mul. Qed.

Lemma zmul_order q : zon P b q -> zmul P N q = None.
Proof.
move=> oq. apply: (emb_inj (hP := hP) (hP3 := hP3) (hb := hb)) => //; first exact: zon_mul.
by rewrite emb_mul // smul_card emb_None.
Qed.

Lemma gen_E (x : epoint ec) : exists k : Z, (0 <= k < N)%Z /\ x = smul k eG.
Proof.
have N2 := prime_ge_2 _ hN.
have o : #[eG]%g = Z.to_nat N.
  have : (#[eG]%g %| Z.to_nat N)%N.
    rewrite order_dvdn. apply/eqP. have := eGN. by rewrite -{1}N_nat smul_nat.
  case/primeP: (prime_Z_nat hN) => _ H /H /orP [] /eqP // E.
  exfalso. apply: eG0. apply/eqP. by rewrite -order_eq1 E.
have : x \in <[eG]>%g.
  have -> : <[eG]>%g = [set: epoint ec]%G.
    apply/eqP. rewrite eqEcard subsetT /= cardsT card_E. by rewrite -orderE o.
  by rewrite inE.
case/cyclePmin => i. rewrite o => Hi ->. exists (Z.of_nat i).
split; first by move/ltP: Hi; lia. by rewrite smul_nat.
Qed.

(** discrete logarithm to the base G, in F_N *)
Lemma zmul_gen q : zon P b q -> exists k : Z, (0 <= k < N)%Z /\ q = zmul P k G.
Proof.
move=> oq. case: (gen_E (emb hP hP3 hb q)) => k [rk E]. exists k; split=> //.
apply: (emb_inj (hP := hP) (hP3 := hP3) (hb := hb)) => //; first exact: zon_mul.
by rewrite emb_mul.
Qed.
Lemma zmul_G_inj k k' : zmul P k G = zmul P k' G <-> (k mod N = k' mod N)%Z.
Proof.
split=> H.
  have := congr1 (emb hP hP3 hb) H. rewrite !emb_mul // => /smul_inj; apply=> //; first exact: eGN.
  exact: eG0.
apply: (emb_inj (hP := hP) (hP3 := hP3) (hb := hb)); [exact: zon_mul|exact: zon_mul|].
rewrite !emb_mul //. exact: smul_eq_mod eGN H.
Qed.

End Order.
