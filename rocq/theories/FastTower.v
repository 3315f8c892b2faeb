(** * A fast copy of the bn256 computation

    Every function below mirrors one function of BN256.v over any copy [T] of
    the base field; the lemma after it says that it computes the same value.
    Nothing here models the program: NonDegen.v runs these functions on the
    limbs of FastFp.v to make one computation feasible inside the kernel. *)
From Coq Require Import ZArith Lia Bool List.
From mathcomp Require Import all_ssreflect all_algebra.
From Verif Require Import Base BaseFacts SpecCurve ZField MCRing FieldExt BB BN256 BNTower BNField SpecPair.
Set Implicit Arguments.
Unset Strict Implicit.
Unset Printing Implicit Defensive.
Import GRing.Theory.
Delimit Scope Z_scope with Z.
Local Open Scope ring_scope.
Local Arguments Z.mul : simpl never.
Local Arguments Z.add : simpl never.
Local Arguments Z.sub : simpl never.

Add Field K1T : (mc_field K1).
Add Field K2T : (mc_field K2).
Add Field K6T : (mc_field K6).
Local Opaque bn_P mk2 mk6 mk12.
Local Opaque xiToPMinus1Over6 xiToPMinus1Over3 xiToPMinus1Over2 xiTo2PMinus2Over3
  xiToPSquaredMinus1Over3 xiTo2PSquaredMinus2Over3 xiToPSquaredMinus1Over6.

Section Tower.
Variable T : Type.
(** three subtractions, for operands of growing size: they differ only in speed *)
Variables tm ta ts tsm tsb : T -> T -> T.
Variables t0 t1 : T.
Variable tv : T -> K1.
Hypothesis tv_m : forall a b, tv (tm a b) = tv a * tv b.
Hypothesis tv_a : forall a b, tv (ta a b) = tv a + tv b.
Hypothesis tv_s : forall a b, tv (ts a b) = tv a - tv b.
Hypothesis tv_sm : forall a b, tv (tsm a b) = tv a - tv b.
Hypothesis tv_sb : forall a b, tv (tsb a b) = tv a - tv b.
Hypothesis tv_0 : tv t0 = 0.
Hypothesis tv_1 : tv t1 = 1.
Let tvs := (tv_m, tv_a, tv_s, tv_sm, tv_sb).

(** ** gfP2 *)
Definition F2 : Type := (T * T)%type.
Definition w2 (a : F2) : K2 := mk2 (tv a.1) (tv a.2).
Definition f2zero : F2 := (t0, t0).
Definition f2one : F2 := (t0, t1).
Definition f2add (a b : F2) : F2 := (ta a.1 b.1, ta a.2 b.2).
Definition f2sub (a b : F2) : F2 := (tsm a.1 b.1, tsm a.2 b.2).
Definition f2subb (a b : F2) : F2 := (tsb a.1 b.1, tsb a.2 b.2).
Definition f2neg (a : F2) : F2 := (tsb t0 a.1, tsb t0 a.2).
Definition f2conj (a : F2) : F2 := (tsb t0 a.1, a.2).
Definition f2mul (a b : F2) : F2 :=
  let v := tm a.1 b.1 in
  let w := tm a.2 b.2 in
  let s := tm (ta a.1 a.2) (ta b.1 b.2) in
  (ts s (ta v w), ts w v).
Definition f2sq (a : F2) : F2 :=
  let v := tm a.1 a.2 in
  (ta v v, tm (ta a.1 a.2) (tsb a.2 a.1)).
Definition f2scal (a : F2) (k : T) : F2 := (tm a.1 k, tm a.2 k).
Definition t9 (a : T) : T := let b := ta a a in let b := ta b b in ta (ta b b) a.
Definition f2xi (a : F2) : F2 := (ta (t9 a.1) a.2, tsm (t9 a.2) a.1).
Lemma w2_0 : w2 f2zero = 0. Proof. by rewrite /w2 /= tv_0 mk2_0. Qed.
Lemma w2_1 : w2 f2one = 1. Proof. by rewrite /w2 /= tv_0 tv_1 mk2_1. Qed.
Lemma w2_add a b : w2 (f2add a b) = w2 a + w2 b. Proof. by rewrite /w2 /= !tvs mk2D. Qed.
Lemma w2_sub a b : w2 (f2sub a b) = w2 a - w2 b. Proof. by rewrite /w2 /= !tvs mk2N mk2D. Qed.
Lemma w2_subb a b : w2 (f2subb a b) = w2 a - w2 b. Proof. by rewrite /w2 /= !tvs mk2N mk2D. Qed.
Lemma w2_neg a : w2 (f2neg a) = - w2 a. Proof. by rewrite /w2 /= !tvs tv_0 mk2N !sub0r. Qed.
Lemma w2_mul a b : w2 (f2mul a b) = w2 a * w2 b.
Proof. rewrite /w2 mk2M /= !tvs. by congr mk2; mcfr K1. Qed.
Lemma w2_sq a : w2 (f2sq a) = w2 a * w2 a.
Proof. rewrite /w2 mk2M /= !tvs. by congr mk2; mcfr K1. Qed.
Lemma tv_9 a : tv (t9 a) = ph 9 * tv a.
Proof. rewrite /t9 !tvs (_ : 9%Z = ((((1+1)+(1+1))+((1+1)+(1+1)))+1)%Z) // !phD ph1. mcfr K1. Qed.
Lemma w2_xi a : w2 (f2xi a) = xi2 * w2 a.
Proof. rewrite /xi2 v2E /w2 mk2M /= !(tv_9, tvs) ph1. by congr mk2; mcfr K1. Qed.
Lemma w2_conj t a : w2 t = v2 a -> w2 (f2conj t) = v2 (gfP2_Conjugate a).
Proof. rewrite /w2 !v2E => /mk2_inj [E F]. by rewrite /= !tvs tv_0 E F phN sub0r. Qed.
Lemma w2_scal t a s k : w2 t = v2 a -> tv s = ph k -> w2 (f2scal t s) = v2 (gfP2_MulScalar a k).
Proof. rewrite /w2 !v2E => /mk2_inj [E F] G. by rewrite /= !tvs E F G !phM. Qed.
Let w2s := (w2_add, w2_sub, w2_subb, w2_neg, w2_mul, w2_sq, w2_xi).

(** ** gfP6 *)
Record F6 : Type := MkF6 { d6x : F2; d6y : F2; d6z : F2 }.
Definition w6 (a : F6) : K6 := mk6 (w2 (d6x a)) (w2 (d6y a)) (w2 (d6z a)).
Definition f6add (a b : F6) : F6 := MkF6 (f2add (d6x a) (d6x b)) (f2add (d6y a) (d6y b)) (f2add (d6z a) (d6z b)).
Definition f6sub (a b : F6) : F6 := MkF6 (f2subb (d6x a) (d6x b)) (f2subb (d6y a) (d6y b)) (f2subb (d6z a) (d6z b)).
Definition f6neg (a : F6) : F6 := MkF6 (f2neg (d6x a)) (f2neg (d6y a)) (f2neg (d6z a)).
Definition f6mul (a b : F6) : F6 :=
  let v0 := f2mul (d6z a) (d6z b) in
  let v1 := f2mul (d6y a) (d6y b) in
  let v2 := f2mul (d6x a) (d6x b) in
  let tz := f2mul (f2add (d6x a) (d6y a)) (f2add (d6x b) (d6y b)) in
  let tz := f2add (f2xi (f2sub tz (f2add v1 v2))) v0 in
  let ty := f2mul (f2add (d6y a) (d6z a)) (f2add (d6y b) (d6z b)) in
  let ty := f2add (f2sub ty (f2add v0 v1)) (f2xi v2) in
  let tx := f2mul (f2add (d6x a) (d6z a)) (f2add (d6x b) (d6z b)) in
  let tx := f2sub (f2add tx v1) (f2add v0 v2) in
  MkF6 tx ty tz.
Definition f6tau (a : F6) : F6 := MkF6 (d6y a) (d6z a) (f2xi (d6x a)).
Definition f6scal (a : F6) (k : F2) : F6 := MkF6 (f2mul (d6x a) k) (f2mul (d6y a) k) (f2mul (d6z a) k).
Lemma w6_add a b : w6 (f6add a b) = w6 a + w6 b. Proof. by rewrite /w6 mk6D /= !w2s. Qed.
Lemma w6_sub a b : w6 (f6sub a b) = w6 a - w6 b. Proof. by rewrite /w6 mk6N mk6D /= !w2s. Qed.
Lemma w6_neg a : w6 (f6neg a) = - w6 a. Proof. by rewrite /w6 mk6N /= !w2s. Qed.
Lemma w6_mul a b : w6 (f6mul a b) = w6 a * w6 b.
Proof. rewrite /w6 mk6M /= !w2s. by congr mk6; mcfr K2. Qed.
Lemma w6_tau a : w6 (f6tau a) = tau6 * w6 a.
Proof. rewrite tau6E /w6 mk6M /= !w2s. by congr mk6; mcfr K2. Qed.
Lemma w6_scal a k : w6 (f6scal a k) = w6 a * mk6 0 0 (w2 k).
Proof. rewrite /w6 mk6M /= !w2s. by congr mk6; mcfr K2. Qed.
Let w6s := (w6_add, w6_sub, w6_neg, w6_mul, w6_tau, w6_scal).
Lemma w6_parts t a : w6 t = v6 a -> [/\ w2 (d6x t) = v2 (c6x a), w2 (d6y t) = v2 (c6y a) & w2 (d6z t) = v2 (c6z a)].
Proof. rewrite /w6 v6E. exact: mk6_inj. Qed.
Variable c_x2p3 : F2.
Hypothesis c_x2p3E : w2 c_x2p3 = v2 xiTo2PMinus2Over3.
Variable c_xp3 : F2.
Hypothesis c_xp3E : w2 c_xp3 = v2 xiToPMinus1Over3.
Variable c_xp2 : F2.
Hypothesis c_xp2E : w2 c_xp2 = v2 xiToPMinus1Over2.
Variable c_xp6 : F2.
Hypothesis c_xp6E : w2 c_xp6 = v2 xiToPMinus1Over6.
Variable c_s2 : T.
Hypothesis c_s2E : tv c_s2 = ph xiTo2PSquaredMinus2Over3.
Variable c_s1 : T.
Hypothesis c_s1E : tv c_s1 = ph xiToPSquaredMinus1Over3.
Variable c_s6 : T.
Hypothesis c_s6E : tv c_s6 = ph xiToPSquaredMinus1Over6.
Definition f6frob (a : F6) : F6 :=
  MkF6 (f2mul (f2conj (d6x a)) c_x2p3) (f2mul (f2conj (d6y a)) c_xp3) (f2conj (d6z a)).
Lemma w6_frob t a : w6 t = v6 a -> w6 (f6frob t) = v6 (gfP6_Frobenius a).
Proof.
move/w6_parts => [X Y Z]. rewrite v6E /gfP6_Frobenius /w6 /= !w2_mul !v2_Mul c_x2p3E c_xp3E .
by rewrite (w2_conj X) (w2_conj Y) (w2_conj Z).
Qed.
Definition f6frob2 (a : F6) : F6 := MkF6 (f2scal (d6x a) c_s2) (f2scal (d6y a) c_s1) (d6z a).
Lemma w6_frob2 t a : w6 t = v6 a -> w6 (f6frob2 t) = v6 (gfP6_FrobeniusP2 a).
Proof.
move/w6_parts => [X Y Z]. rewrite v6E /gfP6_FrobeniusP2 /w6 /= Z.
by rewrite (@w2_scal _ _ _ xiTo2PSquaredMinus2Over3 X) ?(@w2_scal _ _ _ xiToPSquaredMinus1Over3 Y) // ?c_s2E ?c_s1E.
Qed.
Definition f6gfp (a : F6) (k : T) : F6 := MkF6 (f2scal (d6x a) k) (f2scal (d6y a) k) (f2scal (d6z a) k).
Lemma w6_gfp t a s k : w6 t = v6 a -> tv s = ph k -> w6 (f6gfp t s) = v6 (gfP6_MulGFP a k).
Proof. move/w6_parts => [X Y Z] E. by rewrite v6E /w6 /= (w2_scal X E) (w2_scal Y E) (w2_scal Z E). Qed.

(** ** gfP12 *)
Record F12 : Type := MkF12 { d12x : F6; d12y : F6 }.
Definition w12 (a : F12) : K12 := mk12 (w6 (d12x a)) (w6 (d12y a)).
Definition f6zero : F6 := MkF6 f2zero f2zero f2zero.
Definition f6one : F6 := MkF6 f2zero f2zero f2one.
Definition f12one : F12 := MkF12 f6zero f6one.
Definition f12mul (a b : F12) : F12 :=
  let v := f6mul (d12x a) (d12x b) in
  let w := f6mul (d12y a) (d12y b) in
  let s := f6mul (f6add (d12x a) (d12y a)) (f6add (d12x b) (d12y b)) in
  MkF12 (f6sub s (f6add v w)) (f6add w (f6tau v)).
Definition f12sq (a : F12) : F12 :=
  let v := f6mul (d12x a) (d12y a) in
  let t := f6add (f6tau (d12x a)) (d12y a) in
  let t := f6mul (f6add (d12x a) (d12y a)) t in
  MkF12 (f6add v v) (f6sub t (f6add v (f6tau v))).
Definition f12conj (a : F12) : F12 := MkF12 (f6neg (d12x a)) (d12y a).
Definition f12frob (a : F12) : F12 := MkF12 (f6scal (f6frob (d12x a)) c_xp6) (f6frob (d12y a)).
Definition f12frob2 (a : F12) : F12 := MkF12 (f6gfp (f6frob2 (d12x a)) c_s6) (f6frob2 (d12y a)).
Lemma w6_0 : w6 f6zero = 0. Proof. rewrite /w6 /= w2_0. exact: mk6_0. Qed.
Lemma w6_1 : w6 f6one = 1. Proof. rewrite /w6 /= w2_0 w2_1. exact: mk6_1. Qed.
Lemma w12_1 : w12 f12one = 1. Proof. by rewrite /w12 /= w6_0 w6_1 mk12_1. Qed.
Lemma w12_mul a b : w12 (f12mul a b) = w12 a * w12 b.
Proof. rewrite /w12 mk12M /= !w6s. by congr mk12; mcfr K6. Qed.
Lemma w12_sq a : w12 (f12sq a) = w12 a * w12 a.
Proof. rewrite /w12 mk12M /= !w6s. by congr mk12; mcfr K6. Qed.
Lemma w12_parts t a : w12 t = v12 a -> w6 (d12x t) = v6 (c12x a) /\ w6 (d12y t) = v6 (c12y a).
Proof. rewrite /w12 v12E. exact: mk12_inj. Qed.
Lemma w12_Mul t s a b : w12 t = v12 a -> w12 s = v12 b -> w12 (f12mul t s) = v12 (gfP12_Mul a b).
Proof. by move=> A B; rewrite w12_mul v12_Mul A B. Qed.
Lemma w12_Square t a : w12 t = v12 a -> w12 (f12sq t) = v12 (gfP12_Square a).
Proof. by move=> A; rewrite w12_sq v12_Square A. Qed.
Lemma w12_Conj t a : w12 t = v12 a -> w12 (f12conj t) = v12 (gfP12_Conjugate a).
Proof. move/w12_parts => [X Y]. by rewrite v12E /w12 /= w6_neg v6_Negative X Y. Qed.
Lemma w12_Frob t a : w12 t = v12 a -> w12 (f12frob t) = v12 (gfP12_Frobenius a).
Proof.
move/w12_parts => [X Y]. rewrite v12E /w12 /= w6_scal v6_MulScalar (w6_frob X) (w6_frob Y) c_xp6E. by [].
Qed.
Lemma w12_Frob2 t a : w12 t = v12 a -> w12 (f12frob2 t) = v12 (gfP12_FrobeniusP2 a).
Proof.
move/w12_parts => [X Y]. rewrite v12E /w12 /= (w6_frob2 Y) (@w6_gfp _ _ _ xiToPSquaredMinus1Over6 (w6_frob2 X)) //.
Qed.
Definition f12exp (a : F12) (power : Z) : F12 :=
  bit_loop (fun sum i => let t := f12sq sum in if Bit power i then f12mul t a else t) (Z.to_nat (BitLen power)) f12one.
Lemma bit_loop_rel A B (R : A -> B -> Prop) f g n : (forall a b i, R a b -> R (f a i) (g b i)) ->
  forall a b, R a b -> R (bit_loop f n a) (bit_loop g n b).
Proof. move=> S. elim: n => [|n IH] a b //=. move=> H. apply: IH. exact: S. Qed.
Lemma w12_Exp t a k : w12 t = v12 a -> w12 (f12exp t k) = v12 (gfP12_Exp a k).
Proof.
move=> E. apply: (@bit_loop_rel _ _ (fun t a => w12 t = v12 a)); last by rewrite w12_1 v12_One.
move=> s b i H /=. case: (Bit k i); last exact: w12_Square. apply: w12_Mul => //. exact: w12_Square.
Qed.

(** ** optate.go *)
Record FP : Type := MkFP { ex : F2; ey : F2; ez : F2; et : F2 }.
Record FL : Type := MkFL { la : F2; lb : F2; lc : F2 }.
Definition relP (t : FP) (p : twistPoint) : Prop :=
  [/\ w2 (ex t) = v2 (tpx p), w2 (ey t) = v2 (tpy p), w2 (ez t) = v2 (tpz p) & w2 (et t) = v2 (tpt p)].
Definition relL (t : FL) (l : line) : Prop :=
  [/\ w2 (la t) = v2 (ln_a l), w2 (lb t) = v2 (ln_b l) & w2 (lc t) = v2 (ln_c l)].
Definition f_lineAdd (r p : FP) (qx qy : T) (r2 : F2) : FL * FP :=
  let B := f2mul (ex p) (et r) in
  let D := f2sq (f2add (ey p) (ez r)) in
  let D := f2sub (f2sub D r2) (et r) in
  let D := f2mul D (et r) in
  let H := f2sub B (ex r) in
  let I := f2sq H in
  let E := f2add I I in
  let E := f2add E E in
  let J := f2mul H E in
  let L1 := f2sub (f2sub D (ey r)) (ey r) in
  let V := f2mul (ex r) E in
  let ox := f2sub (f2sub (f2sub (f2sq L1) J) V) V in
  let oz := f2sq (f2add (ez r) H) in
  let oz := f2sub (f2sub oz (et r)) I in
  let t := f2mul (f2sub V ox) L1 in
  let t2 := f2mul (ey r) J in
  let t2 := f2add t2 t2 in
  let oy := f2sub t t2 in
  let ot := f2sq oz in
  let t := f2sq (f2add (ey p) oz) in
  let t := f2sub (f2sub t r2) ot in
  let t2 := f2mul L1 (ex p) in
  let t2 := f2add t2 t2 in
  let a := f2sub t2 t in
  let c := f2scal oz qy in
  let c := f2add c c in
  let b := f2scal (f2sub f2zero L1) qx in
  let b := f2add b b in
  (MkFL a b c, MkFP ox oy oz ot).
Definition f_lineDouble (r : FP) (qx qy : T) : FL * FP :=
  let A := f2sq (ex r) in
  let B := f2sq (ey r) in
  let C_ := f2sq B in
  let D := f2sq (f2add (ex r) B) in
  let D := f2sub (f2sub D A) C_ in
  let D := f2add D D in
  let E := f2add (f2add A A) A in
  let G := f2sq E in
  let ox := f2sub (f2sub G D) D in
  let oz := f2sq (f2add (ey r) (ez r)) in
  let oz := f2sub (f2sub oz B) (et r) in
  let oy := f2mul (f2sub D ox) E in
  let t := f2add C_ C_ in
  let t := f2add t t in
  let t := f2add t t in
  let oy := f2sub oy t in
  let ot := f2sq oz in
  let t := f2mul E (et r) in
  let t := f2add t t in
  let b := f2scal (f2sub f2zero t) qx in
  let a := f2sq (f2add (ex r) E) in
  let a := f2sub (f2sub a A) G in
  let t := f2add B B in
  let t := f2add t t in
  let a := f2sub a t in
  let c := f2mul oz (et r) in
  let c := f2add c c in
  let c := f2scal c qy in
  (MkFL a b c, MkFP ox oy oz ot).
Definition f_mulLine (ret : F12) (l : FL) : F12 :=
  let a2 := f6mul (MkF6 f2zero (la l) (lb l)) (d12x ret) in
  let t3 := f6scal (d12y ret) (lc l) in
  let t2 := MkF6 f2zero (la l) (f2add (lb l) (lc l)) in
  let rx := f6mul (f6add (d12x ret) (d12y ret)) t2 in
  let rx := f6sub rx (f6add a2 t3) in
  MkF12 rx (f6add t3 (f6tau a2)).
Lemma w2_Scal t a s k : w2 t = v2 a -> tv s = ph k -> w2 (f2scal t s) = v2 a * mk2 0 (ph k).
Proof. move=> A B. by rewrite (w2_scal A B) v2_MulScalar. Qed.
Lemma w2_scl t s k : tv s = ph k -> w2 (f2scal t s) = w2 t * mk2 0 (ph k).
Proof. move=> B. rewrite /w2 mk2M /= !tvs B. by congr mk2; mcfr K1. Qed.
Lemma rel_lineAdd r p qx qy r2 r' p' q r2' : relP r r' -> relP p p' -> tv qx = ph (cpx q) -> tv qy = ph (cpy q) ->
  w2 r2 = v2 r2' ->
  relL (f_lineAdd r p qx qy r2).1 (lineFunctionAdd r' p' q r2').1 /\
  relP (f_lineAdd r p qx qy r2).2 (lineFunctionAdd r' p' q r2').2.
Proof.
move=> [X Y Z W] [X' Y' Z' W'] QX QY R.
rewrite /relL /relP /f_lineAdd /lineFunctionAdd; cbv zeta; cbn [fst snd la lb lc ex ey ez et ln_a ln_b ln_c tpx tpy tpz tpt].
rewrite !(v2_MulScalar, v2_Mul, v2_Square, v2_Add, v2_Sub, v2_Zero) !(w2_scl _ QX, w2_scl _ QY, w2_mul, w2_sq, w2_add, w2_sub, w2_0).
by rewrite X Y Z W X' Y' R.
Qed.
Lemma rel_lineDouble r qx qy r' q : relP r r' -> tv qx = ph (cpx q) -> tv qy = ph (cpy q) ->
  relL (f_lineDouble r qx qy).1 (lineFunctionDouble r' q).1 /\
  relP (f_lineDouble r qx qy).2 (lineFunctionDouble r' q).2.
Proof.
move=> [X Y Z W] QX QY.
rewrite /relL /relP /f_lineDouble /lineFunctionDouble; cbv zeta; cbn [fst snd la lb lc ex ey ez et ln_a ln_b ln_c tpx tpy tpz tpt].
rewrite !(v2_MulScalar, v2_Mul, v2_Square, v2_Add, v2_Sub, v2_Zero) !(w2_scl _ QX, w2_scl _ QY, w2_mul, w2_sq, w2_add, w2_sub, w2_0).
by rewrite X Y Z W.
Qed.
Lemma rel_mulLine t l t' l' : w12 t = v12 t' -> relL l l' -> w12 (f_mulLine t l) = v12 (mulLine t' l').
Proof.
move/w12_parts => [X Y] [A B C].
rewrite /f_mulLine /mulLine v12E /w12; cbv zeta; cbn [d12x d12y c12x c12y].
have Z0 : w2 f2zero = v2 gfP2_Zero by rewrite w2_0 v2_Zero.
have E1 : w6 (MkF6 f2zero (la l) (lb l)) = v6 (GfP6 gfP2_Zero (ln_a l') (ln_b l')) by rewrite /w6 v6E /= Z0 A B.
have E2 : w6 (MkF6 f2zero (la l) (f2add (lb l) (lc l))) = v6 (GfP6 gfP2_Zero (ln_a l') (gfP2_Add (ln_b l') (ln_c l'))).
  by rewrite /w6 v6E /= Z0 A w2_add v2_Add B C.
rewrite !(v6_Sub, v6_Add, v6_Mul, v6_MulTau, v6_MulScalar) !(w6_sub, w6_add, w6_mul, w6_tau, w6_scal) E1 E2 X Y C.
by congr mk12; mcfr K6.
Qed.
Definition f_millerAdd (a ma : FP) (qx qy : T) (r2 : F2) (d : Z) (st : F12 * FP) : F12 * FP :=
  let '(ret, r) := st in
  if (d =? 1)%Z then let '(l, newR) := f_lineAdd r a qx qy r2 in (f_mulLine ret l, newR)
  else if (d =? -1)%Z then let '(l, newR) := f_lineAdd r ma qx qy r2 in (f_mulLine ret l, newR)
  else (ret, r).
Fixpoint f_loop (a ma : FP) (qx qy : T) (r2 : F2) (first : bool) (digits : list Z) (st : F12 * FP) : F12 * FP :=
  match digits with
  | nil => st
  | (d :: digits')%list =>
      let '(ret, r) := st in
      let '(l, newR) := f_lineDouble r qx qy in
      let ret := if first then ret else f12sq ret in
      let ret := f_mulLine ret l in
      f_loop a ma qx qy r2 false digits' (f_millerAdd a ma qx qy r2 d (ret, newR))
  end.
Definition relS (s : F12 * FP) (s' : gfP12 * twistPoint) : Prop := w12 s.1 = v12 s'.1 /\ relP s.2 s'.2.
Section Loop.
Variables (a ma : FP) (qx qy : T) (r2 : F2) (a' ma' : twistPoint) (q : curvePoint) (r2' : gfP2).
Hypotheses (Ha : relP a a') (Hm : relP ma ma') (Hx : tv qx = ph (cpx q)) (Hy : tv qy = ph (cpy q)) (Hr : w2 r2 = v2 r2').
Lemma rel_millerAdd d s s' : relS s s' -> relS (f_millerAdd a ma qx qy r2 d s) (miller_add a' ma' q r2' d s').
Proof.
case: s s' => [ret r] [ret' r'] [E R]. cbn [fst snd] in E, R. rewrite /f_millerAdd /miller_add.
have [L1 P1] := rel_lineAdd R Ha Hx Hy Hr. have [L2 P2] := rel_lineAdd R Hm Hx Hy Hr.
case: (d =? 1)%Z; last case: (d =? -1)%Z => //.
- case: (f_lineAdd r a qx qy r2) (lineFunctionAdd r' a' q r2') L1 P1 => [l n] [l' n'] L P; cbn [fst snd] in L, P. split; [exact (rel_mulLine E L)|exact P].
- case: (f_lineAdd r ma qx qy r2) (lineFunctionAdd r' ma' q r2') L2 P2 => [l n] [l' n'] L P; cbn [fst snd] in L, P. split; [exact (rel_mulLine E L)|exact P].
Qed.
Lemma rel_loop ds : forall first s s', relS s s' -> relS (f_loop a ma qx qy r2 first ds s) (miller_loop a' ma' q r2' first ds s').
Proof.
elim: ds => [|d ds IH] first [ret r] [ret' r'] // [E R]. cbn [fst snd] in E, R. cbn [f_loop miller_loop].
have [L P] := rel_lineDouble R Hx Hy.
case: (f_lineDouble r qx qy) (lineFunctionDouble r' q) L P => [l n] [l' n'] L P; cbn [fst snd] in L, P.
apply: IH. apply: rel_millerAdd. split; last exact: P. refine (rel_mulLine _ L). case: first => //. exact: w12_Square.
Qed.
End Loop.
Definition f_miller (a ma : FP) (qx qy : T) : F12 :=
  let r2 := f2sq (ey a) in
  let '(ret, r) := f_loop a ma qx qy r2 true miller_digits (f12one, a) in
  let q1 := MkFP (f2mul (f2conj (ex a)) c_xp3) (f2mul (f2conj (ey a)) c_xp2) f2one f2one in
  let mq2 := MkFP (f2scal (ex a) c_s1) (ey a) f2one f2one in
  let '(l, r) := f_lineAdd r q1 qx qy (f2sq (ey q1)) in
  let ret := f_mulLine ret l in
  let '(l, r) := f_lineAdd r mq2 qx qy (f2sq (ey mq2)) in
  f_mulLine ret l.
Lemma rel_miller a ma qx qy a' q : relP a a' -> relP ma (tp_Negative a') -> tv qx = ph (cpx q) -> tv qy = ph (cpy q) ->
  w12 (f_miller a ma qx qy) = v12 (miller_affine a' q).1.
Proof.
move=> Ha Hm Hx Hy. have [X Y Z W] := Ha.
have S2 t b : w2 t = v2 b -> w2 (f2sq t) = v2 (gfP2_Square b) by move=> E; rewrite w2_sq v2_Square E.
have O : w12 f12one = v12 gfP12_One by rewrite w12_1 v12_One.
have U : w2 f2one = v2 gfP2_One by rewrite w2_1 v2_One.
have L : relS (f_loop a ma qx qy (f2sq (ey a)) true miller_digits (f12one, a))
   (miller_loop a' (tp_Negative a') q (gfP2_Square (tpy a')) true miller_digits (gfP12_One, a')).
  by apply: rel_loop => //; apply: S2.
rewrite /f_miller /miller_affine. cbv zeta.
case: (f_loop _ _ _ _ _ _ _ _) (miller_loop _ _ _ _ _ _ _) L => [ret r] [ret' r'] [E R]. cbn [fst snd] in E, R.
set q1 := MkFP _ _ _ _. set mq2 := MkFP _ _ _ _.
have Q1 : relP q1 (miller_q1 a').
  by split; rewrite /q1 /= ?w2_mul ?v2_Mul ?c_xp3E ?c_xp2E ?(w2_conj X) ?(w2_conj Y).
have Q2 : relP mq2 (miller_minusQ2 a').
  split; rewrite /mq2 /= ?Y //. exact: w2_scal.
have [_ Y1 _ _] := Q1. have [_ Y2 _ _] := Q2.
have [L1 P1] := rel_lineAdd R Q1 Hx Hy (S2 _ _ Y1).
move: L1 P1.
case: (f_lineAdd r q1 qx qy _) (lineFunctionAdd r' _ q _) => [l n] [l' n'] L1 P1; cbn [fst snd] in L1, P1.
have [L2 _] := rel_lineAdd P1 Q2 Hx Hy (S2 _ _ Y2).
move: L2.
case: (f_lineAdd n mq2 qx qy _) (lineFunctionAdd n' _ q _) => [k m] [k' m'] L2; cbn [fst snd] in L2.
exact (rel_mulLine (rel_mulLine E L1) L2).
Qed.
(** the final exponentiation, given the inverse *)
Definition f_final (i inv : F12) : F12 :=
  let t1 := f12mul (f12conj i) inv in
  let t1 := f12mul t1 (f12frob2 t1) in
  let fp := f12frob t1 in
  let fp2 := f12frob2 t1 in
  let fp3 := f12frob fp2 in
  let fu := f12exp t1 bn_u in
  let fu2 := f12exp fu bn_u in
  let fu3 := f12exp fu2 bn_u in
  let y3 := f12frob fu in
  let fu2p := f12frob fu2 in
  let fu3p := f12frob fu3 in
  let y2 := f12frob2 fu2 in
  let y0 := f12mul (f12mul fp fp2) fp3 in
  let y1 := f12conj t1 in
  let y5 := f12conj fu2 in
  let y3 := f12conj y3 in
  let y4 := f12conj (f12mul fu fu2p) in
  let y6 := f12conj (f12mul fu3 fu3p) in
  let t0 := f12mul (f12mul (f12sq y6) y4) y5 in
  let t1 := f12mul (f12mul y3 y5) t0 in
  let t0 := f12mul t0 y2 in
  let t1 := f12sq (f12mul (f12sq t1) t0) in
  let t0 := f12sq (f12mul t1 y1) in
  let t1 := f12mul t1 y0 in
  f12mul t0 t1.
Lemma rel_final i inv i' : w12 i = v12 i' -> w12 inv = v12 (gfP12_Invert i') ->
  w12 (f_final i inv) = v12 (finalExponentiation i').
Proof.
move=> E V.
have T1 := w12_Mul (w12_Conj E) V.
have T2 := w12_Mul T1 (w12_Frob2 T1).
have Fp := w12_Frob T2. have Fp2 := w12_Frob2 T2. have Fp3 := w12_Frob Fp2.
have Fu := w12_Exp bn_u T2. have Fu2 := w12_Exp bn_u Fu. have Fu3 := w12_Exp bn_u Fu2.
have Y0 := w12_Mul (w12_Mul Fp Fp2) Fp3.
have Y1 := w12_Conj T2. have Y5 := w12_Conj Fu2. have Y3 := w12_Conj (w12_Frob Fu).
have Y4 := w12_Conj (w12_Mul Fu (w12_Frob Fu2)).
have Y6 := w12_Conj (w12_Mul Fu3 (w12_Frob Fu3)).
have T0 := w12_Mul (w12_Mul (w12_Square Y6) Y4) Y5.
have T3 := w12_Mul (w12_Mul Y3 Y5) T0.
have T4 := w12_Mul T0 (w12_Frob2 Fu2).
have T5 := w12_Square (w12_Mul (w12_Square T3) T4).
have T6 := w12_Square (w12_Mul T5 Y1).
exact (w12_Mul T6 (w12_Mul T5 Y0)).
Qed.
End Tower.
