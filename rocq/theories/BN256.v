(** * Model of crypto/bn256: the field tower, the two curves, the pairing and
    the exported API.

    A Go object is modelled by its content.  A method [e.F(a, b)] is a function
    of the contents of [a] and [b] giving the new content of the receiver [e];
    the receiver's old content is an argument where some of it survives.  The
    functions are written for the case in which the receiver may be one of the
    operands, except where the code itself depends on it: [cp_Double],
    [tp_Double] and [tp_Negative] (receiver distinct from the operand) against
    [cp_DoubleSelf], [tp_DoubleSelf] and [tp_NegativeSelf] (receiver equal to the
    operand), and the functions calling them.  The file BNHeap.v has the same functions as programs over memory
    cells and the scratch pool; BNHeapProofs.v proves that they compute what is
    defined here, for each aliasing of the arguments.

    Integers are the values of big.Int objects, unreduced wherever the code
    leaves them unreduced. *)
From Coq Require Import ZArith List Bool.
From Verif Require Import Base BB.
Import ListNotations.
Open Scope Z_scope.

(** ** constants.go *)
(** constants.go:25, u *)
Definition bn_u : Z := 4965661367192848881.
(** constants.go:28, P *)
Definition bn_P : Z := 21888242871839275222246405745257275088696311157297823662689037894645226208583.
(* Order (constants.go:31) is [bnOrder], BB.v *)

(** ** gfp2.go *)
(** gfp2.go:30-32: the element x i + y *)
Record gfP2 : Type := GfP2 { c2x : Z; c2y : Z }.

(** gfp2.go:55-65, SetZero, SetOne *)
Definition gfP2_Zero : gfP2 := GfP2 0 0.
Definition gfP2_One : gfP2 := GfP2 0 1.
(** gfp2.go:67-74, Minimal *)
Definition big_Minimal (x : Z) : Z := if (x <? 0) || (bn_P <=? x) then bmod x bn_P else x.
Definition gfP2_Minimal (e : gfP2) : gfP2 := GfP2 (big_Minimal (c2x e)) (big_Minimal (c2y e)).
(** gfp2.go:76-78, IsZero *)
Definition gfP2_IsZero (e : gfP2) : bool := (c2x e =? 0) && (c2y e =? 0).
(** [words := z.Bits(); len(words) == 1 && words[0] == 1]: Bits is the absolute value *)
Definition big_IsOneWord (z : Z) : bool := Z.abs z =? 1.
(** gfp2.go:80-86, IsOne *)
Definition gfP2_IsOne (e : gfP2) : bool :=
  if negb (c2x e =? 0) then false else big_IsOneWord (c2y e).
(** gfp2.go:88-92, Conjugate *)
Definition gfP2_Conjugate (a : gfP2) : gfP2 := GfP2 (- c2x a) (c2y a).
(** gfp2.go:94-98, Negative *)
Definition gfP2_Negative (a : gfP2) : gfP2 := GfP2 (- c2x a) (- c2y a).
(** gfp2.go:100-104, Add *)
Definition gfP2_Add (a b : gfP2) : gfP2 := GfP2 (c2x a + c2x b) (c2y a + c2y b).
(** gfp2.go:106-110, Sub *)
Definition gfP2_Sub (a b : gfP2) : gfP2 := GfP2 (c2x a - c2x b) (c2y a - c2y b).
(** gfp2.go:112-116, Double *)
Definition gfP2_Double (a : gfP2) : gfP2 := GfP2 (2 * c2x a) (2 * c2y a).
(** gfp2.go:142-159, Mul *)
Definition gfP2_Mul (a b : gfP2) : gfP2 :=
  let tx := c2x a * c2y b in
  let t := c2x b * c2y a in
  let tx := tx + t in
  let tx := bmod tx bn_P in
  let ty := c2y a * c2y b in
  let t := c2x a * c2x b in
  let ty := ty - t in
  GfP2 tx (bmod ty bn_P).
(** gfp2.go:161-165, MulScalar *)
Definition gfP2_MulScalar (a : gfP2) (b : Z) : gfP2 := GfP2 (c2x a * b) (c2y a * b).
(** gfp2.go:168-185, MulXi *)
Definition gfP2_MulXi (a : gfP2) : gfP2 :=
  let tx := 8 * c2x a in
  let tx := tx + c2x a in
  let tx := tx + c2y a in
  let ty := 8 * c2y a in
  let ty := ty + c2y a in
  let ty := ty - c2x a in
  GfP2 tx ty.
(** gfp2.go:187-206, Square *)
Definition gfP2_Square (a : gfP2) : gfP2 :=
  let t1 := c2y a - c2x a in
  let t2 := c2x a + c2y a in
  let ty := t1 * t2 in
  let ty := bmod ty bn_P in
  let t1 := c2x a * c2y a in
  let t1 := 2 * t1 in
  GfP2 (bmod t1 bn_P) ty.
(** gfp2.go:208-232, Invert.  If the norm has no inverse, ModInverse leaves
    [inv] as the pool handed it out: [stale] is that value. *)
Definition gfP2_InvertStale (stale : Z) (a : gfP2) : gfP2 :=
  let t := c2y a * c2y a in
  let t2 := c2x a * c2x a in
  let t := t + t2 in
  let inv := match ModInverse t bn_P with Some i => i | None => stale end in
  let ex := - c2x a in
  let ex := ex * inv in
  let ey := c2y a * inv in
  GfP2 (bmod ex bn_P) (bmod ey bn_P).
(** with a new integer (BNHeapProofs.v shows that the stale value is irrelevant) *)
Definition gfP2_Invert (a : gfP2) : gfP2 := gfP2_InvertStale 0 a.

(** the loops [for i := n - 1; i >= 0; i--] (gfp2.go:123, gfp12.go:151) and
    [for i := n - 1; ...] with n = BitLen + 1 (curve.go:246, twist.go:222) *)
Fixpoint bit_loop {A} (step : A -> Z -> A) (n : nat) (s : A) : A :=
  match n with O => s | S n' => bit_loop step n' (step s (Z.of_nat n')) end.

(** gfp2.go:118-138, Exp *)
Definition gfP2_Exp (a : gfP2) (power : Z) : gfP2 :=
  bit_loop (fun sum i =>
    let t := gfP2_Square sum in
    if Bit power i then gfP2_Mul t a else t)
  (Z.to_nat (BitLen power)) gfP2_One.

(** ** constants.go: powers of xi *)
(** constants.go:34 *)
Definition xiToPMinus1Over6 : gfP2 := GfP2
  16469823323077808223889137241176536799009286646108169935659301613961712198316
  8376118865763821496583973867626364092589906065868298776909617916018768340080.
(** constants.go:37 *)
Definition xiToPMinus1Over3 : gfP2 := GfP2
  10307601595873709700152284273816112264069230130616436755625194854815875713954
  21575463638280843010398324269430826099269044274347216827212613867836435027261.
(** constants.go:40 *)
Definition xiToPMinus1Over2 : gfP2 := GfP2
  3505843767911556378687030309984248845540243509899259641013678093033130930403
  2821565182194536844548159561693502659359617185244120367078079554186484126554.
(** constants.go:43 *)
Definition xiToPSquaredMinus1Over3 : Z :=
  21888242871839275220042445260109153167277707414472061641714758635765020556616.
(** constants.go:46 *)
Definition xiTo2PSquaredMinus2Over3 : Z :=
  2203960485148121921418603742825762020974279258880205651966.
(** constants.go:49 *)
Definition xiToPSquaredMinus1Over6 : Z :=
  21888242871839275220042445260109153167277707414472061641714758635765020556617.
(** constants.go:52 *)
Definition xiTo2PMinus2Over3 : gfP2 := GfP2
  19937756971775647987995932169929341994314640652964949448313374472400716661030
  2581911344467009335267311115468803099551665605076196740867805258568234346338.

(** ** gfp6.go *)
(** gfp6.go:30-32: the element x tau^2 + y tau + z *)
Record gfP6 : Type := GfP6 { c6x : gfP2; c6y : gfP2; c6z : gfP2 }.

(** gfp6.go:55-67, SetZero, SetOne *)
Definition gfP6_Zero : gfP6 := GfP6 gfP2_Zero gfP2_Zero gfP2_Zero.
Definition gfP6_One : gfP6 := GfP6 gfP2_Zero gfP2_Zero gfP2_One.
(** gfp6.go:69-73, Minimal *)
Definition gfP6_Minimal (e : gfP6) : gfP6 :=
  GfP6 (gfP2_Minimal (c6x e)) (gfP2_Minimal (c6y e)) (gfP2_Minimal (c6z e)).
(** gfp6.go:75-81, IsZero, IsOne *)
Definition gfP6_IsZero (e : gfP6) : bool :=
  gfP2_IsZero (c6x e) && gfP2_IsZero (c6y e) && gfP2_IsZero (c6z e).
Definition gfP6_IsOne (e : gfP6) : bool :=
  gfP2_IsZero (c6x e) && gfP2_IsZero (c6y e) && gfP2_IsOne (c6z e).
(** gfp6.go:83-88, Negative *)
Definition gfP6_Negative (a : gfP6) : gfP6 :=
  GfP6 (gfP2_Negative (c6x a)) (gfP2_Negative (c6y a)) (gfP2_Negative (c6z a)).
(** gfp6.go:90-98, Frobenius *)
Definition gfP6_Frobenius (a : gfP6) : gfP6 :=
  let ex := gfP2_Conjugate (c6x a) in
  let ey := gfP2_Conjugate (c6y a) in
  let ez := gfP2_Conjugate (c6z a) in
  GfP6 (gfP2_Mul ex xiTo2PMinus2Over3) (gfP2_Mul ey xiToPMinus1Over3) ez.
(** gfp6.go:101-108, FrobeniusP2 *)
Definition gfP6_FrobeniusP2 (a : gfP6) : gfP6 :=
  GfP6 (gfP2_MulScalar (c6x a) xiTo2PSquaredMinus2Over3)
       (gfP2_MulScalar (c6y a) xiToPSquaredMinus1Over3)
       (c6z a).
(** gfp6.go:110-129, Add, Sub, Double *)
Definition gfP6_Add (a b : gfP6) : gfP6 :=
  GfP6 (gfP2_Add (c6x a) (c6x b)) (gfP2_Add (c6y a) (c6y b)) (gfP2_Add (c6z a) (c6z b)).
Definition gfP6_Sub (a b : gfP6) : gfP6 :=
  GfP6 (gfP2_Sub (c6x a) (c6x b)) (gfP2_Sub (c6y a) (c6y b)) (gfP2_Sub (c6z a) (c6z b)).
Definition gfP6_Double (a : gfP6) : gfP6 :=
  GfP6 (gfP2_Double (c6x a)) (gfP2_Double (c6y a)) (gfP2_Double (c6z a)).
(** gfp6.go:131-185, Mul *)
Definition gfP6_Mul (a b : gfP6) : gfP6 :=
  let v0 := gfP2_Mul (c6z a) (c6z b) in
  let v1 := gfP2_Mul (c6y a) (c6y b) in
  let v2 := gfP2_Mul (c6x a) (c6x b) in
  let t0 := gfP2_Add (c6x a) (c6y a) in
  let t1 := gfP2_Add (c6x b) (c6y b) in
  let tz := gfP2_Mul t0 t1 in
  let tz := gfP2_Sub tz v1 in
  let tz := gfP2_Sub tz v2 in
  let tz := gfP2_MulXi tz in
  let tz := gfP2_Add tz v0 in
  let t0 := gfP2_Add (c6y a) (c6z a) in
  let t1 := gfP2_Add (c6y b) (c6z b) in
  let ty := gfP2_Mul t0 t1 in
  let ty := gfP2_Sub ty v0 in
  let ty := gfP2_Sub ty v1 in
  let t0 := gfP2_MulXi v2 in
  let ty := gfP2_Add ty t0 in
  let t0 := gfP2_Add (c6x a) (c6z a) in
  let t1 := gfP2_Add (c6x b) (c6z b) in
  let tx := gfP2_Mul t0 t1 in
  let tx := gfP2_Sub tx v0 in
  let tx := gfP2_Add tx v1 in
  let tx := gfP2_Sub tx v2 in
  GfP6 tx ty tz.
(** gfp6.go:187-192, MulScalar *)
Definition gfP6_MulScalar (a : gfP6) (b : gfP2) : gfP6 :=
  GfP6 (gfP2_Mul (c6x a) b) (gfP2_Mul (c6y a) b) (gfP2_Mul (c6z a) b).
(** gfp6.go:194-199, MulGFP *)
Definition gfP6_MulGFP (a : gfP6) (b : Z) : gfP6 :=
  GfP6 (gfP2_MulScalar (c6x a) b) (gfP2_MulScalar (c6y a) b) (gfP2_MulScalar (c6z a) b).
(** gfp6.go:202-212, MulTau *)
Definition gfP6_MulTau (a : gfP6) : gfP6 :=
  let tz := gfP2_MulXi (c6x a) in
  let ty := c6y a in
  GfP6 ty (c6z a) tz.
(** gfp6.go:214-252, Square *)
Definition gfP6_Square (a : gfP6) : gfP6 :=
  let v0 := gfP2_Square (c6z a) in
  let v1 := gfP2_Square (c6y a) in
  let v2 := gfP2_Square (c6x a) in
  let c0 := gfP2_Add (c6x a) (c6y a) in
  let c0 := gfP2_Square c0 in
  let c0 := gfP2_Sub c0 v1 in
  let c0 := gfP2_Sub c0 v2 in
  let c0 := gfP2_MulXi c0 in
  let c0 := gfP2_Add c0 v0 in
  let c1 := gfP2_Add (c6y a) (c6z a) in
  let c1 := gfP2_Square c1 in
  let c1 := gfP2_Sub c1 v0 in
  let c1 := gfP2_Sub c1 v1 in
  let xiV2 := gfP2_MulXi v2 in
  let c1 := gfP2_Add c1 xiV2 in
  let c2 := gfP2_Add (c6x a) (c6z a) in
  let c2 := gfP2_Square c2 in
  let c2 := gfP2_Sub c2 v0 in
  let c2 := gfP2_Add c2 v1 in
  let c2 := gfP2_Sub c2 v2 in
  GfP6 c2 c1 c0.
(** gfp6.go:254-309, Invert *)
Definition gfP6_Invert (a : gfP6) : gfP6 :=
  let A := gfP2_Square (c6z a) in
  let t1 := gfP2_Mul (c6x a) (c6y a) in
  let t1 := gfP2_MulXi t1 in
  let A := gfP2_Sub A t1 in
  let B := gfP2_Square (c6x a) in
  let B := gfP2_MulXi B in
  let t1 := gfP2_Mul (c6y a) (c6z a) in
  let B := gfP2_Sub B t1 in
  let C_ := gfP2_Square (c6y a) in
  let t1 := gfP2_Mul (c6x a) (c6z a) in
  let C_ := gfP2_Sub C_ t1 in
  let F := gfP2_Mul C_ (c6y a) in
  let F := gfP2_MulXi F in
  let t1 := gfP2_Mul A (c6z a) in
  let F := gfP2_Add F t1 in
  let t1 := gfP2_Mul B (c6x a) in
  let t1 := gfP2_MulXi t1 in
  let F := gfP2_Add F t1 in
  let F := gfP2_Invert F in
  GfP6 (gfP2_Mul C_ F) (gfP2_Mul B F) (gfP2_Mul A F).

(** ** gfp12.go *)
(** gfp12.go:30-32: the element x omega + y *)
Record gfP12 : Type := GfP12 { c12x : gfP6; c12y : gfP6 }.

(** gfp12.go:53-63, SetZero, SetOne *)
Definition gfP12_Zero : gfP12 := GfP12 gfP6_Zero gfP6_Zero.
Definition gfP12_One : gfP12 := GfP12 gfP6_Zero gfP6_One.
(** gfp12.go:65-68, Minimal *)
Definition gfP12_Minimal (e : gfP12) : gfP12 := GfP12 (gfP6_Minimal (c12x e)) (gfP6_Minimal (c12y e)).
(** gfp12.go:70-78, IsZero, IsOne: they also replace the receiver by its
    [gfP12_Minimal] *)
Definition gfP12_IsZero (e : gfP12) : bool :=
  let e := gfP12_Minimal e in gfP6_IsZero (c12x e) && gfP6_IsZero (c12y e).
Definition gfP12_IsOne (e : gfP12) : bool :=
  let e := gfP12_Minimal e in gfP6_IsZero (c12x e) && gfP6_IsOne (c12y e).
(** gfp12.go:80-84, Conjugate: the new content of the receiver (the method
    returns its argument) *)
Definition gfP12_Conjugate (a : gfP12) : gfP12 := GfP12 (gfP6_Negative (c12x a)) (c12y a).
(** gfp12.go:86-90, Negative *)
Definition gfP12_Negative (a : gfP12) : gfP12 := GfP12 (gfP6_Negative (c12x a)) (gfP6_Negative (c12y a)).
(** gfp12.go:93-98, Frobenius *)
Definition gfP12_Frobenius (a : gfP12) : gfP12 :=
  let ex := gfP6_Frobenius (c12x a) in
  let ey := gfP6_Frobenius (c12y a) in
  GfP12 (gfP6_MulScalar ex xiToPMinus1Over6) ey.
(** gfp12.go:101-106, FrobeniusP2 *)
Definition gfP12_FrobeniusP2 (a : gfP12) : gfP12 :=
  let ex := gfP6_FrobeniusP2 (c12x a) in
  let ex := gfP6_MulGFP ex xiToPSquaredMinus1Over6 in
  GfP12 ex (gfP6_FrobeniusP2 (c12y a)).
(** gfp12.go:108-118, Add, Sub *)
Definition gfP12_Add (a b : gfP12) : gfP12 := GfP12 (gfP6_Add (c12x a) (c12x b)) (gfP6_Add (c12y a) (c12y b)).
Definition gfP12_Sub (a b : gfP12) : gfP12 := GfP12 (gfP6_Sub (c12x a) (c12x b)) (gfP6_Sub (c12y a) (c12y b)).
(** gfp12.go:120-138, Mul *)
Definition gfP12_Mul (a b : gfP12) : gfP12 :=
  let tx := gfP6_Mul (c12x a) (c12y b) in
  let t := gfP6_Mul (c12x b) (c12y a) in
  let tx := gfP6_Add tx t in
  let ty := gfP6_Mul (c12y a) (c12y b) in
  let t := gfP6_Mul (c12x a) (c12x b) in
  let t := gfP6_MulTau t in
  GfP12 tx (gfP6_Add ty t).
(** gfp12.go:140-144, MulScalar: it multiplies the receiver [e]; its first
    argument is not used *)
Definition gfP12_MulScalar (e a : gfP12) (b : gfP6) : gfP12 :=
  GfP12 (gfP6_Mul (c12x e) b) (gfP6_Mul (c12y e) b).
(** gfp12.go:168-191, Square *)
Definition gfP12_Square (a : gfP12) : gfP12 :=
  let v0 := gfP6_Mul (c12x a) (c12y a) in
  let t := gfP6_MulTau (c12x a) in
  let t := gfP6_Add (c12y a) t in
  let ty := gfP6_Add (c12x a) (c12y a) in
  let ty := gfP6_Mul ty t in
  let ty := gfP6_Sub ty v0 in
  let t := gfP6_MulTau v0 in
  let ty := gfP6_Sub ty t in
  GfP12 (gfP6_Double v0) ty.
(** gfp12.go:146-166, Exp *)
Definition gfP12_Exp (a : gfP12) (power : Z) : gfP12 :=
  bit_loop (fun sum i =>
    let t := gfP12_Square sum in
    if Bit power i then gfP12_Mul t a else t)
  (Z.to_nat (BitLen power)) gfP12_One.
(** gfp12.go:193-213, Invert *)
Definition gfP12_Invert (a : gfP12) : gfP12 :=
  let t1 := gfP6_Square (c12x a) in
  let t2 := gfP6_Square (c12y a) in
  let t1 := gfP6_MulTau t1 in
  let t1 := gfP6_Sub t2 t1 in
  let t2 := gfP6_Invert t1 in
  let e := GfP12 (gfP6_Negative (c12x a)) (c12y a) in
  gfP12_MulScalar e e t2.

(** ** curve.go *)
(** curve.go:27-29: Jacobian coordinates, t = z^2 when valid *)
Record curvePoint : Type := CurvePoint { cpx : Z; cpy : Z; cpz : Z; cpt : Z }.
(** curve.go:41-48, newCurvePoint(nil) *)
Definition newCurvePoint : curvePoint := CurvePoint 0 0 0 0.
(** curve.go:31, curveB *)
Definition curveB : Z := 3.
(** curve.go:34-39, curveGen *)
Definition curveGen : curvePoint := CurvePoint 1 (-2) 1 1.
(** curve.go:70-80, IsOnCurve (the argument must be affine) *)
Definition cp_IsOnCurve (c : curvePoint) : bool :=
  let yy := cpy c * cpy c in
  let xxx := cpx c * cpx c in
  let xxx := xxx * cpx c in
  let yy := yy - xxx in
  let yy := yy - curveB in
  let yy := if (yy <? 0) || (bn_P <=? yy) then bmod yy bn_P else yy in
  yy =? 0.
(** curve.go:82-88, SetInfinity, IsInfinity *)
Definition cp_SetInfinity (c : curvePoint) : curvePoint := CurvePoint (cpx c) (cpy c) 0 (cpt c).
Definition cp_IsInfinity (c : curvePoint) : bool := cpz c =? 0.
(** curve.go:198-225: the part of Double that computes the new x and y *)
Definition cp_Double_xy (a : curvePoint) : Z * Z :=
  let A := cpx a * cpx a in
  let A := bmod A bn_P in
  let B := cpy a * cpy a in
  let B := bmod B bn_P in
  let C_ := B * B in
  let C_ := bmod C_ bn_P in
  let t := cpx a + B in
  let t2 := t * t in
  let t2 := bmod t2 bn_P in
  let t := t2 - A in
  let t2 := t - C_ in
  let d := t2 + t2 in
  let t := A + A in
  let e := t + A in
  let f := e * e in
  let f := bmod f bn_P in
  let t := d + d in
  let cx := f - t in
  let t := C_ + C_ in
  let t2 := t + t in
  let t := t2 + t2 in
  let cy := d - cx in
  let t2 := e * cy in
  let t2 := bmod t2 bn_P in
  let cy := t2 - t in
  (cx, cy).
(** curve.go:196-239, Double, for a receiver [c] that is not [a] *)
Definition cp_Double (c a : curvePoint) : curvePoint :=
  let '(cx, cy) := cp_Double_xy a in
  let t := cpy a * cpz a in
  let t := bmod t bn_P in
  CurvePoint cx cy (t + t) (cpt c).
(** the same with receiver [a]: line 227 reads the new a.y *)
Definition cp_DoubleSelf (a : curvePoint) : curvePoint :=
  let '(cx, cy) := cp_Double_xy a in
  let t := cy * cpz a in
  let t := bmod t bn_P in
  CurvePoint cx cy (t + t) (cpt a).
(** curve.go:90-194, Add into [c]; [dbl] is what line 145 computes *)
Definition cp_Add_with (dbl : curvePoint) (c a b : curvePoint) : curvePoint :=
  if cp_IsInfinity a then b else
  if cp_IsInfinity b then a else
  let z1z1 := cpz a * cpz a in
  let z1z1 := bmod z1z1 bn_P in
  let z2z2 := cpz b * cpz b in
  let z2z2 := bmod z2z2 bn_P in
  let u1 := cpx a * z2z2 in
  let u1 := bmod u1 bn_P in
  let u2 := cpx b * z1z1 in
  let u2 := bmod u2 bn_P in
  let t := cpz b * z2z2 in
  let t := bmod t bn_P in
  let s1 := cpy a * t in
  let s1 := bmod s1 bn_P in
  let t := cpz a * z1z1 in
  let t := bmod t bn_P in
  let s2 := cpy b * t in
  let s2 := bmod s2 bn_P in
  let h := u2 - u1 in
  let xEqual := h =? 0 in
  let t := h + h in
  let i := t * t in
  let i := bmod i bn_P in
  let j := h * i in
  let j := bmod j bn_P in
  let t := s2 - s1 in
  let yEqual := t =? 0 in
  if xEqual && yEqual then dbl else
  let r := t + t in
  let v := u1 * i in
  let v := bmod v bn_P in
  let t4 := r * r in
  let t4 := bmod t4 bn_P in
  let t := v + v in
  let t6 := t4 - j in
  let cx := t6 - t in
  let t := v - cx in
  let t4 := s1 * j in
  let t4 := bmod t4 bn_P in
  let t6 := t4 + t4 in
  let t4 := r * t in
  let t4 := bmod t4 bn_P in
  let cy := t4 - t6 in
  let t := cpz a + cpz b in
  let t4 := t * t in
  let t4 := bmod t4 bn_P in
  let t := t4 - z1z1 in
  let t4 := t - z2z2 in
  let cz := t4 * h in
  let cz := bmod cz bn_P in
  CurvePoint cx cy cz (cpt c).
(** receiver distinct from [a] (it may be [b]) *)
Definition cp_Add (c a b : curvePoint) : curvePoint := cp_Add_with (cp_Double c a) c a b.
(** a.Add(a, b) *)
Definition cp_AddTo (a b : curvePoint) : curvePoint := cp_Add_with (cp_DoubleSelf a) a a b.
(** curve.go:241-259, Mul: the pair is (sum, t) *)
Definition cp_Mul (a : curvePoint) (scalar : Z) : curvePoint :=
  fst (bit_loop (fun (st : curvePoint * curvePoint) i =>
    let '(sum, t) := st in
    let t := cp_Double t sum in
    if Bit scalar i then (cp_Add sum t a, t) else (t, t))
  (Z.to_nat (BitLen scalar + 1)) (cp_SetInfinity newCurvePoint, newCurvePoint)).
(** curve.go:261-292, MakeAffine.  [None]: ModInverse returned nil and line 275
    panics. *)
Definition cp_MakeAffine (c : curvePoint) : option curvePoint :=
  if big_IsOneWord (cpz c) then Some c else
  if cp_IsInfinity c then Some (CurvePoint 0 1 0 0) else
  match ModInverse (cpz c) bn_P with
  | None => None
  | Some zInv =>
      let t := cpy c * zInv in
      let t := bmod t bn_P in
      let zInv2 := zInv * zInv in
      let zInv2 := bmod zInv2 bn_P in
      let cy := t * zInv2 in
      let cy := bmod cy bn_P in
      let t := cpx c * zInv2 in
      let t := bmod t bn_P in
      Some (CurvePoint t cy 1 1)
  end.
(** curve.go:294-299, Negative *)
Definition cp_Negative (a : curvePoint) : curvePoint := CurvePoint (cpx a) (- cpy a) (cpz a) 0.

(** ** twist.go *)
(** twist.go:29-31 *)
Record twistPoint : Type := TwistPoint { tpx : gfP2; tpy : gfP2; tpz : gfP2; tpt : gfP2 }.
(** twist.go:58-65, newTwistPoint(nil) *)
Definition newTwistPoint : twistPoint := TwistPoint gfP2_Zero gfP2_Zero gfP2_Zero gfP2_Zero.
(** twist.go:33-36, twistB *)
Definition twistB : gfP2 := GfP2
  266929791119991161246907387137283842545076965332900288569378510910307636690
  19485874751759354771024239261021720505790618469301721065564631296452457478373.
(** twist.go:39-56, twistGen *)
Definition twistGen : twistPoint := TwistPoint
  (GfP2 11559732032986387107991004021392285783925812861821192530917403151452391805634
        10857046999023057135944570762232829481370756359578518086990519993285655852781)
  (GfP2 4082367875863433681332203403145435568316851327593401208105741076214120093531
        8495653923123431417604973247489272438418190587263600148770280649306958101930)
  (GfP2 0 1) (GfP2 0 1).
(** twist.go:86-95, IsOnCurve (the argument must be affine) *)
Definition tp_IsOnCurve (c : twistPoint) : bool :=
  let yy := gfP2_Square (tpy c) in
  let xxx := gfP2_Square (tpx c) in
  let xxx := gfP2_Mul xxx (tpx c) in
  let yy := gfP2_Sub yy xxx in
  let yy := gfP2_Sub yy twistB in
  let yy := gfP2_Minimal yy in
  (c2x yy =? 0) && (c2y yy =? 0).
(** twist.go:97-103, SetInfinity, IsInfinity *)
Definition tp_SetInfinity (c : twistPoint) : twistPoint := TwistPoint (tpx c) (tpy c) gfP2_Zero (tpt c).
Definition tp_IsInfinity (c : twistPoint) : bool := gfP2_IsZero (tpz c).
(** twist.go:181-202: the part of Double that computes the new x and y *)
Definition tp_Double_xy (a : twistPoint) : gfP2 * gfP2 :=
  let A := gfP2_Square (tpx a) in
  let B := gfP2_Square (tpy a) in
  let C_ := gfP2_Square B in
  let t := gfP2_Add (tpx a) B in
  let t2 := gfP2_Square t in
  let t := gfP2_Sub t2 A in
  let t2 := gfP2_Sub t C_ in
  let d := gfP2_Add t2 t2 in
  let t := gfP2_Add A A in
  let e := gfP2_Add t A in
  let f := gfP2_Square e in
  let t := gfP2_Add d d in
  let cx := gfP2_Sub f t in
  let t := gfP2_Add C_ C_ in
  let t2 := gfP2_Add t t in
  let t := gfP2_Add t2 t2 in
  let cy := gfP2_Sub d cx in
  let t2 := gfP2_Mul e cy in
  let cy := gfP2_Sub t2 t in
  (cx, cy).
(** twist.go:179-215, Double, for a receiver [c] that is not [a] *)
Definition tp_Double (c a : twistPoint) : twistPoint :=
  let '(cx, cy) := tp_Double_xy a in
  let t := gfP2_Mul (tpy a) (tpz a) in
  TwistPoint cx cy (gfP2_Add t t) (tpt c).
(** the same with receiver [a]: line 204 reads the new a.y *)
Definition tp_DoubleSelf (a : twistPoint) : twistPoint :=
  let '(cx, cy) := tp_Double_xy a in
  let t := gfP2_Mul cy (tpz a) in
  TwistPoint cx cy (gfP2_Add t t) (tpt a).
(** twist.go:105-177, Add into [c]; [dbl] is what line 139 computes *)
Definition tp_Add_with (dbl : twistPoint) (c a b : twistPoint) : twistPoint :=
  if tp_IsInfinity a then b else
  if tp_IsInfinity b then a else
  let z1z1 := gfP2_Square (tpz a) in
  let z2z2 := gfP2_Square (tpz b) in
  let u1 := gfP2_Mul (tpx a) z2z2 in
  let u2 := gfP2_Mul (tpx b) z1z1 in
  let t := gfP2_Mul (tpz b) z2z2 in
  let s1 := gfP2_Mul (tpy a) t in
  let t := gfP2_Mul (tpz a) z1z1 in
  let s2 := gfP2_Mul (tpy b) t in
  let h := gfP2_Sub u2 u1 in
  let xEqual := gfP2_IsZero h in
  let t := gfP2_Add h h in
  let i := gfP2_Square t in
  let j := gfP2_Mul h i in
  let t := gfP2_Sub s2 s1 in
  let yEqual := gfP2_IsZero t in
  if xEqual && yEqual then dbl else
  let r := gfP2_Add t t in
  let v := gfP2_Mul u1 i in
  let t4 := gfP2_Square r in
  let t := gfP2_Add v v in
  let t6 := gfP2_Sub t4 j in
  let cx := gfP2_Sub t6 t in
  let t := gfP2_Sub v cx in
  let t4 := gfP2_Mul s1 j in
  let t6 := gfP2_Add t4 t4 in
  let t4 := gfP2_Mul r t in
  let cy := gfP2_Sub t4 t6 in
  let t := gfP2_Add (tpz a) (tpz b) in
  let t4 := gfP2_Square t in
  let t := gfP2_Sub t4 z1z1 in
  let t4 := gfP2_Sub t z2z2 in
  let cz := gfP2_Mul t4 h in
  TwistPoint cx cy cz (tpt c).
(** receiver distinct from [a] (it may be [b]) *)
Definition tp_Add (c a b : twistPoint) : twistPoint := tp_Add_with (tp_Double c a) c a b.
(** a.Add(a, b) *)
Definition tp_AddTo (a b : twistPoint) : twistPoint := tp_Add_with (tp_DoubleSelf a) a a b.
(** twist.go:217-235, Mul: the pair is (sum, t) *)
Definition tp_Mul (a : twistPoint) (scalar : Z) : twistPoint :=
  fst (bit_loop (fun (st : twistPoint * twistPoint) i =>
    let '(sum, t) := st in
    let t := tp_Double t sum in
    if Bit scalar i then (tp_Add sum t a, t) else (t, t))
  (Z.to_nat (BitLen scalar + 1)) (tp_SetInfinity newTwistPoint, newTwistPoint)).
(** twist.go:237-256, MakeAffine *)
Definition tp_MakeAffine (c : twistPoint) : twistPoint :=
  if gfP2_IsOne (tpz c) then c else
  let zInv := gfP2_Invert (tpz c) in
  let t := gfP2_Mul (tpy c) zInv in
  let zInv2 := gfP2_Square zInv in
  let cy := gfP2_Mul t zInv2 in
  let t := gfP2_Mul (tpx c) zInv2 in
  TwistPoint t cy gfP2_One gfP2_One.
(** twist.go:258-264, Negative, for a receiver that is not [a] *)
Definition tp_Negative (a : twistPoint) : twistPoint :=
  TwistPoint (tpx a) (gfP2_Sub gfP2_Zero (tpy a)) (tpz a) gfP2_Zero.
(** the same with receiver [a]: line 260 has cleared a.y when line 261 reads it *)
Definition tp_NegativeSelf (a : twistPoint) : twistPoint :=
  TwistPoint (tpx a) (gfP2_Sub gfP2_Zero gfP2_Zero) (tpz a) gfP2_Zero.

(** ** optate.go *)
(** the three coefficients of a line *)
Record line : Type := Line { ln_a : gfP2; ln_b : gfP2; ln_c : gfP2 }.
(** optate.go:20-96, lineFunctionAdd *)
Definition lineFunctionAdd (r p : twistPoint) (q : curvePoint) (r2 : gfP2) : line * twistPoint :=
  let B := gfP2_Mul (tpx p) (tpt r) in
  let D := gfP2_Add (tpy p) (tpz r) in
  let D := gfP2_Square D in
  let D := gfP2_Sub D r2 in
  let D := gfP2_Sub D (tpt r) in
  let D := gfP2_Mul D (tpt r) in
  let H := gfP2_Sub B (tpx r) in
  let I := gfP2_Square H in
  let E := gfP2_Add I I in
  let E := gfP2_Add E E in
  let J := gfP2_Mul H E in
  let L1 := gfP2_Sub D (tpy r) in
  let L1 := gfP2_Sub L1 (tpy r) in
  let V := gfP2_Mul (tpx r) E in
  let ox := gfP2_Square L1 in
  let ox := gfP2_Sub ox J in
  let ox := gfP2_Sub ox V in
  let ox := gfP2_Sub ox V in
  let oz := gfP2_Add (tpz r) H in
  let oz := gfP2_Square oz in
  let oz := gfP2_Sub oz (tpt r) in
  let oz := gfP2_Sub oz I in
  let t := gfP2_Sub V ox in
  let t := gfP2_Mul t L1 in
  let t2 := gfP2_Mul (tpy r) J in
  let t2 := gfP2_Add t2 t2 in
  let oy := gfP2_Sub t t2 in
  let ot := gfP2_Square oz in
  let t := gfP2_Add (tpy p) oz in
  let t := gfP2_Square t in
  let t := gfP2_Sub t r2 in
  let t := gfP2_Sub t ot in
  let t2 := gfP2_Mul L1 (tpx p) in
  let t2 := gfP2_Add t2 t2 in
  let a := gfP2_Sub t2 t in
  let c := gfP2_MulScalar oz (cpy q) in
  let c := gfP2_Add c c in
  let b := gfP2_Sub gfP2_Zero L1 in
  let b := gfP2_MulScalar b (cpx q) in
  let b := gfP2_Add b b in
  (Line a b c, TwistPoint ox oy oz ot).
(** optate.go:98-165, lineFunctionDouble *)
Definition lineFunctionDouble (r : twistPoint) (q : curvePoint) : line * twistPoint :=
  let A := gfP2_Square (tpx r) in
  let B := gfP2_Square (tpy r) in
  let C_ := gfP2_Square B in
  let D := gfP2_Add (tpx r) B in
  let D := gfP2_Square D in
  let D := gfP2_Sub D A in
  let D := gfP2_Sub D C_ in
  let D := gfP2_Add D D in
  let E := gfP2_Add A A in
  let E := gfP2_Add E A in
  let G := gfP2_Square E in
  let ox := gfP2_Sub G D in
  let ox := gfP2_Sub ox D in
  let oz := gfP2_Add (tpy r) (tpz r) in
  let oz := gfP2_Square oz in
  let oz := gfP2_Sub oz B in
  let oz := gfP2_Sub oz (tpt r) in
  let oy := gfP2_Sub D ox in
  let oy := gfP2_Mul oy E in
  let t := gfP2_Add C_ C_ in
  let t := gfP2_Add t t in
  let t := gfP2_Add t t in
  let oy := gfP2_Sub oy t in
  let ot := gfP2_Square oz in
  let t := gfP2_Mul E (tpt r) in
  let t := gfP2_Add t t in
  let b := gfP2_Sub gfP2_Zero t in
  let b := gfP2_MulScalar b (cpx q) in
  let a := gfP2_Add (tpx r) E in
  let a := gfP2_Square a in
  let a := gfP2_Sub a A in
  let a := gfP2_Sub a G in
  let t := gfP2_Add B B in
  let t := gfP2_Add t t in
  let a := gfP2_Sub a t in
  let c := gfP2_Mul oz (tpt r) in
  let c := gfP2_Add c c in
  let c := gfP2_MulScalar c (cpy q) in
  (Line a b c, TwistPoint ox oy oz ot).
(** optate.go:167-195, mulLine *)
Definition mulLine (ret : gfP12) (l : line) : gfP12 :=
  let a2 := GfP6 gfP2_Zero (ln_a l) (ln_b l) in
  let a2 := gfP6_Mul a2 (c12x ret) in
  let t3 := gfP6_MulScalar (c12y ret) (ln_c l) in
  let t := gfP2_Add (ln_b l) (ln_c l) in
  let t2 := GfP6 gfP2_Zero (ln_a l) t in
  let rx := gfP6_Add (c12x ret) (c12y ret) in
  let ry := t3 in
  let rx := gfP6_Mul rx t2 in
  let rx := gfP6_Sub rx a2 in
  let rx := gfP6_Sub rx ry in
  let a2 := gfP6_MulTau a2 in
  let ry := gfP6_Add ry a2 in
  GfP12 rx ry.
(** optate.go:198-201, sixuPlus2NAF *)
Definition sixuPlus2NAF : list Z :=
  [0; 0; 0; 1; 0; 1; 0; -1; 0; 0; 1; -1; 0; 0; 1; 0;
   0; 1; 1; 0; -1; 0; 0; 1; 0; -1; 0; 0; 0; 0; 1; 1;
   1; 0; 0; -1; 0; 0; 1; 0; 0; 0; 0; 0; -1; 0; 0; 1;
   1; 0; 0; -1; 0; 0; 0; 1; 1; 0; -1; 0; 0; 1; 0; 1; 1].
(** the values of sixuPlus2NAF[i-1] for i = len-1, ..., 1 *)
Definition miller_digits : list Z := tl (rev sixuPlus2NAF).
(** optate.go:239-253, the second half of the loop body *)
Definition miller_add (aAffine minusA : twistPoint) (bAffine : curvePoint) (r2 : gfP2) (d : Z)
    (st : gfP12 * twistPoint) : gfP12 * twistPoint :=
  let '(ret, r) := st in
  if d =? 1 then let '(l, newR) := lineFunctionAdd r aAffine bAffine r2 in (mulLine ret l, newR)
  else if d =? -1 then let '(l, newR) := lineFunctionAdd r minusA bAffine r2 in (mulLine ret l, newR)
  else (ret, r).
(** optate.go:226-254, the loop; [first] says that i is len(sixuPlus2NAF)-1 *)
Fixpoint miller_loop (aAffine minusA : twistPoint) (bAffine : curvePoint) (r2 : gfP2) (first : bool)
    (digits : list Z) (st : gfP12 * twistPoint) : gfP12 * twistPoint :=
  match digits with
  | [] => st
  | d :: digits' =>
      let '(ret, r) := st in
      let '(l, newR) := lineFunctionDouble r bAffine in
      let ret := if first then ret else gfP12_Square ret in
      let ret := mulLine ret l in
      miller_loop aAffine minusA bAffine r2 false digits' (miller_add aAffine minusA bAffine r2 d (ret, newR))
  end.
(** optate.go:271-277, q1 *)
Definition miller_q1 (aAffine : twistPoint) : twistPoint :=
  TwistPoint (gfP2_Mul (gfP2_Conjugate (tpx aAffine)) xiToPMinus1Over3)
             (gfP2_Mul (gfP2_Conjugate (tpy aAffine)) xiToPMinus1Over2)
             gfP2_One gfP2_One.
(** optate.go:285-289, minusQ2 *)
Definition miller_minusQ2 (aAffine : twistPoint) : twistPoint :=
  TwistPoint (gfP2_MulScalar (tpx aAffine) xiToPSquaredMinus1Over3) (tpy aAffine) gfP2_One gfP2_One.
(** optate.go:206-307, from the affine arguments on: the final (ret, r) *)
Definition miller_affine (aAffine : twistPoint) (bAffine : curvePoint) : gfP12 * twistPoint :=
  let minusA := tp_Negative aAffine in
  let r2 := gfP2_Square (tpy aAffine) in
  let '(ret, r) := miller_loop aAffine minusA bAffine r2 true miller_digits (gfP12_One, aAffine) in
  let q1 := miller_q1 aAffine in
  let minusQ2 := miller_minusQ2 aAffine in
  let r2 := gfP2_Square (tpy q1) in
  let '(l, r) := lineFunctionAdd r q1 bAffine r2 in
  let ret := mulLine ret l in
  let r2 := gfP2_Square (tpy minusQ2) in
  let '(l, r) := lineFunctionAdd r minusQ2 bAffine r2 in
  let ret := mulLine ret l in
  (ret, r).
(** optate.go:205-316, miller *)
Definition miller (q : twistPoint) (p : curvePoint) : res gfP12 :=
  let aAffine := tp_MakeAffine q in
  match cp_MakeAffine p with
  | None => Panic
  | Some bAffine => Ok (fst (miller_affine aAffine bAffine))
  end.
(** optate.go:321-399, finalExponentiation *)
Definition finalExponentiation (i : gfP12) : gfP12 :=
  let t1 := GfP12 (gfP6_Negative (c12x i)) (c12y i) in
  let inv := gfP12_Invert i in
  let t1 := gfP12_Mul t1 inv in
  let t2 := gfP12_FrobeniusP2 t1 in
  let t1 := gfP12_Mul t1 t2 in
  let fp := gfP12_Frobenius t1 in
  let fp2 := gfP12_FrobeniusP2 t1 in
  let fp3 := gfP12_Frobenius fp2 in
  let fu := gfP12_Exp t1 bn_u in
  let fu2 := gfP12_Exp fu bn_u in
  let fu3 := gfP12_Exp fu2 bn_u in
  let y3 := gfP12_Frobenius fu in
  let fu2p := gfP12_Frobenius fu2 in
  let fu3p := gfP12_Frobenius fu3 in
  let y2 := gfP12_FrobeniusP2 fu2 in
  let y0 := gfP12_Mul fp fp2 in
  let y0 := gfP12_Mul y0 fp3 in
  let y1 := gfP12_Conjugate t1 in
  let y5 := gfP12_Conjugate fu2 in
  let y3 := gfP12_Conjugate y3 in
  let y4 := gfP12_Mul fu fu2p in
  let y4 := gfP12_Conjugate y4 in
  let y6 := gfP12_Mul fu3 fu3p in
  let y6 := gfP12_Conjugate y6 in
  let t0 := gfP12_Square y6 in
  let t0 := gfP12_Mul t0 y4 in
  let t0 := gfP12_Mul t0 y5 in
  let t1 := gfP12_Mul y3 y5 in
  let t1 := gfP12_Mul t1 t0 in
  let t0 := gfP12_Mul t0 y2 in
  let t1 := gfP12_Square t1 in
  let t1 := gfP12_Mul t1 t0 in
  let t1 := gfP12_Square t1 in
  let t0 := gfP12_Mul t1 y1 in
  let t1 := gfP12_Mul t1 y0 in
  let t0 := gfP12_Square t0 in
  gfP12_Mul t0 t1.
(** optate.go:401-410, optimalAte *)
Definition optimalAte (a : twistPoint) (b : curvePoint) : res gfP12 :=
  match miller a b with
  | Ok e =>
      let ret := finalExponentiation e in
      Ok (if tp_IsInfinity a || cp_IsInfinity b then gfP12_One else ret)
  | Err => Err
  | Panic => Panic
  end.

(** ** bn256.go: G1.  [e] is the old content of the receiver ([newCurvePoint]
    if it was nil). *)
(** bn256.go:79-83, SetInfinity *)
Definition G1SetInfinity : curvePoint := cp_SetInfinity newCurvePoint.
(** bn256.go:107-122, ScalarMult *)
Definition G1ScalarMult (e a : curvePoint) (k : Z) : curvePoint :=
  if 0 <=? k then
    if k =? 0 then cp_SetInfinity e else cp_Mul a k
  else cp_Negative (cp_Mul a (Z.abs k)).
(** bn256.go:88-103, ScalarBaseMult *)
Definition G1ScalarBaseMult (e : curvePoint) (k : Z) : curvePoint :=
  if 0 <=? k then
    if k =? 0 then cp_SetInfinity e else cp_Mul curveGen k
  else cp_Negative (cp_Mul curveGen (Z.abs k)).
(** bn256.go:126-132, Add: e distinct from a; [G1AddTo]: e is a *)
Definition G1Add (e a b : curvePoint) : curvePoint := cp_Add e a b.
Definition G1AddTo (a b : curvePoint) : curvePoint := cp_AddTo a b.
(** bn256.go:135-141, Neg *)
Definition G1Neg (a : curvePoint) : curvePoint := cp_Negative a.
(** bn256.go:387-389, IsZero *)
Definition G1IsZero (e : curvePoint) : bool := cp_IsInfinity e.
(** [ret := make([]byte, ...); copy(ret[(i+1)*32-len(b):], b)]: the i-th block
    of 32 bytes, for len(b) <= 32 *)
Definition block32 (b : list Z) : list Z := repeat 0 (32 - length b) ++ b.
(** bn256.go:144-158, Marshal: the bytes and the new content of the receiver *)
Definition G1Marshal (n : curvePoint) : option (list Z * curvePoint) :=
  match cp_MakeAffine n with
  | None => None
  | Some n => Some (block32 (Bytes (bmod (cpx n) bn_P)) ++ block32 (Bytes (bmod (cpy n) bn_P)), n)
  end.
(** bn256.go:69-71 and curve.go:50-53, String, without the constant text around
    the coordinates: the two coordinates in decimal, after MakeAffine *)
Definition G1String (n : curvePoint) : option (list Z * list Z) :=
  match cp_MakeAffine n with
  | None => None
  | Some n => Some (big_String (cpx n), big_String (cpy n))
  end.
(** m[i*numBytes : (i+1)*numBytes] *)
Definition slice32 (i : nat) (m : list Z) : list Z := firstn 32 (skipn (32 * i) m).
(** bn256.go:162-193, Unmarshal: [None] is (nil, false) *)
Definition G1Unmarshal (m : list Z) : option curvePoint :=
  if negb (Nat.eqb (length m) 64) then None else
  let x := SetBytes (slice32 0 m) in
  let y := SetBytes (slice32 1 m) in
  if ((x =? 0) && (y =? 0)) || ((x =? 0) && (y =? 1))
  then Some (CurvePoint x 1 0 0)
  else
    let p := CurvePoint x y 1 1 in
    if negb (cp_IsOnCurve p) then None else Some p.

(** ** bn256.go: G2 *)
(** bn256.go:230-234, SetInfinity *)
Definition G2SetInfinity : twistPoint := tp_SetInfinity newTwistPoint.
(** bn256.go:253-263, ScalarMult.  For a negative scalar Negative is called on
    e.p with the argument e.p, which Mul has returned. *)
Definition G2ScalarMult (a : twistPoint) (k : Z) : twistPoint :=
  if 0 <=? k then tp_Mul a k else tp_NegativeSelf (tp_Mul a (Z.abs k)).
(** bn256.go:239-249, ScalarBaseMult *)
Definition G2ScalarBaseMult (k : Z) : twistPoint :=
  if 0 <=? k then tp_Mul twistGen k else tp_NegativeSelf (tp_Mul twistGen (Z.abs k)).
(** bn256.go:267-273, Add: e distinct from a; [G2AddTo]: e is a *)
Definition G2Add (e a b : twistPoint) : twistPoint := tp_Add e a b.
Definition G2AddTo (a b : twistPoint) : twistPoint := tp_AddTo a b.
(** bn256.go:276-282, Neg: e distinct from a; [G2NegSelf]: e is a *)
Definition G2Neg (a : twistPoint) : twistPoint := tp_Negative a.
Definition G2NegSelf (a : twistPoint) : twistPoint := tp_NegativeSelf a.
(** bn256.go:392-394, IsZero *)
Definition G2IsZero (e : twistPoint) : bool := tp_IsInfinity e.
(** bn256.go:285-303, Marshal: the bytes and the new content of the receiver *)
Definition G2Marshal (n : twistPoint) : list Z * twistPoint :=
  let n := tp_MakeAffine n in
  let enc z := block32 (Bytes (bmod z bn_P)) in
  (enc (c2x (tpx n)) ++ enc (c2y (tpx n)) ++ enc (c2x (tpy n)) ++ enc (c2y (tpy n)), n).
(** gfp2.go:38-42 and twist.go:67-69, String: the coordinates as they are, mod P *)
Definition gfP2_String (e : gfP2) : list Z :=
  [40] ++ big_String (bmod (c2x e) bn_P) ++ [44] ++ big_String (bmod (c2y e) bn_P) ++ [41].
Definition G2String (n : twistPoint) : list Z :=
  [40] ++ gfP2_String (tpx n) ++ [44; 32] ++ gfP2_String (tpy n) ++ [44; 32] ++ gfP2_String (tpz n) ++ [41].
(** bn256.go:307-342, Unmarshal *)
Definition G2Unmarshal (m : list Z) : option twistPoint :=
  if negb (Nat.eqb (length m) 128) then None else
  let xx := SetBytes (slice32 0 m) in
  let xy := SetBytes (slice32 1 m) in
  let yx := SetBytes (slice32 2 m) in
  let yy := SetBytes (slice32 3 m) in
  if (xx =? 0) && (xy =? 0) && (yx =? 0) && (yy =? 0)
  then Some (TwistPoint (GfP2 xx xy) gfP2_One gfP2_Zero gfP2_Zero)
  else
    let p := TwistPoint (GfP2 xx xy) (GfP2 yx yy) gfP2_One gfP2_One in
    if negb (tp_IsOnCurve p) then None else Some p.

(** ** bn256.go: GT *)
(** bn256.go:355-361, ScalarMult *)
Definition GTScalarMult (a : gfP12) (k : Z) : gfP12 := gfP12_Exp a k.
(** bn256.go:373-379, Invert *)
Definition GTInvert (a : gfP12) : gfP12 := gfP12_Invert a.
(** bn256.go:363-371, Exp: (the new content of the argument, which is the
    returned object; the content of the receiver) *)
Definition GTExp (e a : gfP12) (k : Z) : gfP12 * gfP12 :=
  if 0 <=? k then (GTScalarMult a k, e)
  else (GTInvert (GTScalarMult a (Z.abs k)), e).
(** bn256.go:397-404, IsZero, IsOne *)
Definition GTIsZero (e : gfP12) : bool := gfP12_IsZero e.
Definition GTIsOne (e : gfP12) : bool := gfP12_IsOne e.
(** bn256.go:407-422, Add, Neg *)
Definition GTAdd (a b : gfP12) : gfP12 := gfP12_Mul a b.
Definition GTNeg (a : gfP12) : gfP12 := gfP12_Invert a.
(** the twelve integers in the order in which Marshal writes them *)
Definition coeffs6 (e : gfP6) : list Z :=
  [c2x (c6x e); c2y (c6x e); c2x (c6y e); c2y (c6y e); c2x (c6z e); c2y (c6z e)].
Definition coeffs12 (e : gfP12) : list Z := coeffs6 (c12x e) ++ coeffs6 (c12y e).
(** bn256.go:425-459, Marshal: the bytes (the receiver becomes its Minimal) *)
Definition GTMarshal (n : gfP12) : list Z :=
  let n := gfP12_Minimal n in
  flat_map (fun z => block32 (Bytes z)) (coeffs12 n).
(** bn256.go:463-489, Unmarshal *)
Definition GTUnmarshal (m : list Z) : option gfP12 :=
  if negb (Nat.eqb (length m) 384) then None else
  let c i := SetBytes (slice32 i m) in
  Some (GfP12 (GfP6 (GfP2 (c 0%nat) (c 1%nat)) (GfP2 (c 2%nat) (c 3%nat)) (GfP2 (c 4%nat) (c 5%nat)))
              (GfP6 (GfP2 (c 6%nat) (c 7%nat)) (GfP2 (c 8%nat) (c 9%nat)) (GfP2 (c 10%nat) (c 11%nat)))).
(** gfp6.go:38-40, gfp12.go:38-40, bn256.go:350-352, String without the text
    "bn256.GT" *)
Definition gfP6_String (e : gfP6) : list Z :=
  [40] ++ gfP2_String (c6x e) ++ [44] ++ gfP2_String (c6y e) ++ [44] ++ gfP2_String (c6z e) ++ [41].
Definition GTString (e : gfP12) : list Z :=
  [40] ++ gfP6_String (c12x e) ++ [44] ++ gfP6_String (c12y e) ++ [41].

(** ** bn256.go: pairing *)
(** bn256.go:492-494, Pair *)
Definition PairBN (g1 : curvePoint) (g2 : twistPoint) : res gfP12 := optimalAte g2 g1.
(** bn256.go:503-508, the loop of PairingCheck; b[i] panics if b is shorter *)
Fixpoint PairingCheck_loop (a : list curvePoint) (b : list twistPoint) (acc : gfP12) : res gfP12 :=
  match a with
  | [] => Ok acc
  | p :: a' =>
      match b with
      | [] => if cp_IsInfinity p then PairingCheck_loop a' b acc else Panic
      | q :: b' =>
          if cp_IsInfinity p || tp_IsInfinity q then PairingCheck_loop a' b' acc
          else match miller q p with
               | Ok m => PairingCheck_loop a' b' (gfP12_Mul acc m)
               | Err => Err
               | Panic => Panic
               end
      end
  end.
(** bn256.go:497-513, PairingCheck *)
Definition PairingCheck (a : list curvePoint) (b : list twistPoint) : res bool :=
  match PairingCheck_loop a b gfP12_One with
  | Ok acc => Ok (gfP12_IsOne (finalExponentiation acc))
  | Err => Err
  | Panic => Panic
  end.
