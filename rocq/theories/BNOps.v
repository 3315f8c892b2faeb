(** * The operations of crypto/bn256 as the packages above call them

    [bops] (BB.v) is the interface over which bb.go, ccs08.go and util.go are
    modelled.  [bn_ops] instantiates it with the model of the package itself
    (BN256.v). *)
From Coq Require Import ZArith List Bool.
From Verif Require Import Base BB BN256.
Import ListNotations.
Open Scope Z_scope.

(** bn256.go:69-71, 219-221, 350-352: the constant prefixes "bn256.G2" and
    "bn256.GT" *)
Definition bn_prefix (c : Z) : list Z := [98; 110; 50; 53; 54; 46] ++ [71; c].

(** bn256.go.  Simplifications: [bops] has no panics in Marshal and Pair.  Where
    the model of the package panics (only on G1 objects which no function of
    the package returns, C46), Marshal is the empty string and Pair is 1.
    ScalarBaseMult is applied to a new object, [new(bn256.G1)]. *)
Definition bn_ops : bops := {|
  tG1 := curvePoint; tG2 := twistPoint; tGT := gfP12;
  G1_ScalarBaseMult := G1ScalarBaseMult newCurvePoint;
  G1_AddTo := G1AddTo;
  G1_Marshal := fun n => match G1Marshal n with Some (m, _) => m | None => [] end;
  G1_Unmarshal := G1Unmarshal;
  G2_SetInfinity := G2SetInfinity;
  G2_ScalarBaseMult := G2ScalarBaseMult;
  G2_ScalarMult := G2ScalarMult;
  G2_AddTo := G2AddTo;
  G2_Marshal := fun n => fst (G2Marshal n);
  G2_Unmarshal := G2Unmarshal;
  G2_String := fun n => bn_prefix 50 ++ G2String n;
  GT_ScalarMult := GTScalarMult;
  GT_Invert := GTInvert;
  GT_Neg := GTNeg;
  GT_Add := GTAdd;
  GT_IsOne := GTIsOne;
  GT_Marshal := GTMarshal;
  GT_String := fun n => bn_prefix 84 ++ GTString n;
  Pair := fun p q => match PairBN p q with Ok e => e | _ => gfP12_One end |}.
