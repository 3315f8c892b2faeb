(** * Model of crypto/bbsignatures/bb.go over an abstract bilinear group

    [bops] are the operations of crypto/bn256 which bb.go, ccs08.go and
    util.go call, with the aliasing they use ([e.Add(e, b)] for both curve
    groups).  A value of type [tG1], [tG2], [tGT] is the content of one object
    (a representation of a group element, not the element itself). *)
From Coq Require Import ZArith List Bool.
From Verif Require Import Base.
Import ListNotations.
Open Scope Z_scope.

(** crypto/bn256/constants.go:31, Order *)
Definition bnOrder : Z := 21888242871839275222246405745257275088548364400416034343698204186575808495617.

(** crypto/bn256/bn256.go: 88-195 (G1); 219-342 (G2); 350-460 (GT); 492-494
    (Pair) *)
Record bops := Bops {
  tG1 : Type; tG2 : Type; tGT : Type;
  G1_ScalarBaseMult : Z -> tG1;
  G1_AddTo : tG1 -> tG1 -> tG1;              (* e.Add(e, b): the new content of e *)
  G1_Marshal : tG1 -> list Z;
  G1_Unmarshal : list Z -> option tG1;       (* None: (nil, false) *)
  G2_SetInfinity : tG2;
  G2_ScalarBaseMult : Z -> tG2;
  G2_ScalarMult : tG2 -> Z -> tG2;
  G2_AddTo : tG2 -> tG2 -> tG2;              (* e.Add(e, b) *)
  G2_Marshal : tG2 -> list Z;
  G2_Unmarshal : list Z -> option tG2;
  G2_String : tG2 -> list Z;
  GT_ScalarMult : tGT -> Z -> tGT;
  GT_Invert : tGT -> tGT;
  GT_Neg : tGT -> tGT;
  GT_Add : tGT -> tGT -> tGT;
  GT_IsOne : tGT -> bool;
  GT_Marshal : tGT -> list Z;
  GT_String : tGT -> list Z;
  Pair : tG1 -> tG2 -> tGT }.

Section Model.
Variable B : bops.

(** bb.go:36-39, Keypair; [None] is a nil Pubk *)
Record keypair := Keypair { kp_Pubk : option (tG1 B); kp_Privk : Z }.

(** bb.go:44-59, Keygen, for the draw [k] of rand.Int; the boolean is
    "the returned error is non-nil" *)
Definition Keygen (k : Z) : keypair * bool :=
  let pub := G1_Unmarshal B (G1_Marshal B (G1_ScalarBaseMult B k)) in
  let r := match pub with Some _ => true | None => false end in
  if r then (Keypair pub k, true)
  else (Keypair pub k, false).

(** bb.go:64-76, Sign.  A nil inverse makes ScalarBaseMult dereference nil. *)
Definition Sign (m privk : Z) : res (tG2 B) :=
  match ModInverse (bmod (m + privk) bnOrder) bnOrder with
  | None => Panic
  | Some inv =>
      match G2_Unmarshal B (G2_Marshal B (G2_ScalarBaseMult B inv)) with
      | Some s => Ok s
      | None => Err
      end
  end.

(** bb.go:82-107, verify *)
Definition verify (signature : tG2 B) (m : Z) (pubk : tG1 B) : res bool :=
  match G1_Unmarshal B (G1_Marshal B (G1_ScalarBaseMult B m)) with
  | None => Panic                                            (* gm is nil *)
  | Some gm =>
      let gm := G1_AddTo B gm pubk in
      let p1 := Pair B gm signature in
      let g1 := G1_ScalarBaseMult B 1 in
      let g2 := G2_ScalarBaseMult B 1 in
      let p2 := Pair B g1 g2 in
      let p2 := GT_Neg B p2 in
      let p1 := GT_Add B p1 p2 in
      Ok (GT_IsOne B p1)
  end.
End Model.
