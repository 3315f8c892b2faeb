(** * Model of crypto/p256/p256.go and crypto/p256/mycurve.go

    A [P256 struct {X, Y}] is [None] when the coordinates are nil and
    [Some (X, Y)] otherwise (one nil and one non-nil coordinate cannot be
    produced by the package and is not represented).  Methods return the new
    value of their receiver; the big.Int values behind a point are never
    mutated by the package, so points are modelled as values. *)
From Coq Require Import ZArith List Bool.
From Verif Require Import Base ByteConv.
Import ListNotations.
Open Scope Z_scope.

Definition point : Type := option (Z * Z).

(** mycurve.go:118-128, init *)
Definition secp_P : Z := 0xFFFFFFFFFFFFFFFFFFFFFFFFFFFFFFFFFFFFFFFFFFFFFFFFFFFFFFFEFFFFFC2F.
Definition secp_N : Z := 0xFFFFFFFFFFFFFFFFFFFFFFFFFFFFFFFEBAAEDCE6AF48A03BBFD25E8CD0364141.
Definition secp_B : Z := 0x0000000000000000000000000000000000000000000000000000000000000007.
Definition secp_Gx : Z := 0x79BE667EF9DCBBAC55A06295CE870B07029BFCDB2DCE28D959F2815B16F81798.
Definition secp_Gy : Z := 0x483ADA7726A3C4655DA4FBFC0E1108A8FD17B448A68554199C47D08FFB10D4B8.

(** The methods of go-ethereum's secp256k1.BitCurve which MyBitCurve embeds
    and does not override (mycurve.go:26-28): Double (Go code), ScalarMult and
    ScalarBaseMult (C code).  They are outside /repo, so the model takes them
    as parameters; [Spec*.v] states the contract assumed of them.  A nil
    result is [None]. *)
Record ext : Type := Ext {
  ext_Double : Z -> Z -> Z * Z;
  ext_ScalarMult : Z -> Z -> list Z -> option (Z * Z);
  ext_ScalarBaseMult : list Z -> option (Z * Z) }.

(** the "if x.Sign() == -1 { x.Add(x, P) }" idiom of mycurve.go:50-52 *)
Definition addP (z : Z) : Z := if z <? 0 then z + secp_P else z.

(** mycurve.go:38-99, addJacobian *)
Definition addJacobian (x1 y1 z1 x2 y2 z2 : Z) : Z * Z * Z :=
  let z1z1 := bmod (z1 * z1) secp_P in
  let z2z2 := bmod (z2 * z2) secp_P in
  let u1 := bmod (x1 * z2z2) secp_P in
  let u2 := bmod (x2 * z1z1) secp_P in
  let h := addP (u2 - u1) in
  let i := 2 * h in
  let i := i * i in
  let j := h * i in
  let s1 := bmod (y1 * z2 * z2z2) secp_P in
  let s2 := bmod (y2 * z1 * z1z1) secp_P in
  let r := addP (s2 - s1) in
  let r := 2 * r in
  let v := u1 * i in
  let x3 := bmod (r * r - j - v - v) secp_P in
  let y3 := bmod (r * (v - x3) - 2 * (s1 * j)) secp_P in
  let z3 := (z1 + z2) * (z1 + z2) in
  let z3 := addP (z3 - z1z1) in
  let z3 := addP (z3 - z2z2) in
  let z3 := bmod (z3 * h) secp_P in
  (x3, y3, z3).

(** mycurve.go:101-114, affineFromJacobian.  A nil inverse would make the next
    multiplication panic; [affine_no_panic] shows it does not occur for the
    reduced z produced by addJacobian, so the model returns (0,0) there. *)
Definition affineFromJacobian (c : Z * Z * Z) : Z * Z :=
  let '(x, y, z) := c in
  if z =? 0 then (0, 0)
  else match ModInverse z secp_P with
       | None => (0, 0)
       | Some zinv =>
           let zinvsq := zinv * zinv in
           (bmod (x * zinvsq) secp_P, bmod (y * (zinvsq * zinv)) secp_P)
       end.

(** mycurve.go:31-34, Add *)
Definition CURVE_Add (x1 y1 x2 y2 : Z) : Z * Z :=
  affineFromJacobian (addJacobian x1 y1 1 x2 y2 1).

(** p256.go:48-55, IsZero *)
Definition IsZero (p : point) : bool :=
  match p with None => true | Some (x, y) => (x =? 0) && (y =? 0) end.

(** p256.go:170-174, SetInfinity *)
Definition SetInfinity : point := None.

(** p256.go:74-89, Add *)
Definition Add (a b : point) : point :=
  if IsZero a then b
  else if IsZero b then b                                    (* 80-83: b, not a *)
  else match a, b with
       | Some (x1, y1), Some (x2, y2) => Some (CURVE_Add x1 y1 x2 y2)
       | _, _ => None
       end.

Section WithExt.
Variable E : ext.

(** p256.go:94-102, Double *)
Definition Double (a : point) : point :=
  if IsZero a then SetInfinity
  else match a with Some (x, y) => Some (ext_Double E x y) | None => None end.

(** p256.go:107-121, ScalarMult *)
Definition ScalarMult (a : point) (n : Z) : point :=
  if IsZero a then SetInfinity
  else if n =? 0 then SetInfinity
  else match a with
       | Some (x, y) => ext_ScalarMult E x y (Bytes (bmod n secp_N))
       | None => None
       end.

(** p256.go:126-137, ScalarBaseMult *)
Definition ScalarBaseMult (n : Z) : point :=
  if n =? 0 then SetInfinity
  else ext_ScalarBaseMult E (Bytes (bmod n secp_N)).

(** p256.go:60-69, p.Neg(a): [p] is the old value of the receiver *)
Definition Neg (p a : point) : point :=
  if IsZero a then SetInfinity
  else ScalarMult p (secp_N - 1).                            (* 67: p, not a *)

(** p256.go:145-165, Multiply *)
Definition Multiply (a b : point) : point :=
  if IsZero a then b
  else if IsZero b then a
  else match a, b with
       | Some (x1, y1), Some (x2, y2) =>
           if (x1 =? x2) && (y1 =? y2) then Some (ext_Double E x1 y1)
           else Some (CURVE_Add x1 y1 x2 y2)
       | _, _ => None
       end.
End WithExt.

(** fmt of a nil big.Int: "<nil>" *)
Definition nil_String : list Z := [60; 110; 105; 108; 62].
Definition X_String (p : point) : list Z := match p with Some (x, _) => big_String x | None => nil_String end.
Definition Y_String (p : point) : list Z := match p with Some (_, y) => big_String y | None => nil_String end.
(** p256.go:180-182, String: "P256(" X "," Y ")" *)
Definition P256_String (p : point) : list Z :=
  [80; 50; 53; 54; 40] ++ X_String p ++ [44] ++ Y_String p ++ [41].

(** p256.go:223-234, F *)
Definition F (x : Z) : Z :=
  let x3p7 := bmod (x * x) secp_P in
  let x3p7 := bmod (x3p7 * x) secp_P in
  bmod (x3p7 + 7) secp_P.

(** p256.go:251-264, IsOnCurve (non-nil coordinates) *)
Definition IsOnCurve (x y : Z) : bool :=
  bmod (x * x * x + 7) secp_P =? bmod (y * y) secp_P.

Section Hash.
(** sha256 as an arbitrary function on byte strings *)
Variable sha : list Z -> list Z.

(** p256.go:239-245, HashToInt *)
Definition HashToInt (b : list Z) : res Z := FromByteArray (sha b).

(** p256.go:194-218, MapToGroup; [n] iterations remain, [i] is the counter.
    HashToInt's error (empty digest) is ignored by the code and then x is nil,
    so that bn.Mod panics. *)
Fixpoint MapToGroup_loop (m : list Z) (n : nat) (i : Z) : res point :=
  match n with
  | O => Err
  | S n' =>
      match HashToInt (big_String i ++ m) with
      | Ok h =>
          let x := bmod h secp_P in
          let fx := bmod (F x) secp_P in
          match ModSqrt fx secp_P with
          | Some y =>
              if IsOnCurve x y && negb (IsZero (Some (x, y))) then Ok (Some (x, y))
              else MapToGroup_loop m n' (i + 1)
          | None => MapToGroup_loop m n' (i + 1)
          end
      | _ => Panic
      end
  end.
Definition MapToGroup (m : list Z) : res point := MapToGroup_loop m 256 0.
End Hash.
