(** * Specification vocabulary for the P256 package (curve secp256k1).

    The group is the textbook one of [SpecCurve]; [value p] is the group
    element a P256 struct stands for. *)
From Coq Require Import ZArith List Bool.
From Verif Require Import Base P256 SpecCurve.
Import ListNotations.
Open Scope Z_scope.

(** nil coordinates and (0,0) both stand for the point at infinity *)
Definition value (p : point) : zpt :=
  match p with
  | Some (x, y) => if (x =? 0) && (y =? 0) then None else Some (x, y)
  | None => None
  end.

(** group element: infinity, or reduced coordinates on y^2 = x^3 + 7 *)
Definition on_secp (q : zpt) : Prop := zon secp_P 7 q.
Definition valid (p : point) : Prop := on_secp (value p).

Definition gadd : zpt -> zpt -> zpt := zadd secp_P.
Definition gneg : zpt -> zpt := zneg secp_P.
Definition gmul : Z -> zpt -> zpt := zmul secp_P.
Definition gen : zpt := Some (secp_Gx, secp_Gy).

(** Contract of the go-ethereum methods: on curve points, and for scalars given
    as bytes with value below N, they compute the group operations; a scalar
    multiple that is infinity is returned as nil coordinates. *)
Record ext_ok (E : ext) : Prop := {
  ext_Double_ok : forall x y, on_secp (Some (x, y)) ->
    Some (ext_Double E x y) = gadd (Some (x, y)) (Some (x, y));
  ext_ScalarMult_ok : forall x y bs, on_secp (Some (x, y)) -> bytes_ok bs -> SetBytes bs < secp_N ->
    ext_ScalarMult E x y bs = gmul (SetBytes bs) (Some (x, y));
  ext_ScalarBaseMult_ok : forall bs, bytes_ok bs -> SetBytes bs < secp_N ->
    ext_ScalarBaseMult E bs = gmul (SetBytes bs) gen }.

(** An implementation of the contract (for non-vacuity). *)
Definition ext_ref : ext :=
  Ext (fun x y => match gadd (Some (x, y)) (Some (x, y)) with Some q => q | None => (0, 0) end)
      (fun x y bs => gmul (SetBytes bs) (Some (x, y)))
      (fun bs => gmul (SetBytes bs) gen).

(** squares modulo P *)
Definition is_square (a : Z) : Prop := exists y, (y * y) mod secp_P = a mod secp_P.

(** g^x h^r *)
Definition pedersen (x r : Z) (h : point) : zpt := gadd (gmul x gen) (gmul r (value h)).
