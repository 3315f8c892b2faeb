(** * Specification vocabulary for the signatures and the ccs08 package

    [bilinear B] is what the operations of crypto/bn256 must satisfy: [R1 p x]
    says that the object [p] represents the element g1^x, and so on.  Its
    fields are the properties C39-C50 of the package and the bilinearity of
    the pairing.  The clauses are as weak as the code requires:
    - [e.Add(e, b)] is specified only if the two elements are not equal, or
      are the identity (C45);
    - Pair is specified only on the G2 objects satisfying [pairable]: those made by
      Unmarshal, the identity and the generator (C52);
    - scalar multiplication in G2 is specified for the scalars satisfying
      [scalar], which may be just those that are not negative (C46);
    - exponentiation in GT is specified for exponents that are not negative (C49). *)
From Coq Require Import ZArith List Bool.
From Verif Require Import Base ByteConv Util BB CCS08.
Import ListNotations.
Open Scope Z_scope.

(** congruence modulo the group order *)
Definition eqm (x y : Z) : Prop := x mod bnOrder = y mod bnOrder.
(** g^x and g^y can be added in place *)
Definition addable (x y : Z) : Prop := eqm x y -> eqm x 0.
(** the successive in-place additions of a list to x *)
Fixpoint chain (x : Z) (l : list Z) : Prop :=
  match l with [] => True | y :: l' => addable x y /\ chain (x + y) l' end.

Record bilinear (B : bops) : Type := Bilinear {
  R1 : tG1 B -> Z -> Prop;
  R2 : tG2 B -> Z -> Prop;
  RT : tGT B -> Z -> Prop;
  pairable : tG2 B -> Prop;
  scalar : Z -> Prop;
  R1_eqm : forall p x y, R1 p x -> eqm x y -> R1 p y;
  R2_eqm : forall p x y, R2 p x -> eqm x y -> R2 p y;
  R1_base : forall k, R1 (G1_ScalarBaseMult B k) k;
  R1_add : forall a b x y, R1 a x -> R1 b y -> addable x y -> R1 (G1_AddTo B a b) (x + y);
  R1_code : forall a x, R1 a x -> exists b, G1_Unmarshal B (G1_Marshal B a) = Some b /\ R1 b x;
  R2_inf : R2 (G2_SetInfinity B) 0;
  scalar_nonneg : forall k, 0 <= k -> scalar k;
  R2_base : forall k, scalar k -> R2 (G2_ScalarBaseMult B k) k;
  R2_mul : forall a x k, R2 a x -> scalar k -> R2 (G2_ScalarMult B a k) (x * k);
  R2_add : forall a b x y, R2 a x -> R2 b y -> addable x y -> R2 (G2_AddTo B a b) (x + y);
  R2_code : forall a x, R2 a x ->
    exists b, G2_Unmarshal B (G2_Marshal B a) = Some b /\ R2 b x /\ pairable b;
  R2_bytes : forall a b x y, R2 a x -> R2 b y -> (G2_Marshal B a = G2_Marshal B b <-> eqm x y);
  RT_mul : forall a x k, RT a x -> 0 <= k -> RT (GT_ScalarMult B a k) (x * k);
  RT_inv : forall a x, RT a x -> RT (GT_Invert B a) (- x);
  RT_neg : forall a x, RT a x -> RT (GT_Neg B a) (- x);
  RT_add : forall a b x y, RT a x -> RT b y -> RT (GT_Add B a b) (x + y);
  RT_one : forall a x, RT a x -> (GT_IsOne B a = true <-> eqm x 0);
  RT_bytes : forall a b x y, RT a x -> RT b y -> (GT_Marshal B a = GT_Marshal B b <-> eqm x y);
  pairable_id : forall b, R2 b 0 -> pairable b;
  pairable_gen : pairable (G2_ScalarBaseMult B 1);
  pair_law : forall a b x y, R1 a x -> R2 b y -> pairable b -> RT (Pair B a b) (x * y) }.
Arguments R1 {B}.
Arguments R2 {B}.
Arguments RT {B}.
Arguments pairable {B}.
Arguments scalar {B}.

(** sha256 returns a non-empty string of bytes *)
Definition hash_bytes (sha : list Z -> list Z) : Prop :=
  forall l, sha l <> [] /\ Forall byte_ok (sha l).

(** ** Where the in-place additions, the scalar multiplications by x and r and the
    pairing are used on arguments for which they are right.  [h] is the logarithm of H, [x] and [r] are the values
    committed to.  Everything can be checked on the proof object. *)
Definition set_nondegenerate {B} (W : bilinear B) (h x r : Z) (pr : proofSet B) : Prop :=
  pairable W (sp_V B pr) /\ scalar W x /\ scalar W r /\
  chain (h * sp_m B pr) [sp_s B pr] /\                                     (* H^m . g^s *)
  chain x [h * r] /\                                                       (* g^x . H^r *)
  chain ((x + h * r) * sp_c B pr) [h * sp_zr B pr; sp_zsig B pr].           (* C^c . H^zr . g^zsig *)

(** l_0 u^i, l_1 u^(i+1), ... *)
Fixpoint weighted (u : Z) (i : nat) (l : list Z) : list Z :=
  match l with [] => [] | d :: l' => d * u ^ Z.of_nat i :: weighted u (S i) l' end.
Definition ul_nondegenerate {B} (W : bilinear B) (u h x r : Z) (pr : proofUL B) : Prop :=
  Forall (pairable W) (up_V B pr) /\ scalar W x /\ scalar W r /\
  chain (h * up_m B pr) (weighted u 0 (up_s B pr)) /\
  chain x [h * r] /\
  chain ((x + h * r) * up_c B pr) (h * up_zr B pr :: weighted u 0 (up_zsig B pr)).

(** the random values are not negative (rand.Int returns values in [0, Order)) *)
Definition tapeSet_range (tp : tapeSet) : Prop := 0 <= ts_m tp /\ 0 <= ts_v tp /\ 0 <= ts_s tp /\ 0 <= ts_t tp.
Definition digits_range (l : list (Z * Z * Z)) : Prop :=
  Forall (fun e => 0 <= tape_v e /\ 0 <= tape_s e /\ 0 <= tape_t e) l.
Definition tape_range (tp : tapeUL) : Prop := 0 <= tu_m tp /\ digits_range (tu_digits tp).
(** no message in [0,u) is the negative of the signing key *)
Definition no_clash (k u : Z) : Prop := forall m, 0 <= m < u -> ~ eqm (m + k) 0.
(** the random tape has one entry for each digit *)
Definition tapeUL_ok (tp : tapeUL) (l : Z) : Prop := Z.of_nat (length (tu_digits tp)) = l.

(** the pairing equations of VerifyUL, digit by digit, in the exponent: V_i =
    g2^w_i, a_i = e(g1,g2)^al_i, public key g1^k *)
Fixpoint pair_eqs (k c : Z) (w zsig zv al : list Z) : Prop :=
  match w, zsig, zv, al with
  | w0 :: w', s0 :: zsig', v0 :: zv', a0 :: al' =>
      eqm (w0 * (k * c - s0) + v0) a0 /\ pair_eqs k c w' zsig' zv' al'
  | [], [], [], [] => True
  | _, _, _, _ => False
  end.

(** ** Public computations used by the attacks and the extractor *)
(** the inverse modulo the group order (0 for 0) *)
Definition invm (x : Z) : Z := match ModInverse x bnOrder with Some i => i | None => 0 end.

(** the secret from a masked response: z = y - x c *)
Definition recover (y z c : Z) : Z := ((y - z) * invm c) mod bnOrder.

(** the value extracted from two responses to the challenges c1 and c2 *)
Definition extract (z1 z2 c1 c2 : Z) : Z := ((z2 - z1) * invm (c1 - c2)) mod bnOrder.

(** a proof object for the commitment C, computed from public values only: the
    two verification equations solved for D and a *)
Definition forgeSet (B : bops) (H : tG2 B) (pubk : tG1 B) (C V : tG2 B) (c zr zsig zv : Z) : proofSet B :=
  ProofSet B V
    (G2_AddTo B (G2_AddTo B (G2_ScalarMult B C c) (G2_ScalarMult B H zr)) (G2_ScalarBaseMult B zsig))
    C
    (GT_Add B (GT_Add B (GT_ScalarMult B (Pair B pubk V) c)
                        (GT_Invert B (GT_ScalarMult B (Pair B (uG1 B) V) zsig)))
              (GT_ScalarMult B (uE B) zv))
    0 0 zsig zv c 0 zr.
Fixpoint forgeD (B : bops) (u i : Z) (D : tG2 B) (zsig : list Z) : tG2 B :=
  match zsig with
  | [] => D
  | z :: zs => forgeD B u (i + 1) (G2_AddTo B D (G2_ScalarBaseMult B ((z * ExpNil u i) mod bnOrder))) zs
  end.
Definition forgeUL (B : bops) (H : tG2 B) (pubk : tG1 B) (u : Z) (C : tG2 B) (c zr : Z)
    (digits : list (tG2 B * Z * Z)) : proofUL B :=
  let V := map (fun e => fst (fst e)) digits in
  let zsig := map (fun e => snd (fst e)) digits in
  let zv := map snd digits in
  ProofUL B V (forgeD B u 0 (G2_AddTo B (G2_ScalarMult B C c) (G2_ScalarMult B H zr)) zsig) C
    (map (fun e => let '(V0, zs, z) := e in
       GT_Add B (GT_Add B (GT_ScalarMult B (Pair B pubk V0) c)
                          (GT_Invert B (GT_ScalarMult B (Pair B (uG1 B) V0) zs)))
                (GT_ScalarMult B (uE B) z)) digits)
    [] [] zsig zv c 0 zr.

(** ** A model of the contract: exponents modulo the order *)
Definition toy : bops := {|
  tG1 := Z; tG2 := Z; tGT := Z;
  G1_ScalarBaseMult := fun k => k; G1_AddTo := Z.add;
  G1_Marshal := fun a => [a mod bnOrder];
  G1_Unmarshal := fun l => match l with [a] => Some a | _ => None end;
  G2_SetInfinity := 0; G2_ScalarBaseMult := fun k => k; G2_ScalarMult := Z.mul; G2_AddTo := Z.add;
  G2_Marshal := fun a => [a mod bnOrder];
  G2_Unmarshal := fun l => match l with [a] => Some a | _ => None end;
  G2_String := big_String;
  GT_ScalarMult := Z.mul; GT_Invert := Z.opp; GT_Neg := Z.opp; GT_Add := Z.add;
  GT_IsOne := fun a => a mod bnOrder =? 0;
  GT_Marshal := fun a => [a mod bnOrder]; GT_String := big_String;
  Pair := Z.mul |}.
(** a hash function for the examples *)
Definition sha_one (_ : list Z) : list Z := [1].
