(** * crypto/bn256 as programs over memory cells and the scratch pool

    BN256.v models the functions of crypto/bn256 as functions of the contents
    of their operands.  Here the same functions are programs: a big.Int object
    is a memory cell, the structures hold the addresses of their cells, a
    method writes through its receiver statement by statement, and scratch
    integers come from the pool.  Receiver and operands may be any objects, in
    particular the same one.  BNHeapProofs.v relates the two models.

    Passed by value (simplification): the integers P, u, curveB and scalar
    arguments, which no function of the package uses as a receiver.  All other
    package variables are cells (see [gl_xi6] and below). *)
From Coq Require Import ZArith List Bool Arith.
From Verif Require Import Base BB BN256.
Import ListNotations.
Open Scope Z_scope.

(** ** Memory, pool, programs *)
(** the address of a big.Int *)
Definition loc := nat.
(** [mem]: the contents of the cells; cells from [next] on are not allocated.
    [pool]: the field bns of the bnPool in use (bn256.go:517-520), [None] for a
    nil pool.  Simplification: the top of the stack (the end of the slice) is
    the head of the list.  [count]: its field count. *)
Record store : Type := Store { mem : loc -> Z; next : loc; pool : option (list loc); count : Z }.
Definition upd (m : loc -> Z) (l : loc) (v : Z) : loc -> Z := fun l' => if Nat.eqb l' l then v else m l'.
(** a call: [None] is a panic *)
Definition prog (A : Type) : Type := store -> option (A * store).
Definition mret {A} (a : A) : prog A := fun s => Some (a, s).
Definition mpanic {A} : prog A := fun s => None.
Definition mbind {A B} (m : prog A) (k : A -> prog B) : prog B :=
  fun s => match m s with None => None | Some (a, s') => k a s' end.
Declare Scope prog_scope.
Delimit Scope prog_scope with prog.
Notation "x <- m ;; k" := (mbind m (fun x => k)) (at level 100, m at next level, right associativity) : prog_scope.
Notation "m ;;; k" := (mbind m (fun _ => k)) (at level 100, right associativity) : prog_scope.
Open Scope prog_scope.
(** [for i := n - 1; i >= 0; i-- { body }] *)
Fixpoint mloop (body : Z -> prog unit) (n : nat) : prog unit :=
  match n with O => mret tt | S n' => body (Z.of_nat n') ;;; mloop body n' end.

(** ** math/big: the receiver is the first argument; operands are read before
    the receiver is written *)
Definition rd (l : loc) : prog Z := fun s => Some (mem s l, s).
Definition wr (l : loc) (v : Z) : prog unit :=
  fun s => Some (tt, Store (upd (mem s) l v) (next s) (pool s) (count s)).
Definition bSet (z x : loc) : prog unit := a <- rd x ;; wr z a.
Definition bSetInt64 (z : loc) (v : Z) : prog unit := wr z v.
Definition bNeg (z x : loc) : prog unit := a <- rd x ;; wr z (- a).
Definition bAdd (z x y : loc) : prog unit := a <- rd x ;; b <- rd y ;; wr z (a + b).
Definition bSub (z x y : loc) : prog unit := a <- rd x ;; b <- rd y ;; wr z (a - b).
Definition bMul (z x y : loc) : prog unit := a <- rd x ;; b <- rd y ;; wr z (a * b).
Definition bLsh (z x : loc) (n : Z) : prog unit := a <- rd x ;; wr z (2 ^ n * a).
(** z.Mod(x, P) *)
Definition bMod (z x : loc) : prog unit := a <- rd x ;; wr z (bmod a bn_P).
(** z.ModInverse(x, P): [false] is the nil result, which leaves z unchanged *)
Definition bModInverse (z x : loc) : prog bool :=
  a <- rd x ;; match ModInverse a bn_P with Some i => wr z i ;;; mret true | None => mret false end.

(** ** The pool *)
(** bn256.go:522-536, Get *)
Definition hGet : prog loc := fun s =>
  match pool s with
  | None => Some (next s, Store (upd (mem s) (next s) 0) (S (next s)) None (count s))
  | Some [] => Some (next s, Store (upd (mem s) (next s) 0) (S (next s)) (Some []) (count s + 1))
  | Some (l :: bns) => Some (l, Store (mem s) (next s) (Some bns) (count s + 1))
  end.
(** bn256.go:538-544, Put *)
Definition hPut (l : loc) : prog unit := fun s =>
  match pool s with
  | None => Some (tt, s)
  | Some bns => Some (tt, Store (mem s) (next s) (Some (l :: bns)) (count s - 1))
  end.
(** bn256.go:546-548, Count *)
Definition hCount : prog Z := fun s => Some (count s, s).
(** [f(..., new(bnPool))]: the pool is new, and garbage after the call *)
Definition with_new_pool {A} (m : prog A) : prog A := fun s =>
  match m (Store (mem s) (next s) (Some []) 0) with
  | None => None
  | Some (a, s') => Some (a, Store (mem s') (next s') (pool s) (count s))
  end.
(** [f(..., nil)] *)
Definition with_nil_pool {A} (m : prog A) : prog A := fun s =>
  match m (Store (mem s) (next s) None 0) with
  | None => None
  | Some (a, s') => Some (a, Store (mem s') (next s') (pool s) (count s))
  end.

(** ** Objects *)
(** gfp2.go:30-32, gfp6.go:30-32, gfp12.go:30-32, curve.go:27-29, twist.go:29-31 *)
Record o2 : Type := O2 { p2x : loc; p2y : loc }.
Record o6 : Type := O6 { p6x : o2; p6y : o2; p6z : o2 }.
Record o12 : Type := O12 { p12x : o6; p12y : o6 }.
Record ocp : Type := Ocp { pcx : loc; pcy : loc; pcz : loc; pct : loc }.
Record otp : Type := Otp { ptx : o2; pty : o2; ptz : o2; ptt : o2 }.

(** ** Package variables *)
(** constants.go:34, 37, 40, 52 *)
Definition gl_xi6 : o2 := O2 0%nat 1%nat.
Definition gl_xi3 : o2 := O2 2%nat 3%nat.
Definition gl_xi2 : o2 := O2 4%nat 5%nat.
Definition gl_xi23 : o2 := O2 6%nat 7%nat.
(** constants.go:43, 46, 49 *)
Definition gl_s3 : loc := 8%nat.
Definition gl_2s3 : loc := 9%nat.
Definition gl_s6 : loc := 10%nat.
(** twist.go:33-36, 39-56; curve.go:34-39 *)
Definition gl_twistB : o2 := O2 11%nat 12%nat.
Definition gl_twistGen : otp := (Otp (O2 13 14) (O2 15 16) (O2 17 18) (O2 19 20))%nat.
Definition gl_curveGen : ocp := (Ocp 21 22 23 24)%nat.

(** ** gfp2.go *)
(** gfp2.go:34-36, newGFp2 *)
Definition h2_new : prog o2 := x <- hGet ;; y <- hGet ;; mret (O2 x y).
(** gfp2.go:44-47, Put *)
Definition h2_Put (e : o2) : prog unit := hPut (p2x e) ;;; hPut (p2y e).
(** gfp2.go:49-53, Set *)
Definition h2_Set (e a : o2) : prog unit := bSet (p2x e) (p2x a) ;;; bSet (p2y e) (p2y a).
(** gfp2.go:55-65, SetZero, SetOne *)
Definition h2_SetZero (e : o2) : prog unit := bSetInt64 (p2x e) 0 ;;; bSetInt64 (p2y e) 0.
Definition h2_SetOne (e : o2) : prog unit := bSetInt64 (p2x e) 0 ;;; bSetInt64 (p2y e) 1.
(** gfp2.go:67-74, Minimal *)
Definition h_Minimal (l : loc) : prog unit :=
  x <- rd l ;; if (x <? 0) || (bn_P <=? x) then bMod l l else mret tt.
Definition h2_Minimal (e : o2) : prog unit := h_Minimal (p2x e) ;;; h_Minimal (p2y e).
(** gfp2.go:76-78, IsZero *)
Definition h2_IsZero (e : o2) : prog bool := x <- rd (p2x e) ;; y <- rd (p2y e) ;; mret ((x =? 0) && (y =? 0)).
(** gfp2.go:80-86, IsOne *)
Definition h2_IsOne (e : o2) : prog bool :=
  x <- rd (p2x e) ;; if negb (x =? 0) then mret false else y <- rd (p2y e) ;; mret (big_IsOneWord y).
(** gfp2.go:88-92, Conjugate *)
Definition h2_Conjugate (e a : o2) : prog unit := bSet (p2y e) (p2y a) ;;; bNeg (p2x e) (p2x a).
(** gfp2.go:94-98, Negative *)
Definition h2_Negative (e a : o2) : prog unit := bNeg (p2x e) (p2x a) ;;; bNeg (p2y e) (p2y a).
(** gfp2.go:100-104, Add *)
Definition h2_Add (e a b : o2) : prog unit := bAdd (p2x e) (p2x a) (p2x b) ;;; bAdd (p2y e) (p2y a) (p2y b).
(** gfp2.go:106-110, Sub *)
Definition h2_Sub (e a b : o2) : prog unit := bSub (p2x e) (p2x a) (p2x b) ;;; bSub (p2y e) (p2y a) (p2y b).
(** gfp2.go:112-116, Double *)
Definition h2_Double (e a : o2) : prog unit := bLsh (p2x e) (p2x a) 1 ;;; bLsh (p2y e) (p2y a) 1.
(** gfp2.go:142-159, Mul *)
Definition h2_Mul (e a b : o2) : prog unit :=
  tx <- hGet ;; bMul tx (p2x a) (p2y b) ;;;
  t <- hGet ;; bMul t (p2x b) (p2y a) ;;;
  bAdd tx tx t ;;;
  bMod tx tx ;;;
  ty <- hGet ;; bMul ty (p2y a) (p2y b) ;;;
  bMul t (p2x a) (p2x b) ;;;
  bSub ty ty t ;;;
  bMod (p2y e) ty ;;;
  bSet (p2x e) tx ;;;
  hPut tx ;;; hPut ty ;;; hPut t.
(** gfp2.go:161-165, MulScalar *)
Definition h2_MulScalar (e a : o2) (b : loc) : prog unit := bMul (p2x e) (p2x a) b ;;; bMul (p2y e) (p2y a) b.
(** gfp2.go:168-185, MulXi *)
Definition h2_MulXi (e a : o2) : prog unit :=
  tx <- hGet ;; bLsh tx (p2x a) 3 ;;;
  bAdd tx tx (p2x a) ;;;
  bAdd tx tx (p2y a) ;;;
  ty <- hGet ;; bLsh ty (p2y a) 3 ;;;
  bAdd ty ty (p2y a) ;;;
  bSub ty ty (p2x a) ;;;
  bSet (p2x e) tx ;;;
  bSet (p2y e) ty ;;;
  hPut tx ;;; hPut ty.
(** gfp2.go:187-206, Square *)
Definition h2_Square (e a : o2) : prog unit :=
  t1 <- hGet ;; bSub t1 (p2y a) (p2x a) ;;;
  t2 <- hGet ;; bAdd t2 (p2x a) (p2y a) ;;;
  ty <- hGet ;; bMul ty t1 t2 ;;;
  bMod ty ty ;;;
  bMul t1 (p2x a) (p2y a) ;;;
  bLsh t1 t1 1 ;;;
  bMod (p2x e) t1 ;;;
  bSet (p2y e) ty ;;;
  hPut t1 ;;; hPut t2 ;;; hPut ty.
(** gfp2.go:208-232, Invert.  The result of ModInverse is not used, so that nil
    does no harm *)
Definition h2_Invert (e a : o2) : prog unit :=
  t <- hGet ;;
  bMul t (p2y a) (p2y a) ;;;
  t2 <- hGet ;;
  bMul t2 (p2x a) (p2x a) ;;;
  bAdd t t t2 ;;;
  inv <- hGet ;;
  bModInverse inv t ;;;
  bNeg (p2x e) (p2x a) ;;;
  bMul (p2x e) (p2x e) inv ;;;
  bMod (p2x e) (p2x e) ;;;
  bMul (p2y e) (p2y a) inv ;;;
  bMod (p2y e) (p2y e) ;;;
  hPut t ;;; hPut t2 ;;; hPut inv.
(** gfp2.go:118-138, Exp *)
Definition h2_Exp (c a : o2) (power : Z) : prog unit :=
  sum <- h2_new ;;
  h2_SetOne sum ;;;
  t <- h2_new ;;
  mloop (fun i => h2_Square t sum ;;; if Bit power i then h2_Mul sum t a else h2_Set sum t)
        (Z.to_nat (BitLen power)) ;;;
  h2_Set c sum ;;;
  h2_Put sum ;;; h2_Put t.

(** ** gfp6.go *)
(** gfp6.go:34-36, newGFp6 *)
Definition h6_new : prog o6 := x <- h2_new ;; y <- h2_new ;; z <- h2_new ;; mret (O6 x y z).
(** gfp6.go:42-46, Put *)
Definition h6_Put (e : o6) : prog unit := h2_Put (p6x e) ;;; h2_Put (p6y e) ;;; h2_Put (p6z e).
(** gfp6.go:48-53, Set *)
Definition h6_Set (e a : o6) : prog unit :=
  h2_Set (p6x e) (p6x a) ;;; h2_Set (p6y e) (p6y a) ;;; h2_Set (p6z e) (p6z a).
(** gfp6.go:55-67, SetZero, SetOne *)
Definition h6_SetZero (e : o6) : prog unit := h2_SetZero (p6x e) ;;; h2_SetZero (p6y e) ;;; h2_SetZero (p6z e).
Definition h6_SetOne (e : o6) : prog unit := h2_SetZero (p6x e) ;;; h2_SetZero (p6y e) ;;; h2_SetOne (p6z e).
(** gfp6.go:69-73, Minimal *)
Definition h6_Minimal (e : o6) : prog unit := h2_Minimal (p6x e) ;;; h2_Minimal (p6y e) ;;; h2_Minimal (p6z e).
(** gfp6.go:75-81, IsZero, IsOne (&& does not evaluate its second operand if
    the first is false; the operands only read) *)
Definition h6_IsZero (e : o6) : prog bool :=
  x <- h2_IsZero (p6x e) ;; y <- h2_IsZero (p6y e) ;; z <- h2_IsZero (p6z e) ;; mret (x && y && z).
Definition h6_IsOne (e : o6) : prog bool :=
  x <- h2_IsZero (p6x e) ;; y <- h2_IsZero (p6y e) ;; z <- h2_IsOne (p6z e) ;; mret (x && y && z).
(** gfp6.go:83-88, Negative *)
Definition h6_Negative (e a : o6) : prog unit :=
  h2_Negative (p6x e) (p6x a) ;;; h2_Negative (p6y e) (p6y a) ;;; h2_Negative (p6z e) (p6z a).
(** gfp6.go:90-98, Frobenius *)
Definition h6_Frobenius (e a : o6) : prog unit :=
  h2_Conjugate (p6x e) (p6x a) ;;;
  h2_Conjugate (p6y e) (p6y a) ;;;
  h2_Conjugate (p6z e) (p6z a) ;;;
  h2_Mul (p6x e) (p6x e) gl_xi23 ;;;
  h2_Mul (p6y e) (p6y e) gl_xi3.
(** gfp6.go:101-108, FrobeniusP2 *)
Definition h6_FrobeniusP2 (e a : o6) : prog unit :=
  h2_MulScalar (p6x e) (p6x a) gl_2s3 ;;;
  h2_MulScalar (p6y e) (p6y a) gl_s3 ;;;
  h2_Set (p6z e) (p6z a).
(** gfp6.go:110-129, Add, Sub, Double *)
Definition h6_Add (e a b : o6) : prog unit :=
  h2_Add (p6x e) (p6x a) (p6x b) ;;; h2_Add (p6y e) (p6y a) (p6y b) ;;; h2_Add (p6z e) (p6z a) (p6z b).
Definition h6_Sub (e a b : o6) : prog unit :=
  h2_Sub (p6x e) (p6x a) (p6x b) ;;; h2_Sub (p6y e) (p6y a) (p6y b) ;;; h2_Sub (p6z e) (p6z a) (p6z b).
Definition h6_Double (e a : o6) : prog unit :=
  h2_Double (p6x e) (p6x a) ;;; h2_Double (p6y e) (p6y a) ;;; h2_Double (p6z e) (p6z a).
(** gfp6.go:131-185, Mul *)
Definition h6_Mul (e a b : o6) : prog unit :=
  v0 <- h2_new ;; h2_Mul v0 (p6z a) (p6z b) ;;;
  v1 <- h2_new ;; h2_Mul v1 (p6y a) (p6y b) ;;;
  v2 <- h2_new ;; h2_Mul v2 (p6x a) (p6x b) ;;;
  t0 <- h2_new ;; h2_Add t0 (p6x a) (p6y a) ;;;
  t1 <- h2_new ;; h2_Add t1 (p6x b) (p6y b) ;;;
  tz <- h2_new ;; h2_Mul tz t0 t1 ;;;
  h2_Sub tz tz v1 ;;;
  h2_Sub tz tz v2 ;;;
  h2_MulXi tz tz ;;;
  h2_Add tz tz v0 ;;;
  h2_Add t0 (p6y a) (p6z a) ;;;
  h2_Add t1 (p6y b) (p6z b) ;;;
  ty <- h2_new ;; h2_Mul ty t0 t1 ;;;
  h2_Sub ty ty v0 ;;;
  h2_Sub ty ty v1 ;;;
  h2_MulXi t0 v2 ;;;
  h2_Add ty ty t0 ;;;
  h2_Add t0 (p6x a) (p6z a) ;;;
  h2_Add t1 (p6x b) (p6z b) ;;;
  tx <- h2_new ;; h2_Mul tx t0 t1 ;;;
  h2_Sub tx tx v0 ;;;
  h2_Add tx tx v1 ;;;
  h2_Sub tx tx v2 ;;;
  h2_Set (p6x e) tx ;;;
  h2_Set (p6y e) ty ;;;
  h2_Set (p6z e) tz ;;;
  h2_Put t0 ;;; h2_Put t1 ;;; h2_Put tx ;;; h2_Put ty ;;; h2_Put tz ;;; h2_Put v0 ;;; h2_Put v1 ;;; h2_Put v2.
(** gfp6.go:187-192, MulScalar *)
Definition h6_MulScalar (e a : o6) (b : o2) : prog unit :=
  h2_Mul (p6x e) (p6x a) b ;;; h2_Mul (p6y e) (p6y a) b ;;; h2_Mul (p6z e) (p6z a) b.
(** gfp6.go:194-199, MulGFP *)
Definition h6_MulGFP (e a : o6) (b : loc) : prog unit :=
  h2_MulScalar (p6x e) (p6x a) b ;;; h2_MulScalar (p6y e) (p6y a) b ;;; h2_MulScalar (p6z e) (p6z a) b.
(** gfp6.go:202-212, MulTau *)
Definition h6_MulTau (e a : o6) : prog unit :=
  tz <- h2_new ;;
  h2_MulXi tz (p6x a) ;;;
  ty <- h2_new ;;
  h2_Set ty (p6y a) ;;;
  h2_Set (p6y e) (p6z a) ;;;
  h2_Set (p6x e) ty ;;;
  h2_Set (p6z e) tz ;;;
  h2_Put tz ;;; h2_Put ty.
(** gfp6.go:214-252, Square *)
Definition h6_Square (e a : o6) : prog unit :=
  v0 <- h2_new ;; h2_Square v0 (p6z a) ;;;
  v1 <- h2_new ;; h2_Square v1 (p6y a) ;;;
  v2 <- h2_new ;; h2_Square v2 (p6x a) ;;;
  c0 <- h2_new ;; h2_Add c0 (p6x a) (p6y a) ;;;
  h2_Square c0 c0 ;;;
  h2_Sub c0 c0 v1 ;;;
  h2_Sub c0 c0 v2 ;;;
  h2_MulXi c0 c0 ;;;
  h2_Add c0 c0 v0 ;;;
  c1 <- h2_new ;; h2_Add c1 (p6y a) (p6z a) ;;;
  h2_Square c1 c1 ;;;
  h2_Sub c1 c1 v0 ;;;
  h2_Sub c1 c1 v1 ;;;
  xiV2 <- h2_new ;; h2_MulXi xiV2 v2 ;;;
  h2_Add c1 c1 xiV2 ;;;
  c2 <- h2_new ;; h2_Add c2 (p6x a) (p6z a) ;;;
  h2_Square c2 c2 ;;;
  h2_Sub c2 c2 v0 ;;;
  h2_Add c2 c2 v1 ;;;
  h2_Sub c2 c2 v2 ;;;
  h2_Set (p6x e) c2 ;;;
  h2_Set (p6y e) c1 ;;;
  h2_Set (p6z e) c0 ;;;
  h2_Put v0 ;;; h2_Put v1 ;;; h2_Put v2 ;;; h2_Put c0 ;;; h2_Put c1 ;;; h2_Put c2 ;;; h2_Put xiV2.
(** gfp6.go:254-309, Invert *)
Definition h6_Invert (e a : o6) : prog unit :=
  t1 <- h2_new ;;
  A <- h2_new ;;
  h2_Square A (p6z a) ;;;
  h2_Mul t1 (p6x a) (p6y a) ;;;
  h2_MulXi t1 t1 ;;;
  h2_Sub A A t1 ;;;
  B <- h2_new ;;
  h2_Square B (p6x a) ;;;
  h2_MulXi B B ;;;
  h2_Mul t1 (p6y a) (p6z a) ;;;
  h2_Sub B B t1 ;;;
  C_ <- h2_new ;;
  h2_Square C_ (p6y a) ;;;
  h2_Mul t1 (p6x a) (p6z a) ;;;
  h2_Sub C_ C_ t1 ;;;
  F <- h2_new ;;
  h2_Mul F C_ (p6y a) ;;;
  h2_MulXi F F ;;;
  h2_Mul t1 A (p6z a) ;;;
  h2_Add F F t1 ;;;
  h2_Mul t1 B (p6x a) ;;;
  h2_MulXi t1 t1 ;;;
  h2_Add F F t1 ;;;
  h2_Invert F F ;;;
  h2_Mul (p6x e) C_ F ;;;
  h2_Mul (p6y e) B F ;;;
  h2_Mul (p6z e) A F ;;;
  h2_Put t1 ;;; h2_Put A ;;; h2_Put B ;;; h2_Put C_ ;;; h2_Put F.

(** ** gfp12.go *)
(** gfp12.go:34-36, newGFp12 *)
Definition h12_new : prog o12 := x <- h6_new ;; y <- h6_new ;; mret (O12 x y).
(** gfp12.go:42-45, Put *)
Definition h12_Put (e : o12) : prog unit := h6_Put (p12x e) ;;; h6_Put (p12y e).
(** gfp12.go:47-51, Set *)
Definition h12_Set (e a : o12) : prog unit := h6_Set (p12x e) (p12x a) ;;; h6_Set (p12y e) (p12y a).
(** gfp12.go:53-63, SetZero, SetOne *)
Definition h12_SetZero (e : o12) : prog unit := h6_SetZero (p12x e) ;;; h6_SetZero (p12y e).
Definition h12_SetOne (e : o12) : prog unit := h6_SetZero (p12x e) ;;; h6_SetOne (p12y e).
(** gfp12.go:65-68, Minimal *)
Definition h12_Minimal (e : o12) : prog unit := h6_Minimal (p12x e) ;;; h6_Minimal (p12y e).
(** gfp12.go:70-78, IsZero, IsOne *)
Definition h12_IsZero (e : o12) : prog bool :=
  h12_Minimal e ;;; x <- h6_IsZero (p12x e) ;; y <- h6_IsZero (p12y e) ;; mret (x && y).
Definition h12_IsOne (e : o12) : prog bool :=
  h12_Minimal e ;;; x <- h6_IsZero (p12x e) ;; y <- h6_IsOne (p12y e) ;; mret (x && y).
(** gfp12.go:80-84, Conjugate: it returns its argument *)
Definition h12_Conjugate (e a : o12) : prog o12 :=
  h6_Negative (p12x e) (p12x a) ;;; h6_Set (p12y e) (p12y a) ;;; mret a.
(** gfp12.go:86-90, Negative *)
Definition h12_Negative (e a : o12) : prog unit := h6_Negative (p12x e) (p12x a) ;;; h6_Negative (p12y e) (p12y a).
(** gfp12.go:93-98, Frobenius *)
Definition h12_Frobenius (e a : o12) : prog unit :=
  h6_Frobenius (p12x e) (p12x a) ;;; h6_Frobenius (p12y e) (p12y a) ;;;
  h6_MulScalar (p12x e) (p12x e) gl_xi6.
(** gfp12.go:101-106, FrobeniusP2 *)
Definition h12_FrobeniusP2 (e a : o12) : prog unit :=
  h6_FrobeniusP2 (p12x e) (p12x a) ;;;
  h6_MulGFP (p12x e) (p12x e) gl_s6 ;;;
  h6_FrobeniusP2 (p12y e) (p12y a).
(** gfp12.go:108-118, Add, Sub *)
Definition h12_Add (e a b : o12) : prog unit :=
  h6_Add (p12x e) (p12x a) (p12x b) ;;; h6_Add (p12y e) (p12y a) (p12y b).
Definition h12_Sub (e a b : o12) : prog unit :=
  h6_Sub (p12x e) (p12x a) (p12x b) ;;; h6_Sub (p12y e) (p12y a) (p12y b).
(** gfp12.go:120-138, Mul *)
Definition h12_Mul (e a b : o12) : prog unit :=
  tx <- h6_new ;;
  h6_Mul tx (p12x a) (p12y b) ;;;
  t <- h6_new ;;
  h6_Mul t (p12x b) (p12y a) ;;;
  h6_Add tx tx t ;;;
  ty <- h6_new ;;
  h6_Mul ty (p12y a) (p12y b) ;;;
  h6_Mul t (p12x a) (p12x b) ;;;
  h6_MulTau t t ;;;
  h6_Add (p12y e) ty t ;;;
  h6_Set (p12x e) tx ;;;
  h6_Put tx ;;; h6_Put ty ;;; h6_Put t.
(** gfp12.go:140-144, MulScalar *)
Definition h12_MulScalar (e a : o12) (b : o6) : prog unit :=
  h6_Mul (p12x e) (p12x e) b ;;; h6_Mul (p12y e) (p12y e) b.
(** gfp12.go:168-191, Square *)
Definition h12_Square (e a : o12) : prog unit :=
  v0 <- h6_new ;;
  h6_Mul v0 (p12x a) (p12y a) ;;;
  t <- h6_new ;;
  h6_MulTau t (p12x a) ;;;
  h6_Add t (p12y a) t ;;;
  ty <- h6_new ;;
  h6_Add ty (p12x a) (p12y a) ;;;
  h6_Mul ty ty t ;;;
  h6_Sub ty ty v0 ;;;
  h6_MulTau t v0 ;;;
  h6_Sub ty ty t ;;;
  h6_Set (p12y e) ty ;;;
  h6_Double (p12x e) v0 ;;;
  h6_Put v0 ;;; h6_Put t ;;; h6_Put ty.
(** gfp12.go:146-166, Exp *)
Definition h12_Exp (c a : o12) (power : Z) : prog unit :=
  sum <- h12_new ;;
  h12_SetOne sum ;;;
  t <- h12_new ;;
  mloop (fun i => h12_Square t sum ;;; if Bit power i then h12_Mul sum t a else h12_Set sum t)
        (Z.to_nat (BitLen power)) ;;;
  h12_Set c sum ;;;
  h12_Put sum ;;; h12_Put t.
(** gfp12.go:193-213, Invert *)
Definition h12_Invert (e a : o12) : prog unit :=
  t1 <- h6_new ;;
  t2 <- h6_new ;;
  h6_Square t1 (p12x a) ;;;
  h6_Square t2 (p12y a) ;;;
  h6_MulTau t1 t1 ;;;
  h6_Sub t1 t2 t1 ;;;
  h6_Invert t2 t1 ;;;
  h6_Negative (p12x e) (p12x a) ;;;
  h6_Set (p12y e) (p12y a) ;;;
  h12_MulScalar e e t2 ;;;
  h6_Put t1 ;;; h6_Put t2.

(** ** curve.go *)
(** curve.go:41-48, newCurvePoint *)
Definition hc_new : prog ocp := x <- hGet ;; y <- hGet ;; z <- hGet ;; t <- hGet ;; mret (Ocp x y z t).
(** curve.go:55-60, Put *)
Definition hc_Put (c : ocp) : prog unit := hPut (pcx c) ;;; hPut (pcy c) ;;; hPut (pcz c) ;;; hPut (pct c).
(** curve.go:62-67, Set *)
Definition hc_Set (c a : ocp) : prog unit :=
  bSet (pcx c) (pcx a) ;;; bSet (pcy c) (pcy a) ;;; bSet (pcz c) (pcz a) ;;; bSet (pct c) (pct a).
(** curve.go:82-88, SetInfinity, IsInfinity *)
Definition hc_SetInfinity (c : ocp) : prog unit := bSetInt64 (pcz c) 0.
Definition hc_IsInfinity (c : ocp) : prog bool := z <- rd (pcz c) ;; mret (z =? 0).
(** curve.go:196-239, Double *)
Definition hc_Double (c a : ocp) : prog unit :=
  A <- hGet ;; bMul A (pcx a) (pcx a) ;;;
  bMod A A ;;;
  B <- hGet ;; bMul B (pcy a) (pcy a) ;;;
  bMod B B ;;;
  C_ <- hGet ;; bMul C_ B B ;;;
  bMod C_ C_ ;;;
  t <- hGet ;; bAdd t (pcx a) B ;;;
  t2 <- hGet ;; bMul t2 t t ;;;
  bMod t2 t2 ;;;
  bSub t t2 A ;;;
  bSub t2 t C_ ;;;
  d <- hGet ;; bAdd d t2 t2 ;;;
  bAdd t A A ;;;
  e <- hGet ;; bAdd e t A ;;;
  f <- hGet ;; bMul f e e ;;;
  bMod f f ;;;
  bAdd t d d ;;;
  bSub (pcx c) f t ;;;
  bAdd t C_ C_ ;;;
  bAdd t2 t t ;;;
  bAdd t t2 t2 ;;;
  bSub (pcy c) d (pcx c) ;;;
  bMul t2 e (pcy c) ;;;
  bMod t2 t2 ;;;
  bSub (pcy c) t2 t ;;;
  bMul t (pcy a) (pcz a) ;;;
  bMod t t ;;;
  bAdd (pcz c) t t ;;;
  hPut A ;;; hPut B ;;; hPut C_ ;;; hPut t ;;; hPut t2 ;;; hPut d ;;; hPut e ;;; hPut f.
(** curve.go:90-194, Add *)
Definition hc_Add (c a b : ocp) : prog unit :=
  ia <- hc_IsInfinity a ;;
  if ia : bool then hc_Set c b else
  ib <- hc_IsInfinity b ;;
  if ib : bool then hc_Set c a else
  z1z1 <- hGet ;; bMul z1z1 (pcz a) (pcz a) ;;;
  bMod z1z1 z1z1 ;;;
  z2z2 <- hGet ;; bMul z2z2 (pcz b) (pcz b) ;;;
  bMod z2z2 z2z2 ;;;
  u1 <- hGet ;; bMul u1 (pcx a) z2z2 ;;;
  bMod u1 u1 ;;;
  u2 <- hGet ;; bMul u2 (pcx b) z1z1 ;;;
  bMod u2 u2 ;;;
  t <- hGet ;; bMul t (pcz b) z2z2 ;;;
  bMod t t ;;;
  s1 <- hGet ;; bMul s1 (pcy a) t ;;;
  bMod s1 s1 ;;;
  bMul t (pcz a) z1z1 ;;;
  bMod t t ;;;
  s2 <- hGet ;; bMul s2 (pcy b) t ;;;
  bMod s2 s2 ;;;
  h <- hGet ;; bSub h u2 u1 ;;;
  hv <- rd h ;; let xEqual := hv =? 0 in
  bAdd t h h ;;;
  i <- hGet ;; bMul i t t ;;;
  bMod i i ;;;
  j <- hGet ;; bMul j h i ;;;
  bMod j j ;;;
  bSub t s2 s1 ;;;
  tv <- rd t ;; let yEqual := tv =? 0 in
  if xEqual && yEqual then hc_Double c a else
  r <- hGet ;; bAdd r t t ;;;
  v <- hGet ;; bMul v u1 i ;;;
  bMod v v ;;;
  t4 <- hGet ;; bMul t4 r r ;;;
  bMod t4 t4 ;;;
  bAdd t v v ;;;
  t6 <- hGet ;; bSub t6 t4 j ;;;
  bSub (pcx c) t6 t ;;;
  bSub t v (pcx c) ;;;
  bMul t4 s1 j ;;;
  bMod t4 t4 ;;;
  bAdd t6 t4 t4 ;;;
  bMul t4 r t ;;;
  bMod t4 t4 ;;;
  bSub (pcy c) t4 t6 ;;;
  bAdd t (pcz a) (pcz b) ;;;
  bMul t4 t t ;;;
  bMod t4 t4 ;;;
  bSub t t4 z1z1 ;;;
  bSub t4 t z2z2 ;;;
  bMul (pcz c) t4 h ;;;
  bMod (pcz c) (pcz c) ;;;
  hPut z1z1 ;;; hPut z2z2 ;;; hPut u1 ;;; hPut u2 ;;; hPut t ;;; hPut s1 ;;; hPut s2 ;;; hPut h ;;;
  hPut i ;;; hPut j ;;; hPut r ;;; hPut v ;;; hPut t4 ;;; hPut t6.
(** curve.go:241-259, Mul *)
Definition hc_Mul (c a : ocp) (scalar : Z) : prog unit :=
  sum <- hc_new ;;
  hc_SetInfinity sum ;;;
  t <- hc_new ;;
  mloop (fun i => hc_Double t sum ;;; if Bit scalar i then hc_Add sum t a else hc_Set sum t)
        (Z.to_nat (BitLen scalar + 1)) ;;;
  hc_Set c sum ;;;
  hc_Put sum ;;; hc_Put t.
(** curve.go:261-292, MakeAffine.  If ModInverse returns nil, zInv is nil and
    line 275 panics *)
Definition hc_MakeAffine (c : ocp) : prog unit :=
  z <- rd (pcz c) ;;
  if big_IsOneWord z then mret tt else
  i <- hc_IsInfinity c ;;
  if i : bool then
    bSetInt64 (pcx c) 0 ;;; bSetInt64 (pcy c) 1 ;;; bSetInt64 (pcz c) 0 ;;; bSetInt64 (pct c) 0
  else
  zInv <- hGet ;; ok <- bModInverse zInv (pcz c) ;;
  if negb ok then mpanic else
  t <- hGet ;; bMul t (pcy c) zInv ;;;
  bMod t t ;;;
  zInv2 <- hGet ;; bMul zInv2 zInv zInv ;;;
  bMod zInv2 zInv2 ;;;
  bMul (pcy c) t zInv2 ;;;
  bMod (pcy c) (pcy c) ;;;
  bMul t (pcx c) zInv2 ;;;
  bMod t t ;;;
  bSet (pcx c) t ;;;
  bSetInt64 (pcz c) 1 ;;;
  bSetInt64 (pct c) 1 ;;;
  hPut zInv ;;; hPut t ;;; hPut zInv2.
(** curve.go:294-299, Negative *)
Definition hc_Negative (c a : ocp) : prog unit :=
  bSet (pcx c) (pcx a) ;;; bNeg (pcy c) (pcy a) ;;; bSet (pcz c) (pcz a) ;;; bSetInt64 (pct c) 0.

(** ** twist.go *)
(** twist.go:58-65, newTwistPoint *)
Definition ht_new : prog otp := x <- h2_new ;; y <- h2_new ;; z <- h2_new ;; t <- h2_new ;; mret (Otp x y z t).
(** twist.go:71-76, Put *)
Definition ht_Put (c : otp) : prog unit := h2_Put (ptx c) ;;; h2_Put (pty c) ;;; h2_Put (ptz c) ;;; h2_Put (ptt c).
(** twist.go:78-83, Set *)
Definition ht_Set (c a : otp) : prog unit :=
  h2_Set (ptx c) (ptx a) ;;; h2_Set (pty c) (pty a) ;;; h2_Set (ptz c) (ptz a) ;;; h2_Set (ptt c) (ptt a).
(** twist.go:97-103, SetInfinity, IsInfinity *)
Definition ht_SetInfinity (c : otp) : prog unit := h2_SetZero (ptz c).
Definition ht_IsInfinity (c : otp) : prog bool := h2_IsZero (ptz c).
(** twist.go:179-215, Double *)
Definition ht_Double (c a : otp) : prog unit :=
  A <- h2_new ;; h2_Square A (ptx a) ;;;
  B <- h2_new ;; h2_Square B (pty a) ;;;
  C_ <- h2_new ;; h2_Square C_ B ;;;
  t <- h2_new ;; h2_Add t (ptx a) B ;;;
  t2 <- h2_new ;; h2_Square t2 t ;;;
  h2_Sub t t2 A ;;;
  h2_Sub t2 t C_ ;;;
  d <- h2_new ;; h2_Add d t2 t2 ;;;
  h2_Add t A A ;;;
  e <- h2_new ;; h2_Add e t A ;;;
  f <- h2_new ;; h2_Square f e ;;;
  h2_Add t d d ;;;
  h2_Sub (ptx c) f t ;;;
  h2_Add t C_ C_ ;;;
  h2_Add t2 t t ;;;
  h2_Add t t2 t2 ;;;
  h2_Sub (pty c) d (ptx c) ;;;
  h2_Mul t2 e (pty c) ;;;
  h2_Sub (pty c) t2 t ;;;
  h2_Mul t (pty a) (ptz a) ;;;
  h2_Add (ptz c) t t ;;;
  h2_Put A ;;; h2_Put B ;;; h2_Put C_ ;;; h2_Put t ;;; h2_Put t2 ;;; h2_Put d ;;; h2_Put e ;;; h2_Put f.
(** twist.go:105-177, Add *)
Definition ht_Add (c a b : otp) : prog unit :=
  ia <- ht_IsInfinity a ;;
  if ia : bool then ht_Set c b else
  ib <- ht_IsInfinity b ;;
  if ib : bool then ht_Set c a else
  z1z1 <- h2_new ;; h2_Square z1z1 (ptz a) ;;;
  z2z2 <- h2_new ;; h2_Square z2z2 (ptz b) ;;;
  u1 <- h2_new ;; h2_Mul u1 (ptx a) z2z2 ;;;
  u2 <- h2_new ;; h2_Mul u2 (ptx b) z1z1 ;;;
  t <- h2_new ;; h2_Mul t (ptz b) z2z2 ;;;
  s1 <- h2_new ;; h2_Mul s1 (pty a) t ;;;
  h2_Mul t (ptz a) z1z1 ;;;
  s2 <- h2_new ;; h2_Mul s2 (pty b) t ;;;
  h <- h2_new ;; h2_Sub h u2 u1 ;;;
  xEqual <- h2_IsZero h ;;
  h2_Add t h h ;;;
  i <- h2_new ;; h2_Square i t ;;;
  j <- h2_new ;; h2_Mul j h i ;;;
  h2_Sub t s2 s1 ;;;
  yEqual <- h2_IsZero t ;;
  if xEqual && yEqual then ht_Double c a else
  r <- h2_new ;; h2_Add r t t ;;;
  v <- h2_new ;; h2_Mul v u1 i ;;;
  t4 <- h2_new ;; h2_Square t4 r ;;;
  h2_Add t v v ;;;
  t6 <- h2_new ;; h2_Sub t6 t4 j ;;;
  h2_Sub (ptx c) t6 t ;;;
  h2_Sub t v (ptx c) ;;;
  h2_Mul t4 s1 j ;;;
  h2_Add t6 t4 t4 ;;;
  h2_Mul t4 r t ;;;
  h2_Sub (pty c) t4 t6 ;;;
  h2_Add t (ptz a) (ptz b) ;;;
  h2_Square t4 t ;;;
  h2_Sub t t4 z1z1 ;;;
  h2_Sub t4 t z2z2 ;;;
  h2_Mul (ptz c) t4 h ;;;
  h2_Put z1z1 ;;; h2_Put z2z2 ;;; h2_Put u1 ;;; h2_Put u2 ;;; h2_Put t ;;; h2_Put s1 ;;; h2_Put s2 ;;; h2_Put h ;;;
  h2_Put i ;;; h2_Put j ;;; h2_Put r ;;; h2_Put v ;;; h2_Put t4 ;;; h2_Put t6.
(** twist.go:217-235, Mul *)
Definition ht_Mul (c a : otp) (scalar : Z) : prog unit :=
  sum <- ht_new ;;
  ht_SetInfinity sum ;;;
  t <- ht_new ;;
  mloop (fun i => ht_Double t sum ;;; if Bit scalar i then ht_Add sum t a else ht_Set sum t)
        (Z.to_nat (BitLen scalar + 1)) ;;;
  ht_Set c sum ;;;
  ht_Put sum ;;; ht_Put t.
(** twist.go:237-256, MakeAffine *)
Definition ht_MakeAffine (c : otp) : prog unit :=
  o <- h2_IsOne (ptz c) ;;
  if o : bool then mret tt else
  zInv <- h2_new ;; h2_Invert zInv (ptz c) ;;;
  t <- h2_new ;; h2_Mul t (pty c) zInv ;;;
  zInv2 <- h2_new ;; h2_Square zInv2 zInv ;;;
  h2_Mul (pty c) t zInv2 ;;;
  h2_Mul t (ptx c) zInv2 ;;;
  h2_Set (ptx c) t ;;;
  h2_SetOne (ptz c) ;;;
  h2_SetOne (ptt c) ;;;
  h2_Put zInv ;;; h2_Put t ;;; h2_Put zInv2.
(** twist.go:258-264, Negative *)
Definition ht_Negative (c a : otp) : prog unit :=
  h2_Set (ptx c) (ptx a) ;;;
  h2_SetZero (pty c) ;;;
  h2_Sub (pty c) (pty c) (pty a) ;;;
  h2_Set (ptz c) (ptz a) ;;;
  h2_SetZero (ptt c).

(** ** optate.go *)
(** optate.go:20-96, lineFunctionAdd: the results are (a, b, c, rOut) *)
Definition h_lineFunctionAdd (r p : otp) (q : ocp) (r2 : o2) : prog (o2 * o2 * o2 * otp) :=
  B <- h2_new ;; h2_Mul B (ptx p) (ptt r) ;;;
  D <- h2_new ;; h2_Add D (pty p) (ptz r) ;;;
  h2_Square D D ;;;
  h2_Sub D D r2 ;;;
  h2_Sub D D (ptt r) ;;;
  h2_Mul D D (ptt r) ;;;
  H <- h2_new ;; h2_Sub H B (ptx r) ;;;
  I <- h2_new ;; h2_Square I H ;;;
  E <- h2_new ;; h2_Add E I I ;;;
  h2_Add E E E ;;;
  J <- h2_new ;; h2_Mul J H E ;;;
  L1 <- h2_new ;; h2_Sub L1 D (pty r) ;;;
  h2_Sub L1 L1 (pty r) ;;;
  V <- h2_new ;; h2_Mul V (ptx r) E ;;;
  rOut <- ht_new ;;
  h2_Square (ptx rOut) L1 ;;;
  h2_Sub (ptx rOut) (ptx rOut) J ;;;
  h2_Sub (ptx rOut) (ptx rOut) V ;;;
  h2_Sub (ptx rOut) (ptx rOut) V ;;;
  h2_Add (ptz rOut) (ptz r) H ;;;
  h2_Square (ptz rOut) (ptz rOut) ;;;
  h2_Sub (ptz rOut) (ptz rOut) (ptt r) ;;;
  h2_Sub (ptz rOut) (ptz rOut) I ;;;
  t <- h2_new ;; h2_Sub t V (ptx rOut) ;;;
  h2_Mul t t L1 ;;;
  t2 <- h2_new ;; h2_Mul t2 (pty r) J ;;;
  h2_Add t2 t2 t2 ;;;
  h2_Sub (pty rOut) t t2 ;;;
  h2_Square (ptt rOut) (ptz rOut) ;;;
  h2_Add t (pty p) (ptz rOut) ;;;
  h2_Square t t ;;;
  h2_Sub t t r2 ;;;
  h2_Sub t t (ptt rOut) ;;;
  h2_Mul t2 L1 (ptx p) ;;;
  h2_Add t2 t2 t2 ;;;
  a <- h2_new ;;
  h2_Sub a t2 t ;;;
  c <- h2_new ;;
  h2_MulScalar c (ptz rOut) (pcy q) ;;;
  h2_Add c c c ;;;
  b <- h2_new ;;
  h2_SetZero b ;;;
  h2_Sub b b L1 ;;;
  h2_MulScalar b b (pcx q) ;;;
  h2_Add b b b ;;;
  h2_Put B ;;; h2_Put D ;;; h2_Put H ;;; h2_Put I ;;; h2_Put E ;;; h2_Put J ;;; h2_Put L1 ;;; h2_Put V ;;;
  h2_Put t ;;; h2_Put t2 ;;;
  mret (a, b, c, rOut).
(** optate.go:98-165, lineFunctionDouble *)
Definition h_lineFunctionDouble (r : otp) (q : ocp) : prog (o2 * o2 * o2 * otp) :=
  A <- h2_new ;; h2_Square A (ptx r) ;;;
  B <- h2_new ;; h2_Square B (pty r) ;;;
  C_ <- h2_new ;; h2_Square C_ B ;;;
  D <- h2_new ;; h2_Add D (ptx r) B ;;;
  h2_Square D D ;;;
  h2_Sub D D A ;;;
  h2_Sub D D C_ ;;;
  h2_Add D D D ;;;
  E <- h2_new ;; h2_Add E A A ;;;
  h2_Add E E A ;;;
  G <- h2_new ;; h2_Square G E ;;;
  rOut <- ht_new ;;
  h2_Sub (ptx rOut) G D ;;;
  h2_Sub (ptx rOut) (ptx rOut) D ;;;
  h2_Add (ptz rOut) (pty r) (ptz r) ;;;
  h2_Square (ptz rOut) (ptz rOut) ;;;
  h2_Sub (ptz rOut) (ptz rOut) B ;;;
  h2_Sub (ptz rOut) (ptz rOut) (ptt r) ;;;
  h2_Sub (pty rOut) D (ptx rOut) ;;;
  h2_Mul (pty rOut) (pty rOut) E ;;;
  t <- h2_new ;; h2_Add t C_ C_ ;;;
  h2_Add t t t ;;;
  h2_Add t t t ;;;
  h2_Sub (pty rOut) (pty rOut) t ;;;
  h2_Square (ptt rOut) (ptz rOut) ;;;
  h2_Mul t E (ptt r) ;;;
  h2_Add t t t ;;;
  b <- h2_new ;;
  h2_SetZero b ;;;
  h2_Sub b b t ;;;
  h2_MulScalar b b (pcx q) ;;;
  a <- h2_new ;;
  h2_Add a (ptx r) E ;;;
  h2_Square a a ;;;
  h2_Sub a a A ;;;
  h2_Sub a a G ;;;
  h2_Add t B B ;;;
  h2_Add t t t ;;;
  h2_Sub a a t ;;;
  c <- h2_new ;;
  h2_Mul c (ptz rOut) (ptt r) ;;;
  h2_Add c c c ;;;
  h2_MulScalar c c (pcy q) ;;;
  h2_Put A ;;; h2_Put B ;;; h2_Put C_ ;;; h2_Put D ;;; h2_Put E ;;; h2_Put G ;;; h2_Put t ;;;
  mret (a, b, c, rOut).
(** optate.go:167-195, mulLine *)
Definition h_mulLine (ret : o12) (a b c : o2) : prog unit :=
  a2 <- h6_new ;;
  h2_SetZero (p6x a2) ;;;
  h2_Set (p6y a2) a ;;;
  h2_Set (p6z a2) b ;;;
  h6_Mul a2 a2 (p12x ret) ;;;
  t3 <- h6_new ;; h6_MulScalar t3 (p12y ret) c ;;;
  t <- h2_new ;;
  h2_Add t b c ;;;
  t2 <- h6_new ;;
  h2_SetZero (p6x t2) ;;;
  h2_Set (p6y t2) a ;;;
  h2_Set (p6z t2) t ;;;
  h6_Add (p12x ret) (p12x ret) (p12y ret) ;;;
  h6_Set (p12y ret) t3 ;;;
  h6_Mul (p12x ret) (p12x ret) t2 ;;;
  h6_Sub (p12x ret) (p12x ret) a2 ;;;
  h6_Sub (p12x ret) (p12x ret) (p12y ret) ;;;
  h6_MulTau a2 a2 ;;;
  h6_Add (p12y ret) (p12y ret) a2 ;;;
  h6_Put a2 ;;; h6_Put t3 ;;; h6_Put t2 ;;; h2_Put t.
(** optate.go:233-237, 248-252, 293-298, 302-307: multiply by the line, release
    the coefficients and the old r *)
Definition h_use_line (ret : o12) (l : o2 * o2 * o2 * otp) (r : otp) : prog otp :=
  let '(a, b, c, newR) := l in
  h_mulLine ret a b c ;;;
  h2_Put a ;;; h2_Put b ;;; h2_Put c ;;; ht_Put r ;;;
  mret newR.
(** optate.go:226-254, the loop; it returns the last r *)
Fixpoint h_miller_loop (ret : o12) (aAffine minusA : otp) (bAffine : ocp) (r2 : o2) (first : bool)
    (digits : list Z) (r : otp) : prog otp :=
  match digits with
  | [] => mret r
  | d :: digits' =>
      l <- h_lineFunctionDouble r bAffine ;;
      (if first then mret tt else h12_Square ret ret) ;;;
      r <- h_use_line ret l r ;;
      r <- (if d =? 1 then l <- h_lineFunctionAdd r aAffine bAffine r2 ;; h_use_line ret l r
            else if d =? -1 then l <- h_lineFunctionAdd r minusA bAffine r2 ;; h_use_line ret l r
            else mret r) ;;
      h_miller_loop ret aAffine minusA bAffine r2 false digits' r
  end.
(** optate.go:205-316, miller (q1 and minusQ2 are not returned to the pool) *)
Definition h_miller (q : otp) (p : ocp) : prog o12 :=
  ret <- h12_new ;;
  h12_SetOne ret ;;;
  aAffine <- ht_new ;;
  ht_Set aAffine q ;;;
  ht_MakeAffine aAffine ;;;
  bAffine <- hc_new ;;
  hc_Set bAffine p ;;;
  hc_MakeAffine bAffine ;;;
  minusA <- ht_new ;;
  ht_Negative minusA aAffine ;;;
  r <- ht_new ;;
  ht_Set r aAffine ;;;
  r2 <- h2_new ;;
  h2_Square r2 (pty aAffine) ;;;
  r <- h_miller_loop ret aAffine minusA bAffine r2 true miller_digits r ;;
  q1 <- ht_new ;;
  h2_Conjugate (ptx q1) (ptx aAffine) ;;;
  h2_Mul (ptx q1) (ptx q1) gl_xi3 ;;;
  h2_Conjugate (pty q1) (pty aAffine) ;;;
  h2_Mul (pty q1) (pty q1) gl_xi2 ;;;
  h2_SetOne (ptz q1) ;;;
  h2_SetOne (ptt q1) ;;;
  minusQ2 <- ht_new ;;
  h2_MulScalar (ptx minusQ2) (ptx aAffine) gl_s3 ;;;
  h2_Set (pty minusQ2) (pty aAffine) ;;;
  h2_SetOne (ptz minusQ2) ;;;
  h2_SetOne (ptt minusQ2) ;;;
  h2_Square r2 (pty q1) ;;;
  l <- h_lineFunctionAdd r q1 bAffine r2 ;;
  r <- h_use_line ret l r ;;
  h2_Square r2 (pty minusQ2) ;;;
  l <- h_lineFunctionAdd r minusQ2 bAffine r2 ;;
  r <- h_use_line ret l r ;;
  ht_Put aAffine ;;; hc_Put bAffine ;;; ht_Put minusA ;;; ht_Put r ;;; h2_Put r2 ;;;
  mret ret.
(** optate.go:321-399, finalExponentiation *)
Definition h_finalExponentiation (i : o12) : prog o12 :=
  t1 <- h12_new ;;
  h6_Negative (p12x t1) (p12x i) ;;;
  h6_Set (p12y t1) (p12y i) ;;;
  inv <- h12_new ;;
  h12_Invert inv i ;;;
  h12_Mul t1 t1 inv ;;;
  t2 <- h12_new ;; h12_FrobeniusP2 t2 t1 ;;;
  h12_Mul t1 t1 t2 ;;;
  fp <- h12_new ;; h12_Frobenius fp t1 ;;;
  fp2 <- h12_new ;; h12_FrobeniusP2 fp2 t1 ;;;
  fp3 <- h12_new ;; h12_Frobenius fp3 fp2 ;;;
  fu <- h12_new ;; fu2 <- h12_new ;; fu3 <- h12_new ;;
  h12_Exp fu t1 bn_u ;;;
  h12_Exp fu2 fu bn_u ;;;
  h12_Exp fu3 fu2 bn_u ;;;
  y3 <- h12_new ;; h12_Frobenius y3 fu ;;;
  fu2p <- h12_new ;; h12_Frobenius fu2p fu2 ;;;
  fu3p <- h12_new ;; h12_Frobenius fu3p fu3 ;;;
  y2 <- h12_new ;; h12_FrobeniusP2 y2 fu2 ;;;
  y0 <- h12_new ;;
  h12_Mul y0 fp fp2 ;;;
  h12_Mul y0 y0 fp3 ;;;
  y1 <- h12_new ;; y4 <- h12_new ;; y5 <- h12_new ;;
  h12_Conjugate y1 t1 ;;;
  h12_Conjugate y5 fu2 ;;;
  h12_Conjugate y3 y3 ;;;
  h12_Mul y4 fu fu2p ;;;
  h12_Conjugate y4 y4 ;;;
  y6 <- h12_new ;;
  h12_Mul y6 fu3 fu3p ;;;
  h12_Conjugate y6 y6 ;;;
  t0 <- h12_new ;;
  h12_Square t0 y6 ;;;
  h12_Mul t0 t0 y4 ;;;
  h12_Mul t0 t0 y5 ;;;
  h12_Mul t1 y3 y5 ;;;
  h12_Mul t1 t1 t0 ;;;
  h12_Mul t0 t0 y2 ;;;
  h12_Square t1 t1 ;;;
  h12_Mul t1 t1 t0 ;;;
  h12_Square t1 t1 ;;;
  h12_Mul t0 t1 y1 ;;;
  h12_Mul t1 t1 y0 ;;;
  h12_Square t0 t0 ;;;
  h12_Mul t0 t0 t1 ;;;
  h12_Put inv ;;; h12_Put t1 ;;; h12_Put t2 ;;; h12_Put fp ;;; h12_Put fp2 ;;; h12_Put fp3 ;;;
  h12_Put fu ;;; h12_Put fu2 ;;; h12_Put fu3 ;;; h12_Put fu2p ;;; h12_Put fu3p ;;;
  h12_Put y0 ;;; h12_Put y1 ;;; h12_Put y2 ;;; h12_Put y3 ;;; h12_Put y4 ;;; h12_Put y5 ;;; h12_Put y6 ;;;
  mret t0.
(** optate.go:401-410, optimalAte *)
Definition h_optimalAte (a : otp) (b : ocp) : prog o12 :=
  e <- h_miller a b ;;
  ret <- h_finalExponentiation e ;;
  h12_Put e ;;;
  ia <- ht_IsInfinity a ;;
  ib <- hc_IsInfinity b ;;
  (if ia || ib then h12_SetOne ret else mret tt) ;;;
  mret ret.

(** ** bn256.go.  A receiver of type G1, G2 or GT is given by its field p, which may
    be nil; the result is the field p after the call. *)
Definition or_new {A} (p : option A) (new : prog A) : prog A :=
  match p with Some o => mret o | None => with_nil_pool new end.
(** bn256.go:79-83, SetInfinity *)
Definition hG1_SetInfinity : prog ocp := p <- with_new_pool hc_new ;; hc_SetInfinity p ;;; mret p.
(** bn256.go:88-103, ScalarBaseMult *)
Definition hG1_ScalarBaseMult (e : option ocp) (k : Z) : prog ocp :=
  p <- or_new e hc_new ;;
  (if 0 <=? k then
     if k =? 0 then hc_SetInfinity p else with_new_pool (hc_Mul p gl_curveGen k)
   else with_new_pool (hc_Mul p gl_curveGen (Z.abs k)) ;;; hc_Negative p p) ;;;
  mret p.
(** bn256.go:107-122, ScalarMult *)
Definition hG1_ScalarMult (e : option ocp) (a : ocp) (k : Z) : prog ocp :=
  p <- or_new e hc_new ;;
  (if 0 <=? k then
     if k =? 0 then hc_SetInfinity p else with_new_pool (hc_Mul p a k)
   else with_new_pool (hc_Mul p a (Z.abs k)) ;;; hc_Negative p p) ;;;
  mret p.
(** bn256.go:126-132, Add *)
Definition hG1_Add (e : option ocp) (a b : ocp) : prog ocp :=
  p <- or_new e hc_new ;; with_new_pool (hc_Add p a b) ;;; mret p.
(** bn256.go:135-141, Neg *)
Definition hG1_Neg (e : option ocp) (a : ocp) : prog ocp :=
  p <- or_new e hc_new ;; hc_Negative p a ;;; mret p.
(** bn256.go:144-158, Marshal *)
Definition hG1_Marshal (n : ocp) : prog (list Z) :=
  with_nil_pool (hc_MakeAffine n) ;;;
  x <- rd (pcx n) ;; y <- rd (pcy n) ;;
  mret (block32 (Bytes (bmod x bn_P)) ++ block32 (Bytes (bmod y bn_P))).
(** bn256.go:230-234, SetInfinity *)
Definition hG2_SetInfinity : prog otp := p <- with_new_pool ht_new ;; ht_SetInfinity p ;;; mret p.
(** bn256.go:239-249, ScalarBaseMult *)
Definition hG2_ScalarBaseMult (e : option otp) (k : Z) : prog otp :=
  p <- or_new e ht_new ;;
  (if 0 <=? k then with_new_pool (ht_Mul p gl_twistGen k)
   else with_new_pool (ht_Mul p gl_twistGen (Z.abs k)) ;;; with_new_pool (ht_Negative p p)) ;;;
  mret p.
(** bn256.go:253-263, ScalarMult *)
Definition hG2_ScalarMult (e : option otp) (a : otp) (k : Z) : prog otp :=
  p <- or_new e ht_new ;;
  (if 0 <=? k then with_new_pool (ht_Mul p a k)
   else with_new_pool (ht_Mul p a (Z.abs k)) ;;; with_new_pool (ht_Negative p p)) ;;;
  mret p.
(** bn256.go:267-273, Add *)
Definition hG2_Add (e : option otp) (a b : otp) : prog otp :=
  p <- or_new e ht_new ;; with_new_pool (ht_Add p a b) ;;; mret p.
(** bn256.go:276-282, Neg *)
Definition hG2_Neg (e : option otp) (a : otp) : prog otp :=
  p <- or_new e ht_new ;; with_new_pool (ht_Negative p a) ;;; mret p.
(** bn256.go:285-303, Marshal *)
Definition hG2_Marshal (n : otp) : prog (list Z) :=
  with_nil_pool (ht_MakeAffine n) ;;;
  xx <- rd (p2x (ptx n)) ;; xy <- rd (p2y (ptx n)) ;; yx <- rd (p2x (pty n)) ;; yy <- rd (p2y (pty n)) ;;
  let enc z := block32 (Bytes (bmod z bn_P)) in
  mret (enc xx ++ enc xy ++ enc yx ++ enc yy).
(** bn256.go:355-361, ScalarMult *)
Definition hGT_ScalarMult (e : option o12) (a : o12) (k : Z) : prog o12 :=
  p <- or_new e h12_new ;; with_new_pool (h12_Exp p a k) ;;; mret p.
(** bn256.go:373-379, Invert *)
Definition hGT_Invert (e : option o12) (a : o12) : prog o12 :=
  p <- or_new e h12_new ;; with_new_pool (h12_Invert p a) ;;; mret p.
(** bn256.go:363-371, Exp: the receiver is not used *)
Definition hGT_Exp (a : o12) (k : Z) : prog o12 :=
  if 0 <=? k then hGT_ScalarMult (Some a) a k
  else p <- hGT_ScalarMult (Some a) a (Z.abs k) ;; hGT_Invert (Some a) p.
(** bn256.go:407-422, Add, Neg *)
Definition hGT_Add (e : option o12) (a b : o12) : prog o12 :=
  p <- or_new e h12_new ;; with_new_pool (h12_Mul p a b) ;;; mret p.
Definition hGT_Neg (e : option o12) (a : o12) : prog o12 :=
  p <- or_new e h12_new ;; with_new_pool (h12_Invert p a) ;;; mret p.
(** bn256.go:492-494, Pair *)
Definition h_Pair (g1 : ocp) (g2 : otp) : prog o12 := with_new_pool (h_optimalAte g2 g1).
(** bn256.go:503-508, the loop of PairingCheck; b[i] panics if b is shorter *)
Fixpoint h_PairingCheck_loop (a : list ocp) (b : list otp) (acc : o12) : prog unit :=
  match a with
  | [] => mret tt
  | p :: a' =>
      ip <- hc_IsInfinity p ;;
      match b with
      | [] => if ip : bool then h_PairingCheck_loop a' b acc else mpanic
      | q :: b' =>
          iq <- ht_IsInfinity q ;;
          if ip || iq then h_PairingCheck_loop a' b' acc
          else m <- h_miller q p ;; h12_Mul acc acc m ;;; h_PairingCheck_loop a' b' acc
      end
  end.
(** bn256.go:497-513, PairingCheck *)
Definition h_PairingCheck (a : list ocp) (b : list otp) : prog bool :=
  with_new_pool (
    acc <- h12_new ;;
    h12_SetOne acc ;;;
    h_PairingCheck_loop a b acc ;;;
    ret <- h_finalExponentiation acc ;;
    h12_Put acc ;;;
    h12_IsOne ret).
