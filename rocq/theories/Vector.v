(** * Model of bulletproofs/vector.go and bulletproofs/util.go

    [ORDER] is the order N of secp256k1 (bulletproofs.go:30).  Slices are lists
    (capacity equal to length, as made by [make] and [append] here), a nil
    slice is the empty list.  [Err] is a non-nil error. *)
From Coq Require Import ZArith List Bool.
From Verif Require Import Base P256.
Import ListNotations.
Open Scope Z_scope.

Definition ORDER : Z := secp_N.

(** ** Go conventions *)
(** [make([]T, n)] panics for a negative n *)
Definition make_ok {A} (n : Z) (l : list A) : res (list A) := if n <? 0 then Panic else Ok l.
Definition len {A} (l : list A) : Z := Z.of_nat (length l).
(** l[:k], l[k:] and l[i], with the run-time bounds checks *)
Definition slice_to {A} (l : list A) (k : Z) : res (list A) :=
  if (0 <=? k) && (k <=? len l) then Ok (firstn (Z.to_nat k) l) else Panic.
Definition slice_from {A} (l : list A) (k : Z) : res (list A) :=
  if (0 <=? k) && (k <=? len l) then Ok (skipn (Z.to_nat k) l) else Panic.
Definition index {A} (l : list A) (i : Z) : res A :=
  if i <? 0 then Panic else match nth_error l (Z.to_nat i) with Some x => Ok x | None => Panic end.
(** an ignored error: the slice result is nil, i.e. empty *)
Definition ign_vec {A} (r : res (list A)) : res (list A) := match r with Err => Ok [] | _ => r end.
(** an ignored error: the pointer result is nil *)
Definition ign_ptr {A} (r : res A) : res (option A) :=
  match r with Ok a => Ok (Some a) | Err => Ok None | Panic => Panic end.
(** dereference of a possibly nil pointer *)
Definition deref {A} (p : option A) : res A := match p with Some a => Ok a | None => Panic end.
(** ignored error, the pointer being dereferenced by the next operation *)
Definition must {A} (r : res A) : res A := bind (ign_ptr r) deref.

Notation "'let*' x := e 'in' f" := (bind e (fun x => f)) (at level 200, x pattern, e at level 100, f at level 200).

Fixpoint map2 {A B C} (f : A -> B -> C) (a : list A) (b : list B) : list C :=
  match a, b with x :: a', y :: b' => f x y :: map2 f a' b' | _, _ => [] end.

(** ** vector.go *)
(** vector.go:31-43, VectorCopy (the copies share one big.Int, which no code
    mutates) *)
Definition VectorCopy (a n : Z) : res (list Z) := make_ok n (repeat a (Z.to_nat n)).

(** vector.go:48-60, VectorConvertToBig *)
Definition VectorConvertToBig (a : list Z) (n : Z) : res (list Z) :=
  if n <? 0 then Panic else if len a <? n then Panic else Ok (firstn (Z.to_nat n) a).

(** vector.go:65-83, VectorAdd *)
Definition VectorAdd (a b : list Z) : res (list Z) :=
  if negb (len a =? len b) then Err else Ok (map2 (fun x y => bmod (x + y) ORDER) a b).

(** vector.go:88-106, VectorSub *)
Definition VectorSub (a b : list Z) : res (list Z) :=
  if negb (len a =? len b) then Err else Ok (map2 (fun x y => bmod (x - y) ORDER) a b).

(** vector.go:111-125, VectorScalarMul; the scalar may be a nil pointer, which
    panics on the first component *)
Definition VectorScalarMul (a : list Z) (b : option Z) : res (list Z) :=
  match a, b with
  | [], _ => Ok []
  | _, None => Panic
  | _, Some b => Ok (map (fun x => bmod (x * b) ORDER) a)
  end.

(** vector.go:130-148, VectorMul *)
Definition VectorMul (a b : list Z) : res (list Z) :=
  if negb (len a =? len b) then Err else Ok (map2 (fun x y => bmod (x * y) ORDER) a b).

(** vector.go:153-170, VectorECAdd *)
Definition VectorECAdd (E : ext) (a b : list point) : res (list point) :=
  if negb (len a =? len b) then Err else Ok (map2 (Multiply E) a b).

(** ** util.go *)
(** util.go:34-49, powerOf *)
Fixpoint powerOf_loop (x current : Z) (n : nat) : list Z :=
  match n with
  | O => []
  | S n' => current :: powerOf_loop x (bmod (current * x) ORDER) n'
  end.
Definition powerOf (x n : Z) : res (list Z) := make_ok n (powerOf_loop x 1 (Z.to_nat n)).

(** util.go:54-80, HashBP; [sha] is sha256.  The bytes of the first and of
    the second digest, then the two results. *)
Definition HashBP_buffer (A S : point) : list Z :=
  X_String A ++ Y_String A ++ X_String S ++ Y_String S.
Definition HashBP (sha : list Z -> list Z) (A S : point) : Z * Z :=
  let buffer := HashBP_buffer A S in
  let result1 := SetBytes (sha buffer) in
  let buffer2 := HashBP_buffer A S ++ big_String result1 in
  let result2 := SetBytes (sha buffer) in                  (* 74: buffer, not buffer2 *)
  (result1, result2).

(** util.go:85-102, VectorExp *)
Definition VectorExp (E : ext) (a : list point) (b : list Z) : res point :=
  if negb (len a =? len b) then Err
  else Ok (fold_left (fun r ab => Multiply E r (ScalarMult E (fst ab) (snd ab))) (combine a b) SetInfinity).

(** util.go:107-126, ScalarProduct *)
Definition ScalarProduct (a b : list Z) : res Z :=
  if negb (len a =? len b) then Err
  else Ok (fold_left (fun r ab => bmod (r + fst ab * snd ab) ORDER) (combine a b) 0).

(** util.go:132-134, IsPowerOfTwo: int64 arithmetic, x - 1 wraps *)
Definition wrap64 (x : Z) : Z := (x + 2 ^ 63) mod 2 ^ 64 - 2 ^ 63.
Definition IsPowerOfTwo (x : Z) : bool :=
  negb (x =? 0) && (Z.land x (wrap64 (x - 1)) =? 0).

(** P256.ScalarMult (p256.go:107-121) with a possibly nil scalar: a point at
    infinity returns before the scalar is read. *)
Definition ScalarMultP (E : ext) (a : point) (n : option Z) : res point :=
  match n with
  | Some n => Ok (ScalarMult E a n)
  | None => if IsZero a then Ok SetInfinity else Panic
  end.
