(** * Specification vocabulary for the codec properties (C01-C07), independent
    of the model: nothing here mentions a function of the repository. *)
From Coq Require Import ZArith List.
Import ListNotations.
Open Scope Z_scope.

Definition byte (b : Z) : Prop := 0 <= b < 256.

(** unsigned big-endian value: sum of b_i * 256^(n-1-i) *)
Fixpoint be_value (l : list Z) : Z :=
  match l with
  | [] => 0
  | b :: rest => b * 256 ^ Z.of_nat (length rest) + be_value rest
  end.

(** two's-complement big-endian value *)
Definition twos_value (l : list Z) : Z :=
  match l with
  | [] => 0
  | b :: _ => if 128 <=? b then be_value l - 256 ^ Z.of_nat (length l) else be_value l
  end.

(** [l] represents [x] in two's complement *)
Definition represents (l : list Z) (x : Z) : Prop :=
  Forall byte l /\ l <> [] /\ twos_value l = x.

(** no shorter byte string represents the same integer *)
Definition shortest (l : list Z) (x : Z) : Prop :=
  represents l x /\ forall l', represents l' x -> (length l <= length l')%nat.

(** decimal value of a list of ASCII digits *)
Definition ascii_digits (l : list Z) : Prop := Forall (fun c => 48 <= c <= 57) l.
Fixpoint dec_value (l : list Z) : Z :=
  match l with
  | [] => 0
  | c :: rest => (c - 48) * 10 ^ Z.of_nat (length rest) + dec_value rest
  end.
(** what a valid field looks like: digits, possibly after one minus sign (both
    may be followed by no digit at all) *)
Definition field_ok (l : list Z) : Prop :=
  ascii_digits l \/ exists t, l = 45 :: t /\ ascii_digits t.

(** comma-separated concatenation of fields *)
Fixpoint join (fields : list (list Z)) : list Z :=
  match fields with
  | [] => []
  | [f] => f
  | f :: rest => f ++ 44 :: join rest
  end.

(** value of a list of base-u digits, least significant first *)
Fixpoint le_value (u : Z) (l : list Z) : Z :=
  match l with
  | [] => 0
  | d :: rest => d + u * le_value u rest
  end.
