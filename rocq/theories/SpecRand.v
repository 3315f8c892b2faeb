(** * Vocabulary of C68: uniform sampling from a stream of bytes *)
From Coq Require Import ZArith List.
From Verif Require Import SpecCodec.
Import ListNotations.
Open Scope Z_scope.

(** the i-th block of k bytes *)
Definition block (k i : nat) (s : list Z) : list Z := firstn k (skipn (k * i) s).
(** the number a block stands for: its n low bits *)
Definition candidate (n : Z) (l : list Z) : Z := be_value l mod 2 ^ n.
(** block i is complete, its candidate lies in [lo, hi), and no earlier one does *)
Definition first_hit (n : Z) (k : nat) (lo hi : Z) (s : list Z) (i : nat) : Prop :=
  (k * S i <= length s)%nat /\ lo <= candidate n (block k i s) < hi /\
  forall j, (j < i)%nat -> ~ lo <= candidate n (block k j s) < hi.
(** no complete block will do *)
Definition no_hit (n : Z) (k : nat) (lo hi : Z) (s : list Z) : Prop :=
  forall i, (k * S i <= length s)%nat -> ~ lo <= candidate n (block k i s) < hi.
