(** * The random tapes of the provers, drawn from a reader

    The provers ignore the error of rand.Int (and would panic at the first use
    of the nil it leaves behind); the model stops with [Err]. *)
From Coq Require Import ZArith List.
From Verif Require Import Base P256 Vector Bulletproofs BB CCS08 Rand.
Import ListNotations.
Open Scope Z_scope.

(** bp.go:338-344, sampleRandomVector, for any order *)
Fixpoint draws (max : Z) (n : nat) (s : list Z) : res (list Z * list Z) :=
  match n with
  | O => Ok ([], s)
  | S n' =>
      bind (rand_Int max s) (fun '(x, s) =>
      bind (draws max n' s) (fun '(l, s) => Ok (x :: l, s)))
  end.
Definition sampleRandomVector (N : nat) (s : list Z) : res (list Z * list Z) := draws ORDER N s.

(** bp.go:113, 119, 123-125, 134-135: the draws of Prove, in this order *)
Definition draw_tape (N : nat) (s : list Z) : res (tape * list Z) :=
  bind (rand_Int ORDER s) (fun '(gamma, s) =>
  bind (rand_Int ORDER s) (fun '(alpha, s) =>
  bind (sampleRandomVector N s) (fun '(sL, s) =>
  bind (sampleRandomVector N s) (fun '(sR, s) =>
  bind (rand_Int ORDER s) (fun '(rho, s) =>
  bind (rand_Int ORDER s) (fun '(tau1, s) =>
  bind (rand_Int ORDER s) (fun '(tau2, s) =>
  Ok (Tape gamma alpha sL sR rho tau1 tau2, s)))))))).

(** ccs08.go:155, 157, 166, 171: the draws of ProveSet (the last two take place
    if the element has a signature, and are not used otherwise) *)
Definition draw_tapeSet (s : list Z) : res (tapeSet * list Z) :=
  bind (rand_Int bnOrder s) (fun '(m, s) =>
  bind (rand_Int bnOrder s) (fun '(v, s) =>
  bind (rand_Int bnOrder s) (fun '(s1, s) =>
  bind (rand_Int bnOrder s) (fun '(t, s) =>
  Ok (TapeSet m v s1 t, s))))).

(** ccs08.go:215, 219-225: the draws of ProveUL when every digit has a signature *)
Fixpoint draw_digits (l : nat) (s : list Z) : res (list (Z * Z * Z) * list Z) :=
  match l with
  | O => Ok ([], s)
  | S l' =>
      bind (rand_Int bnOrder s) (fun '(v, s) =>
      bind (rand_Int bnOrder s) (fun '(s1, s) =>
      bind (rand_Int bnOrder s) (fun '(t, s) =>
      bind (draw_digits l' s) (fun '(r, s) => Ok ((v, s1, t) :: r, s)))))
  end.
Definition draw_tapeUL (l : nat) (s : list Z) : res (tapeUL * list Z) :=
  bind (rand_Int bnOrder s) (fun '(m, s) =>
  bind (draw_digits l s) (fun '(ds, s) => Ok (TapeUL m ds, s))).
