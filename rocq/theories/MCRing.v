(** [ring] and [field] for MathComp structures. *)
From Coq Require Import Ring Field.
From mathcomp Require Import all_ssreflect all_algebra.
Set Implicit Arguments.
Unset Strict Implicit.
Unset Printing Implicit Defensive.
Import GRing.Theory.
Local Open Scope ring_scope.

(** plain copies of the operations, on which [ring] and [field] can reflect *)
Definition kadd (K : comRingType) (x y : K) : K := x + y.
Definition kmul (K : comRingType) (x y : K) : K := x * y.
Definition kopp (K : comRingType) (x : K) : K := - x.
Definition ksub (K : comRingType) (x y : K) : K := x - y.
Definition kzero (K : comRingType) : K := 0.
Definition kone (K : comRingType) : K := 1.
Definition fadd (K : fieldType) (x y : K) : K := x + y.
Definition fmul (K : fieldType) (x y : K) : K := x * y.
Definition fopp (K : fieldType) (x : K) : K := - x.
Definition fsub (K : fieldType) (x y : K) : K := x - y.
Definition fzero (K : fieldType) : K := 0.
Definition fone (K : fieldType) : K := 1.
Definition finv (K : fieldType) (x : K) : K := x^-1.
Definition fdiv (K : fieldType) (x y : K) : K := x / y.

Lemma mc_ring (K : comRingType) :
  @ring_theory K (kzero K) (kone K) (@kadd K) (@kmul K) (@ksub K) (@kopp K) eq.
Proof.
split => //.
- exact: add0r.
- exact: addrC.
- exact: addrA.
- exact: mul1r.
- exact: mulrC.
- exact: mulrA.
- exact: mulrDl.
- exact: subrr.
Qed.

Lemma mc_field (K : fieldType) :
  @field_theory K (fzero K) (fone K) (@fadd K) (@fmul K) (@fsub K) (@fopp K) (@fdiv K) (@finv K) eq.
Proof.
split => //.
- exact: (mc_ring K).
- by apply/eqP; rewrite oner_eq0.
- by move=> p /eqP p0; rewrite /fmul /finv mulVf.
Qed.

Ltac to_k K :=
  rewrite ?exprS ?expr0 ?mulrS ?mulr0n;
  repeat match goal with
  | |- context [@GRing.add ?V ?a ?b] => change (@GRing.add V a b) with (@kadd K a b)
  | |- context [@GRing.mul ?V ?a ?b] => change (@GRing.mul V a b) with (@kmul K a b)
  | |- context [@GRing.opp ?V ?a] => change (@GRing.opp V a) with (@kopp K a)
  | |- context [GRing.zero ?V] => change (GRing.zero V) with (kzero K)
  | |- context [GRing.one ?V] => change (GRing.one V) with (kone K)
  end;
  match goal with |- @eq _ ?a ?b => change (@eq (GRing.ComRing.sort K) a b) end.
Ltac mcr K := to_k K; ring.

Ltac to_f K :=
  rewrite ?exprS ?expr0 ?mulrS ?mulr0n;
  repeat match goal with
  | |- context [@GRing.add ?V ?a ?b] => change (@GRing.add V a b) with (@fadd K a b)
  | |- context [@GRing.mul ?V ?a ?b] => change (@GRing.mul V a b) with (@fmul K a b)
  | |- context [@GRing.opp ?V ?a] => change (@GRing.opp V a) with (@fopp K a)
  | |- context [@GRing.inv ?V ?a] => change (@GRing.inv V a) with (@finv K a)
  | |- context [GRing.zero ?V] => change (GRing.zero V) with (fzero K)
  | |- context [GRing.one ?V] => change (GRing.one V) with (fone K)
  end;
  match goal with |- @eq _ ?a ?b => change (@eq (GRing.Field.sort K) a b) end.
(** leaves the side conditions "denominator <> 0" in MathComp notation *)
Ltac un_f := rewrite /fadd /fmul /fopp /fsub /finv /fdiv /fzero /fone.
Ltac mcf K := to_f K; field; un_f.
Ltac mcfr K := to_f K; ring.
