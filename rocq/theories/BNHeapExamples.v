(** * A store on which the hypotheses of the statements about memory hold *)
From Coq Require Import ZArith List Bool Arith Lia.
From Verif Require Import Base BB BN256 BNHeap SpecHeap.
Import ListNotations.
Open Scope Z_scope.

Definition x2 (n : nat) : o2 := O2 n (n + 1)%nat.
Definition x6 (n : nat) : o6 := O6 (x2 n) (x2 (n + 2)%nat) (x2 (n + 4)%nat).
Definition x12 (n : nat) : o12 := O12 (x6 n) (x6 (n + 6)%nat).
Definition xc (n : nat) : ocp := Ocp n (n + 1)%nat (n + 2)%nat (n + 3)%nat.
Definition xt (n : nat) : otp := Otp (x2 n) (x2 (n + 2)%nat) (x2 (n + 4)%nat) (x2 (n + 6)%nat).

Lemma nodupb (l : list nat) : (fix f l := match l with [] => true | x :: xs => negb (existsb (Nat.eqb x) xs) && f xs end) l = true -> NoDup l.
Proof.
  induction l as [|x xs IH]; intros H; constructor; apply andb_true_iff in H; destruct H as [H1 H2]; [|auto].
  intros Hi; apply negb_true_iff in H1; assert (existsb (Nat.eqb x) xs = true); [|congruence].
  apply existsb_exists; exists x; rewrite Nat.eqb_refl; auto.
Qed.
Lemma demo_live p l : (l < 80)%nat -> p = dirty \/ p = None -> live_cell (demo p) l.
Proof.
  intros Hl Hp; split; [cbn; lia|]; intros (bs & E & Hi); destruct Hp as [->| ->]; [|discriminate].
  injection E as <-; cbn in Hi; lia.
Qed.
Lemma demo_good p : p = dirty \/ p = None -> good (demo p).
Proof.
  intros [->| ->] bs E; [|discriminate]; injection E as <-; split; [apply nodupb; reflexivity|]; cbn; intros l Hi; lia.
Qed.
Lemma demo_object {O V} (K : kind O V) p e : p = dirty \/ p = None ->
  (fix f l := match l with [] => true | x :: xs => negb (existsb (Nat.eqb x) xs) && f xs end) (locs K e) = true ->
  forallb (fun l => Nat.ltb l 80) (locs K e) = true -> object K (demo p) e.
Proof.
  intros Hp H1 H2; split; [apply nodupb, H1|]; intros l Hl; rewrite forallb_forall in H2; apply demo_live; [|exact Hp].
  apply Nat.ltb_lt, H2, Hl.
Qed.
Lemma apartb {O V O' V'} (K : kind O V) e (K' : kind O' V') a :
  forallb (fun l => negb (existsb (Nat.eqb l) (locs K' a))) (locs K e) = true -> apart K e K' a.
Proof.
  intros H l Hl Ha; rewrite forallb_forall in H; specialize (H l Hl); apply negb_true_iff in H.
  assert (existsb (Nat.eqb l) (locs K' a) = true); [|congruence]; apply existsb_exists; exists l; rewrite Nat.eqb_refl; auto.
Qed.
Lemma demo_package p : p = dirty \/ p = None -> package_variables (demo p).
Proof. intros Hp; split; [intros l Hl; apply demo_live; [lia|exact Hp]|]; repeat split; reflexivity. Qed.

Lemma demo_field : good (demo dirty) /\ package_variables (demo dirty) /\
  object kGF2 (demo dirty) (x2 25) /\ object kGF2 (demo dirty) (x2 27) /\ apart kGF2 (x2 25) kGF2 (x2 27) /\
  object kBig (demo dirty) 29%nat /\ apart kGF2 (x2 25) kBig 29%nat /\
  object kGF6 (demo dirty) (x6 25) /\ object kGF6 (demo dirty) (x6 31) /\ apart kGF6 (x6 25) kGF6 (x6 31) /\
  object kGF12 (demo dirty) (x12 25) /\ object kGF12 (demo dirty) (x12 37) /\ apart kGF12 (x12 25) kGF12 (x12 37) /\
  not_package_variable kGF12 (x12 25).
Proof.
  repeat match goal with |- _ /\ _ => split end; first [apply demo_good; auto | apply demo_package; auto | apply apartb; reflexivity
    | apply demo_object; [auto|reflexivity|reflexivity] | reflexivity | intros l Hl; cbn in Hl; lia].
Qed.
Lemma demo_api : good (demo None) /\ no_pool (demo None) /\ package_variables (demo None) /\
  object kCurve (demo None) (xc 25) /\ object kCurve (demo None) (xc 29) /\ apart kCurve (xc 25) kCurve (xc 29) /\
  object kTwist (demo None) (xt 33) /\ object kTwist (demo None) (xt 41) /\ apart kTwist (xt 33) kTwist (xt 41) /\
  object kGF12 (demo None) (x12 49) /\ object kGF12 (demo None) (x12 61) /\ apart kGF12 (x12 49) kGF12 (x12 61) /\
  object kCurve (demo None) gl_curveGen /\ object kTwist (demo None) gl_twistGen.
Proof.
  repeat match goal with |- _ /\ _ => split end; first [apply demo_good; auto | apply demo_package; auto | apply apartb; reflexivity
    | apply demo_object; [auto|reflexivity|reflexivity] | reflexivity | intros l Hl; cbn in Hl; lia].
Qed.
(** a multiplication in place, with stale integers in the pool *)
Definition out {A} (o : option (A * store)) (l : loc) : Z := match o with Some (_, s) => mem s l | None => 0 end.
Definition tally {A} (o : option (A * store)) : Z := match o with Some (_, s) => count s | None => 0 end.
Lemma demo_runs : mem (demo dirty) 25%nat = 1 /\ mem (demo dirty) 26%nat = 2 /\ mem (demo dirty) 80%nat = 56 /\
  out (h2_Mul (x2 25) (x2 25) (x2 25) (demo dirty)) 25%nat = 4 /\
  out (h2_Mul (x2 25) (x2 25) (x2 25) (demo dirty)) 26%nat = 3.
Proof. vm_compute; repeat split; reflexivity. Qed.
(** the scalar is a coordinate of the receiver *)
Lemma mulscalar_overlap : exists s e, good s /\ object kGF2 s e /\
  exists s', h2_MulScalar e e (p2x e) s = Some (tt, s') /\
    val kGF2 (mem s') e <> gfP2_MulScalar (val kGF2 (mem s) e) (mem s (p2x e)).
Proof.
  exists (demo dirty), (x2 27); split; [apply demo_good; auto|split; [apply demo_object; [auto|reflexivity|reflexivity]|]].
  eexists; split; [reflexivity|]; vm_compute; discriminate.
Qed.
(** doubling through Add: ten and twenty integers do not come back *)
Lemma tally_run {A} (o : option (A * store)) z : tally o = z -> z <> 0 -> exists a s', o = Some (a, s') /\ count s' = z.
Proof. destruct o as [[a s']|]; cbn; intros E H; [eauto|congruence]. Qed.
Lemma add_leak : exists s e s', good s /\ object kCurve s e /\ hc_Add e gl_curveGen gl_curveGen s = Some (tt, s') /\ count s' - count s = 10.
Proof.
  destruct (tally_run (hc_Add (xc 25) gl_curveGen gl_curveGen (demo dirty)) 15) as ([] & s' & E & Ec); [vm_compute; reflexivity|discriminate|].
  exists (demo dirty), (xc 25), s'; split; [apply demo_good; auto|split; [apply demo_object; [auto|reflexivity|reflexivity]|]].
  split; [exact E|rewrite Ec; reflexivity].
Qed.
Lemma add_leak_twist : exists s e s', good s /\ object kTwist s e /\ ht_Add e gl_twistGen gl_twistGen s = Some (tt, s') /\ count s' - count s = 20.
Proof.
  destruct (tally_run (ht_Add (xt 25) gl_twistGen gl_twistGen (demo dirty)) 25) as ([] & s' & E & Ec); [vm_compute; reflexivity|discriminate|].
  exists (demo dirty), (xt 25), s'; split; [apply demo_good; auto|split; [apply demo_object; [auto|reflexivity|reflexivity]|]].
  split; [exact E|rewrite Ec; reflexivity].
Qed.
Lemma ex_mul : good (demo dirty) /\ object kGF2 (demo dirty) (x2 25) /\ same_or_apart kGF2 (x2 25) (x2 25) /\
  val kGF2 (mem (demo dirty)) (x2 25) = GfP2 1 2 /\
  match h2_Mul (x2 25) (x2 25) (x2 25) (demo dirty) with Some (_, s') => val kGF2 (mem s') (x2 25) = GfP2 4 3 | None => False end.
Proof.
  destruct demo_field as (H1 & _ & H2 & _); split; [exact H1|split; [exact H2|split; [left; reflexivity|split; vm_compute; reflexivity]]].
Qed.
Lemma ex_get : good (demo dirty) /\ in_pool (demo dirty) 80%nat /\ ~ live_cell (demo dirty) 80%nat /\ mem (demo dirty) 80%nat = 56 /\
  match hGet (demo dirty) with Some (l, s') => l = 80%nat /\ mem s' l = 56 | None => False end.
Proof.
  destruct demo_field as (H1 & _); assert (H : in_pool (demo dirty) 80%nat) by (exists [80; 81; 82; 83; 84]%nat; split; [reflexivity|left; reflexivity]).
  split; [exact H1|split; [exact H|split; [intros [_ Hn]; exact (Hn H)|split; vm_compute; [reflexivity|split; reflexivity]]]].
Qed.
Lemma ex_put : good (demo dirty) /\ live_cell (demo dirty) 25%nat.
Proof. destruct demo_field as (H1 & _); split; [exact H1|apply demo_live; [lia|auto]]. Qed.
Lemma ex_two : good (demo dirty) /\ good (demo None) /\ object kGF12 (demo dirty) (x12 49) /\ object kGF12 (demo None) (x12 49) /\
  val kGF12 (mem (demo dirty)) (x12 49) = val kGF12 (mem (demo None)) (x12 49) /\ pool (demo dirty) <> pool (demo None).
Proof.
  split; [apply demo_good; auto|split; [apply demo_good; auto|]].
  do 2 (split; [apply demo_object; [auto|reflexivity|reflexivity]|]); split; [reflexivity|discriminate].
Qed.
Lemma ex_scalar : good (demo dirty) /\ object kCurve (demo dirty) (xc 25) /\ object kCurve (demo dirty) gl_curveGen /\
  object kTwist (demo dirty) (xt 25) /\ object kTwist (demo dirty) gl_twistGen /\
  same_or_apart kCurve (xc 25) gl_curveGen /\ same_or_apart kTwist (xt 25) gl_twistGen /\
  val kCurve (mem (demo dirty)) gl_curveGen = curveGen /\ val kTwist (mem (demo dirty)) gl_twistGen = twistGen.
Proof.
  split; [apply demo_good; auto|do 4 (split; [apply demo_object; [auto|reflexivity|reflexivity]|])].
  do 2 (split; [right; apply apartb; reflexivity|]); split; reflexivity.
Qed.
Lemma ex_tower : good (demo dirty) /\ package_variables (demo dirty) /\ object kGF6 (demo dirty) (x6 25) /\ object kGF6 (demo dirty) (x6 31) /\
  apart kGF6 (x6 25) kGF6 (x6 31) /\ object kGF12 (demo dirty) (x12 25) /\ object kGF12 (demo dirty) (x12 37) /\
  apart kGF12 (x12 25) kGF12 (x12 37) /\ not_package_variable kGF12 (x12 25).
Proof. destruct demo_field as (H1 & H2 & _ & _ & _ & _ & _ & H); exact (conj H1 (conj H2 H)). Qed.
Lemma ex_points : good (demo None) /\ object kCurve (demo None) (xc 25) /\ object kCurve (demo None) (xc 29) /\
  apart kCurve (xc 25) kCurve (xc 29) /\ object kTwist (demo None) (xt 33) /\ object kTwist (demo None) (xt 41) /\
  apart kTwist (xt 33) kTwist (xt 41).
Proof. destruct demo_api as (H1 & _ & _ & H2 & H3 & H4 & H5 & H6 & H7 & _); exact (conj H1 (conj H2 (conj H3 (conj H4 (conj H5 (conj H6 H7)))))). Qed.
Lemma ex_api : good (demo None) /\ no_pool (demo None) /\ package_variables (demo None) /\
  receiver kCurve (demo None) (Some (xc 25)) /\ receiver_apart kCurve (Some (xc 25)) (xc 29) /\ object kCurve (demo None) (xc 29) /\
  receiver kTwist (demo None) (Some (xt 33)) /\ receiver_apart kTwist (Some (xt 33)) (xt 41) /\ object kTwist (demo None) (xt 41) /\
  receiver kGF12 (demo None) (Some (x12 49)) /\ receiver_same_or_apart kGF12 (Some (x12 49)) (x12 61) /\ object kGF12 (demo None) (x12 61) /\
  object kCurve (demo None) gl_curveGen /\ object kTwist (demo None) gl_twistGen.
Proof.
  destruct demo_api as (H1 & H2 & H3 & H4 & H5 & H6 & H7 & H8 & H9 & H10 & H11 & H12 & H13 & H14).
  exact (conj H1 (conj H2 (conj H3 (conj H4 (conj H6 (conj H5 (conj H7 (conj H9 (conj H8 (conj H10 (conj (or_intror H12) (conj H11 (conj H13 H14))))))))))))).
Qed.
Lemma ex_count : pool (demo dirty) <> None /\ match h12_Mul (x12 25) (x12 25) (x12 37) (demo dirty) with
  | Some (_, s') => count s' = 5 /\ match pool s' with Some bs => (5 < length bs)%nat | None => False end | None => False end.
Proof. split; [discriminate|vm_compute; split; [reflexivity|lia]]. Qed.
