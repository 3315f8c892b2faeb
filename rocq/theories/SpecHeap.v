(** * Vocabulary of the statements about memory and the scratch pool

    Objects and their contents, aliasing, what a call may change.  The cells,
    the store and the programs are those of BNHeap.v. *)
From Coq Require Import ZArith List Bool Arith.
From Verif Require Import Base BB BN256 BNHeap.
Import ListNotations.
Open Scope Z_scope.

(** ** Stores *)
Definition in_pool (s : store) (l : loc) : Prop := exists bs, pool s = Some bs /\ In l bs.
(** a live cell: allocated, and not in the pool *)
Definition live_cell (s : store) (l : loc) : Prop := (l < next s)%nat /\ ~ in_pool s l.
(** the pool holds allocated cells, each once; their contents are arbitrary *)
Definition good (s : store) : Prop := forall bs, pool s = Some bs -> NoDup bs /\ forall l, In l bs -> (l < next s)%nat.

(** ** Objects: the addresses of their cells, and their content in a memory *)
Record kind (O V : Type) : Type := Kind { locs : O -> list loc; val : (loc -> Z) -> O -> V }.
Arguments locs {O V}. Arguments val {O V}.
Definition kBig : kind loc Z := Kind _ _ (fun l => [l]) (fun m l => m l).
Definition kGF2 : kind o2 gfP2 := Kind _ _ (fun e => [p2x e; p2y e]) (fun m e => GfP2 (m (p2x e)) (m (p2y e))).
Definition kGF6 : kind o6 gfP6 := Kind _ _
  (fun e => locs kGF2 (p6x e) ++ locs kGF2 (p6y e) ++ locs kGF2 (p6z e))
  (fun m e => GfP6 (val kGF2 m (p6x e)) (val kGF2 m (p6y e)) (val kGF2 m (p6z e))).
Definition kGF12 : kind o12 gfP12 := Kind _ _
  (fun e => locs kGF6 (p12x e) ++ locs kGF6 (p12y e)) (fun m e => GfP12 (val kGF6 m (p12x e)) (val kGF6 m (p12y e))).
Definition kCurve : kind ocp curvePoint := Kind _ _
  (fun e => [pcx e; pcy e; pcz e; pct e]) (fun m e => CurvePoint (m (pcx e)) (m (pcy e)) (m (pcz e)) (m (pct e))).
Definition kTwist : kind otp twistPoint := Kind _ _
  (fun e => locs kGF2 (ptx e) ++ locs kGF2 (pty e) ++ locs kGF2 (ptz e) ++ locs kGF2 (ptt e))
  (fun m e => TwistPoint (val kGF2 m (ptx e)) (val kGF2 m (pty e)) (val kGF2 m (ptz e)) (val kGF2 m (ptt e))).

(** an object in use: its cells are pairwise different and live *)
Definition object {O V} (K : kind O V) (s : store) (e : O) : Prop :=
  NoDup (locs K e) /\ forall l, In l (locs K e) -> live_cell s l.
(** no common cells *)
Definition apart {O V O' V'} (K : kind O V) (e : O) (K' : kind O' V') (a : O') : Prop :=
  forall l, In l (locs K e) -> ~ In l (locs K' a).
(** aliasing of a receiver and an operand: the same object, or no common cells *)
Definition same_or_apart {O V} (K : kind O V) (e a : O) : Prop := a = e \/ apart K e K a.

(** the package variables (the cells 0 to 24) have their initial contents *)
Definition package_variables (s : store) : Prop :=
  (forall l, (l < 25)%nat -> live_cell s l) /\
  val kGF2 (mem s) gl_xi6 = xiToPMinus1Over6 /\ val kGF2 (mem s) gl_xi3 = xiToPMinus1Over3 /\
  val kGF2 (mem s) gl_xi2 = xiToPMinus1Over2 /\ val kGF2 (mem s) gl_xi23 = xiTo2PMinus2Over3 /\
  mem s gl_s3 = xiToPSquaredMinus1Over3 /\ mem s gl_2s3 = xiTo2PSquaredMinus2Over3 /\
  mem s gl_s6 = xiToPSquaredMinus1Over6 /\ val kGF2 (mem s) gl_twistB = twistB /\
  val kTwist (mem s) gl_twistGen = twistGen /\ val kCurve (mem s) gl_curveGen = curveGen.
Definition not_package_variable {O V} (K : kind O V) (e : O) : Prop := forall l, In l (locs K e) -> ~ (l < 25)%nat.

(** ** Calls *)
(** what a call leaves alone: a live cell stays live, so it is not handed out by
    the pool, and keeps its content unless it is one of the cells [W]; the pool
    stays good *)
Definition changes_only (W : list loc) (s s' : store) : Prop :=
  good s' /\ forall l, live_cell s l -> live_cell s' l /\ (~ In l W -> mem s' l = mem s l).

(** [m e], [m e a], [m e a b] put into the receiver [e] a value related by [R]
    to the contents of the operands (of the receiver itself for [m e]) before the
    call, and change nothing else; for every store and every pool, and every
    aliasing of receiver and operands *)
Definition computes0 {O V} (K : kind O V) (m : O -> prog unit) (R : V -> V -> Prop) : Prop :=
  forall s e, good s -> object K s e ->
  exists s', m e s = Some (tt, s') /\ R (val K (mem s) e) (val K (mem s') e) /\ changes_only (locs K e) s s'.
Definition computes1 {O V} (K : kind O V) (m : O -> O -> prog unit) (R : V -> V -> Prop) : Prop :=
  forall s e a, good s -> object K s e -> object K s a -> same_or_apart K e a ->
  exists s', m e a s = Some (tt, s') /\ R (val K (mem s) a) (val K (mem s') e) /\ changes_only (locs K e) s s'.
Definition computes2 {O V} (K : kind O V) (m : O -> O -> O -> prog unit) (R : V -> V -> V -> Prop) : Prop :=
  forall s e a b, good s -> object K s e -> object K s a -> object K s b -> same_or_apart K e a -> same_or_apart K e b ->
  exists s', m e a b s = Some (tt, s') /\ R (val K (mem s) a) (val K (mem s) b) (val K (mem s') e) /\ changes_only (locs K e) s s'.
(** with a last operand of another kind, apart from the receiver *)
Definition computes1x {O V O' V'} (K : kind O V) (K' : kind O' V') (m : O -> O -> O' -> prog unit) (R : V -> V' -> V -> Prop) : Prop :=
  forall s e a x, good s -> object K s e -> object K s a -> object K' s x -> same_or_apart K e a -> apart K e K' x ->
  exists s', m e a x s = Some (tt, s') /\ R (val K (mem s) a) (val K' (mem s) x) (val K (mem s') e) /\ changes_only (locs K e) s s'.
(** with the package variables *)
Definition computes1g {O V} (K : kind O V) (m : O -> O -> prog unit) (R : V -> V -> Prop) : Prop :=
  forall s e a, good s -> package_variables s -> not_package_variable K e ->
  object K s e -> object K s a -> same_or_apart K e a ->
  exists s', m e a s = Some (tt, s') /\ R (val K (mem s) a) (val K (mem s') e) /\ changes_only (locs K e) s s'.
(** only with receiver and operand the same object, or only with them apart *)
Definition computes1_apart {O V} (K : kind O V) (m : O -> O -> prog unit) (R : V -> V -> V -> Prop) : Prop :=
  forall s e a, good s -> object K s e -> object K s a -> apart K e K a ->
  exists s', m e a s = Some (tt, s') /\ R (val K (mem s) e) (val K (mem s) a) (val K (mem s') e) /\ changes_only (locs K e) s s'.
Definition computes2_apart {O V} (K : kind O V) (m : O -> O -> O -> prog unit) (R : V -> V -> V -> V -> Prop) : Prop :=
  forall s e a b, good s -> object K s e -> object K s a -> object K s b -> apart K e K a -> same_or_apart K e b ->
  exists s', m e a b s = Some (tt, s') /\ R (val K (mem s) e) (val K (mem s) a) (val K (mem s) b) (val K (mem s') e) /\
    changes_only (locs K e) s s'.
Definition computes2_self {O V} (K : kind O V) (m : O -> O -> O -> prog unit) (R : V -> V -> V -> Prop) : Prop :=
  forall s e b, good s -> object K s e -> object K s b -> same_or_apart K e b ->
  exists s', m e e b s = Some (tt, s') /\ R (val K (mem s) e) (val K (mem s) b) (val K (mem s') e) /\ changes_only (locs K e) s s'.
(** a test, which changes nothing *)
Definition tests {O V} (K : kind O V) (m : O -> prog bool) (f : V -> bool) : Prop :=
  forall s e, good s -> object K s e -> exists s', m e s = Some (f (val K (mem s) e), s') /\ changes_only [] s s'.
(** a call that makes a new object *)
Definition makes {O V} (K : kind O V) (m : prog O) (s : store) (R : V -> Prop) : Prop :=
  exists e s', m s = Some (e, s') /\ object K s' e /\ (forall l, In l (locs K e) -> ~ live_cell s l) /\
    R (val K (mem s') e) /\ changes_only [] s s'.

(** ** Exported methods *)
(** The receiver's field p is an object or nil.  The result is the receiver's
    object, or a new one; nothing else changes.  Exported functions are called
    from code which has no pool. *)
Definition no_pool (s : store) : Prop := pool s = None.
Definition receiver {O V} (K : kind O V) (s : store) (e : option O) : Prop :=
  match e with Some o => object K s o | None => True end.
Definition content {O V} (K : kind O V) (s : store) (e : option O) (v0 : V) : V :=
  match e with Some o => val K (mem s) o | None => v0 end.
Definition receiver_same_or_apart {O V} (K : kind O V) (e : option O) (a : O) : Prop :=
  match e with Some o => same_or_apart K o a | None => True end.
Definition receiver_apart {O V} (K : kind O V) (e : option O) (a : O) : Prop :=
  match e with Some o => apart K o K a | None => True end.
Definition returns {O V} (K : kind O V) (m : prog O) (s : store) (e : option O) (v : V) : Prop :=
  exists p s', m s = Some (p, s') /\ val K (mem s') p = v /\ object K s' p /\ no_pool s' /\
    match e with
    | Some o => p = o /\ changes_only (locs K o) s s'
    | None => (forall l, In l (locs K p) -> ~ live_cell s l) /\ changes_only [] s s'
    end.

(** ** The count of the pool *)
(** a call that succeeds changes the count of the pool in use by a number in
    [P]; without a pool there is no count to change *)
Definition counts {A} (m : prog A) (P : Z -> Prop) : Prop :=
  forall s r s', m s = Some (r, s') ->
  match pool s with
  | None => pool s' = None /\ count s' = count s
  | Some _ => pool s' <> None /\ P (count s' - count s)
  end.
(** every integer taken from the pool is returned to it *)
Definition balanced {A} (m : prog A) : Prop := counts m (fun d => d = 0).

(** ** Independence of the pool *)
(** two runs, in any two stores (with any pools) in which the operands have the
    same contents, give the same result *)
Definition pool_independent1 {O V} (K : kind O V) (m : O -> O -> prog unit) : Prop :=
  forall s1 s2 e a, good s1 -> good s2 -> object K s1 e -> object K s2 e -> object K s1 a -> object K s2 a ->
  same_or_apart K e a -> val K (mem s1) a = val K (mem s2) a ->
  exists s1' s2', m e a s1 = Some (tt, s1') /\ m e a s2 = Some (tt, s2') /\ val K (mem s1') e = val K (mem s2') e.
Definition pool_independent2 {O V} (K : kind O V) (m : O -> O -> O -> prog unit) : Prop :=
  forall s1 s2 e a b, good s1 -> good s2 -> object K s1 e -> object K s2 e -> object K s1 a -> object K s2 a ->
  object K s1 b -> object K s2 b -> same_or_apart K e a -> same_or_apart K e b ->
  val K (mem s1) a = val K (mem s2) a -> val K (mem s1) b = val K (mem s2) b ->
  exists s1' s2', m e a b s1 = Some (tt, s1') /\ m e a b s2 = Some (tt, s2') /\ val K (mem s1') e = val K (mem s2') e.

(** ** A store: the package variables, 60 more cells, five stale integers in the
    pool *)
Definition package_cells : list Z :=
  let l2 v := [c2x v; c2y v] in
  l2 xiToPMinus1Over6 ++ l2 xiToPMinus1Over3 ++ l2 xiToPMinus1Over2 ++ l2 xiTo2PMinus2Over3 ++
  [xiToPSquaredMinus1Over3; xiTo2PSquaredMinus2Over3; xiToPSquaredMinus1Over6] ++ l2 twistB ++
  l2 (tpx twistGen) ++ l2 (tpy twistGen) ++ l2 (tpz twistGen) ++ l2 (tpt twistGen) ++
  [cpx curveGen; cpy curveGen; cpz curveGen; cpt curveGen].
Definition demo (p : option (list loc)) : store :=
  Store (fun l => nth l (package_cells ++ map Z.of_nat (seq 1 60)) 0) 85%nat p 5.
Definition dirty : option (list loc) := Some [80; 81; 82; 83; 84]%nat.
