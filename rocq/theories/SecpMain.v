(** * Proofs of C08-C17 *)
From Coq Require Import ZArith Znumtheory Zpow_facts List Bool Lia.
From mathcomp Require Import all_ssreflect all_algebra.
From Verif Require Import Base BaseFacts ByteConv SpecCodec CodecProofs MCRing SpecCurve ZCurve ZField P256 Pedersen SpecSecp SecpGroup SecpProofs SecpDL.
Set Implicit Arguments.
Unset Strict Implicit.
Unset Printing Implicit Defensive.
Import GRing.Theory.
Local Open Scope ring_scope.
Delimit Scope Z_scope with Z.
Local Arguments Z.mul : simpl never.
Local Arguments Z.add : simpl never.
Local Arguments Z.sub : simpl never.
Local Arguments Z.modulo : simpl never.
Local Arguments value : simpl never.
Local Arguments gadd : simpl never.
Local Arguments gmul : simpl never.
Local Arguments gneg : simpl never.
Local Notation phN := (zph zfN).
Local Notation phP := (zph zfP).

Lemma secp_parameters :
  secp_P = (2 ^ 256 - 2 ^ 32 - 977)%Z /\ Znumtheory.prime secp_P /\ Znumtheory.prime secp_N /\
  on_secp gen /\ ((4 * 0 ^ 3 + 27 * secp_B ^ 2) mod secp_P <> 0)%Z /\ secp_B = 7%Z.
Proof.
split; first by vm_compute. split; first exact: secp_P_pr. split; first exact: secp_N_pr.
split; first exact: on_gen. split; last by []. by vm_compute.
Qed.
Lemma P_mod4 : (4 * ((secp_P + 1) / 4) = secp_P + 1)%Z. Proof. by vm_compute. Qed.
Lemma N_odd : (2 mod secp_N <> 0)%Z. Proof. by vm_compute. Qed.
Lemma N_pos : (0 < secp_N)%Z. Proof. by []. Qed.

Local Opaque secp_P secp_N secp_Gx secp_Gy Zpow_mod.

(** ** MapToGroup *)
Lemma ModSqrt_Some a y : ModSqrt a secp_P = Some y ->
  (0 <= y < secp_P)%Z /\ ((y * y) mod secp_P = a mod secp_P)%Z.
Proof.
rewrite /ModSqrt. move: (Zpow_mod_correct a ((secp_P + 1) / 4) secp_P).
move: (Zpow_mod _ _ _) => w W. case: Z.eqb_spec => [H [<-]|_ H]; last by [].
split; last exact: H.
rewrite W; last by have := secp_P3; lia.
apply: Z.mod_pos_bound. exact: secp_Ppos.
Qed.
Lemma ModSqrt_None a : ModSqrt a secp_P = None -> ~ is_square a.
Proof.
rewrite /ModSqrt. move: (Zpow_mod_correct a ((secp_P + 1) / 4) secp_P).
move: (Zpow_mod _ _ _) => v W. case: Z.eqb_spec => [_ H|H _ [w Hw]]; first by []. apply: H.
have P3 := secp_P3. have M4 := P_mod4.
set n := ((secp_P + 1) / 4)%Z in M4 W *. clearbody n.
have n0 : (0 <= n)%Z by lia.
rewrite W; last by lia.
apply/(zph_eq zfP). rewrite !zph_mul !zph_mod zph_powZ //.
move/(zph_eq zfP): Hw. rewrite zph_mul => <-.
rewrite -exprD -expr2 -exprM.
have -> : ((2 * (Z.to_nat n + Z.to_nat n)) = (Z.to_nat secp_P).+1)%N.
  rewrite -multE -plusE. lia.
by rewrite exprS (zph_fermat secp_P_pr) expr2.
Qed.

Lemma F_mod x : (F x mod secp_P = (x ^ 3 + 7) mod secp_P)%Z.
Proof.
have -> : (x ^ 3 = x * x * x)%Z by ring. apply/(zph_eq zfP). by rewrite /F !phE.
Qed.
Lemma square_mod a b : (a mod secp_P = b mod secp_P)%Z -> is_square a <-> is_square b.
Proof. by rewrite /is_square => ->. Qed.

Lemma body_ok h y : ModSqrt (bmod (F (bmod h secp_P)) secp_P) secp_P = Some y ->
  let x := bmod h secp_P in
  IsOnCurve x y && negb (IsZero (Some (x, y))) = true /\ on_secp (Some (x, y)).
Proof.
move=> H. have [ry Hy] := ModSqrt_Some H. move=> x.
have rx : (0 <= x < secp_P)%Z by exact: bmod_range.
have Ey : ((y * y) mod secp_P = (x * x * x + 7) mod secp_P)%Z.
  rewrite Hy Zmod_mod -/x F_mod. congr Z.modulo. ring.
have o : on_secp (Some (x, y)) by split; [exact: rx|split; [exact: ry|exact: Ey]].
split; last exact: o.
have -> : IsOnCurve x y = true by rewrite /IsOnCurve /bmod -Ey; exact: Z.eqb_refl.
case z : (IsZero (Some (x, y))); last exact: erefl.
have := value_on o. rewrite (value_z z). discriminate.
Qed.
Lemma body_none h : ModSqrt (bmod (F (bmod h secp_P)) secp_P) secp_P = None ->
  ~ is_square (bmod h secp_P ^ 3 + 7).
Proof.
move/ModSqrt_None => H S. apply: H. apply/(@square_mod _ (bmod h secp_P ^ 3 + 7)%Z) => //.
by rewrite /bmod Zmod_mod F_mod.
Qed.
Lemma body_some h y : ModSqrt (bmod (F (bmod h secp_P)) secp_P) secp_P = Some y ->
  is_square (bmod h secp_P ^ 3 + 7).
Proof.
case/ModSqrt_Some => _ H. exists y. by rewrite H /bmod Zmod_mod F_mod.
Qed.

(** linear search, abstractly *)
Section Search.
Variables (A : Type) (step : Z -> option A) (Q : Z -> Prop).
Hypothesis stepS : forall i a, step i = Some a -> Q i.
Hypothesis stepN : forall i, step i = None -> ~ Q i.
Fixpoint search (n : nat) (i : Z) : option (Z * A) :=
  match n with
  | O => None
  | S n' => match step i with Some a => Some (i, a) | None => search n' (i + 1) end
  end.
Lemma search_spec n i :
  match search n i with
  | None => forall j, (i <= j < i + Z.of_nat n)%Z -> ~ Q j
  | Some (j, a) => (i <= j < i + Z.of_nat n)%Z /\ step j = Some a /\ Q j /\ forall k, (i <= k < j)%Z -> ~ Q k
  end.
Proof.
elim: n i => [|n IH] i; first by move=> j /=; lia.
rewrite /search -/(search n). case E : (step i) => [a|].
  split; first by lia. split; first exact: E. split; first exact: stepS E. move=> k. lia.
have ni := stepN E. move: (IH (i + 1)%Z). case: (search n (i + 1)) => [[j a]|].
  move=> [rj [sj [qj H]]]. split; first by lia. split=> //. split=> // k rk.
  case: (Z.eq_dec k i) => [->|nk] //. apply: H. lia.
move=> H j rj. case: (Z.eq_dec j i) => [->|nk] //. apply: H. lia.
Qed.
End Search.

Section Map.
Variable sha : list Z -> list Z.
Variable m : list Z.
Definition hstep (h : Z) : option point :=
  match ModSqrt (bmod (F (bmod h secp_P)) secp_P) secp_P with
  | Some y => Some (Some (bmod h secp_P, y))
  | None => None
  end.
Lemma hstep_on h p : hstep h = Some p -> exists y, p = Some (bmod h secp_P, y) /\ on_secp p.
Proof.
rewrite /hstep. case E : (ModSqrt _ _) => [y|] H; last by [].
have [_ o] := body_ok E. case: H => <-. exists y. split; first exact: erefl. exact: o.
Qed.
Lemma hstep_S h p : hstep h = Some p -> is_square (bmod h secp_P ^ 3 + 7).
Proof. rewrite /hstep. case E : (ModSqrt _ _) => [y|] H; last by []. exact: body_some E. Qed.
Lemma hstep_N h : hstep h = None -> ~ is_square (bmod h secp_P ^ 3 + 7).
Proof. rewrite /hstep. case E : (ModSqrt _ _) => [y|] H; first by []. exact: body_none E. Qed.
Lemma loop_S n i : MapToGroup_loop sha m (S n) i =
  match HashToInt sha (big_String i ++ m) with
  | Ok h => match hstep h with Some p => Ok p | None => MapToGroup_loop sha m n (i + 1) end
  | _ => Panic
  end.
Proof.
rewrite /MapToGroup_loop -/(MapToGroup_loop sha m n (i + 1)).
case: (HashToInt _ _) => [h| |]; [|exact: erefl|exact: erefl].
rewrite /hstep. case E : (ModSqrt _ _) => [y|]; last exact: erefl.
have [-> _] := body_ok E. exact: erefl.
Qed.
Lemma loop_valid n i p : MapToGroup_loop sha m n i = Ok p -> exists x y, p = Some (x, y) /\ on_secp p.
Proof.
elim: n i => [|n IH] i; first by [].
rewrite loop_S. case: (HashToInt _ _) => [h| |] H; [|discriminate H|discriminate H].
move: H. case E : (hstep h) => [q|]; last exact: IH.
have [y [Eq o]] := hstep_on E. move=> [<-]. exists (bmod h secp_P), y. split; [exact: Eq|exact: o].
Qed.
Lemma MapToGroup_valid p : MapToGroup sha m = Ok p ->
  exists x y, p = Some (x, y) /\ value p = p /\ valid p.
Proof.
rewrite /MapToGroup => H. have [x [y [E o]]] := loop_valid H. exists x, y. split; first exact: E.
rewrite E in o *. split; first exact: value_on. exact: valid_on.
Qed.
Hypothesis hsha : forall l, sha l <> nil /\ Forall SpecCodec.byte (sha l).
Let hv (i : Z) := twos_value (sha (big_String i ++ m)%list).
Let cand (i : Z) := (hv i mod secp_P)%Z.
Lemma hash_ok l : HashToInt sha l = Ok (twos_value (sha l)).
Proof.
have [n b] := hsha l. rewrite /HashToInt FromByteArray_spec; last exact: b.
by case: (sha l) n.
Qed.
Lemma loop_search n i : MapToGroup_loop sha m n i =
  match search (fun i => hstep (hv i)) n i with Some (_, p) => Ok p | None => Err end.
Proof.
elim: n i => [|n IH] i; first exact: erefl.
rewrite loop_S hash_ok /search -/(search _ n) -/(hv i). case: (hstep (hv i)) => [p|]; first exact: erefl.
exact: IH.
Qed.
Definition map_search := search_spec (step := fun i => hstep (hv i)) (Q := fun i => is_square (cand i ^ 3 + 7))
  (fun i a => @hstep_S (hv i) a) (fun i => @hstep_N (hv i)) 256 0.
Lemma MapToGroup_fails_iff : MapToGroup sha m = Err <->
   forall i, (0 <= i < 256)%Z -> ~ is_square (cand i ^ 3 + 7).
Proof.
rewrite /MapToGroup loop_search. move: map_search.
case: (search _ _ _) => [[j p] [rj [_ [sj _]]]|H]; split=> H'.
- discriminate H'.
- by case: (H' j rj sj).
- exact: H.
- exact: erefl.
Qed.
Lemma MapToGroup_first : MapToGroup sha m <> Panic /\
  forall p, MapToGroup sha m = Ok p -> exists i y, (0 <= i < 256)%Z /\ p = Some (cand i, y) /\
    forall j, (0 <= j < i)%Z -> ~ is_square (cand j ^ 3 + 7).
Proof.
rewrite /MapToGroup loop_search. move: map_search.
case: (search _ _ _) => [[j p] [rj [ej [_ H]]]|H].
  split; first discriminate. move=> _ [<-]. have [y [Ep _]] := hstep_on ej.
  exists j, y. split; first exact: rj. split; [exact: Ep|exact: H].
split; first discriminate. move=> p H'. discriminate H'.
Qed.
End Map.

Lemma MapToGroup_example : (forall l : list Z, [:: 1%Z] <> nil /\ Forall SpecCodec.byte [:: 1%Z]) /\
  is_square (twos_value [:: 1%Z] mod secp_P ^ 3 + 7).
Proof.
split.
  move=> _. split=> //. by constructor.
have -> : twos_value [:: 1%Z] = 1%Z by [].
rewrite Zmod_1_l; last by have := secp_P3; lia.
exists 29896722852569046015560700294576055776214335159245303116488692907525646231534%Z.
Local Transparent secp_P. by vm_compute. Local Opaque secp_P.
Qed.
