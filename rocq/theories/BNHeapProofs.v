(** * The programs of BNHeap.v compute the functions of BN256.v: gfp2.go

    Each lemma holds for every receiver and all operands that are the receiver
    itself or objects apart from it ([opnd]). *)
From Coq Require Import ZArith List Bool Arith Lia Permutation.
From Verif Require Import Base BB BN256 BNHeap HeapLogic.
Import ListNotations.
Open Scope Z_scope.

(** the empty list of cells *)
Definition none : cells := [].
Lemma none_incl G : incl none G.
Proof. intros x []. Qed.

(** ** Tactics *)
(** find the chunk of an object *)
Ltac pick := first [apply pm_here | apply pm_next; pick | apply pm_last | eassumption].
Ltac look0 := first [apply none_incl | eassumption | apply incl_here | apply incl_next; look0].
Ltac lift := first
  [ eapply incl_2x | eapply incl_2y | eapply incl_6x | eapply incl_6y | eapply incl_6z
  | eapply incl_12x | eapply incl_12y | eapply incl_cx | eapply incl_cy | eapply incl_cz | eapply incl_ct
  | eapply incl_tx | eapply incl_ty | eapply incl_tz | eapply incl_tt
  | eapply incl_xi6 | eapply incl_xi3 | eapply incl_xi2 | eapply incl_xi23 | eapply incl_s3 | eapply incl_2s3
  | eapply incl_s6 | eapply incl_twistGen | eapply incl_curveGen ].
Ltac look := first [look0 | lift; look].
Ltac side := lazymatch goal with
  | |- Permutation _ _ => pick
  | |- opnd _ _ _ _ _ _ => first [left; split; reflexivity | right; look]
  | |- incl _ _ => look
  end.
(** permutation of two lists of chunks *)
Ltac perm := first [apply Permutation_refl | eapply pm_trans; [pick|]; perm].
Ltac opened := rewrite ?ctp_open, ?ccp_open, ?c12_open, ?c6_open, ?c2_open; cbn [c2x c2y c6x c6y c6z c12x c12y cpx cpy cpz cpt tpx tpy tpz tpt].
(** one statement; [hop] is extended level by level *)
Ltac hop0 := lazymatch goal with
  | |- wp (mbind _ _) _ _ => apply wp_bind
  | |- wp (mret _) _ _ => eapply wp_ret; [apply Permutation_refl|]
  | |- wp hGet _ _ => apply wp_GetC; intros ? ?
  | |- wp (hPut _) _ _ => eapply wp_PutC; [side|]
  | |- wp (rd _) _ _ => eapply wp_read; [side|]
  | |- wp (bSet _ _) _ _ => eapply wp_bSet; [side..|]
  | |- wp (bSetInt64 _ _) _ _ => eapply wp_bSetInt; [side..|]
  | |- wp (bNeg _ _) _ _ => eapply wp_bNeg; [side..|]
  | |- wp (bAdd _ _ _) _ _ => eapply wp_bAdd; [side..|]
  | |- wp (bSub _ _ _) _ _ => eapply wp_bSub; [side..|]
  | |- wp (bMul _ _ _) _ _ => eapply wp_bMul; [side..|]
  | |- wp (bLsh _ _ _) _ _ => eapply wp_bLsh; [side..|]
  | |- wp (bMod _ _) _ _ => eapply wp_bMod; [side..|]
  end; cbv beta.
Ltac hop := hop0.
Ltac start HP := eapply wp_perm; [exact HP|]; apply wp_tail.
Tactic Notation "start_drop" hyp(HP) := eapply wp_perm; [exact HP|]; apply wp_tail_drop.
Ltac finish HQ := eexists; split; [|exact HQ].
(** the operand is the receiver, or apart *)
Ltac cases := repeat match goal with
  | H : opnd _ _ _ _ _ _ |- _ => destruct H as [[-> ->]|H]
  end.

(** ** The form of the statements *)
(** a method without operands, with one, with two; [g] is what else must be
    there, apart from the receiver *)
Notation spec0 C m f g := (forall (Q : unit -> cells -> Prop) G G' e ve,
  Permutation G (C e ve ++ G') -> incl g G' -> Q tt (C e (f ve) ++ G') -> wp (m e) Q G) (only parsing).
Notation spec1 C m f g := (forall (Q : unit -> cells -> Prop) G G' e ve a va,
  Permutation G (C e ve ++ G') -> opnd C e ve G' a va -> incl g G' ->
  Q tt (C e (f va) ++ G') -> wp (m e a) Q G) (only parsing).
Notation spec2 C m f g := (forall (Q : unit -> cells -> Prop) G G' e ve a va b vb,
  Permutation G (C e ve ++ G') -> opnd C e ve G' a va -> opnd C e ve G' b vb -> incl g G' ->
  Q tt (C e (f va vb) ++ G') -> wp (m e a b) Q G) (only parsing).
Notation specPut C m := (forall (Q : unit -> cells -> Prop) G G' e ve,
  Permutation G (C e ve ++ G') -> Q tt G' -> wp (m e) Q G) (only parsing).
Notation specNew C m := (forall (Q : _ -> cells -> Prop) G,
  (forall e v, Q e (C e v ++ G)) -> wp m Q G) (only parsing).

(** ** gfp2.go *)
Ltac unf f := match goal with HQ : context [f] |- _ => unfold f in HQ; cbv zeta in HQ end.
Ltac fin := eexists; split; [|match goal with HQ : _ tt _ |- _ => exact HQ end]; opened; perm.
Ltac begin := intros;
  match goal with HP : Permutation _ _ |- _ => start HP; clear HP end; cases.
Ltac go2 m := begin; rewrite c2_open; unfold m; repeat hop; fin.
Lemma wp_2Put : specPut c2 h2_Put.
Proof. go2 h2_Put. Qed.
Lemma wp_2new : specNew c2 h2_new.
Proof.
  intros Q G HQ; apply wp_tail; unfold h2_new; repeat hop.
  match goal with |- exists _, Permutation (c1 ?y ?vy ++ c1 ?x ?vx ++ _) _ /\ _ =>
    finish (HQ (O2 x y) (GfP2 vx vy)) end.
  opened; cbn [p2x p2y]; perm.
Qed.
Lemma wp_2Set : spec1 c2 h2_Set (fun a => a) none.
Proof. go2 h2_Set. Qed.
Lemma wp_2SetZero : spec0 c2 h2_SetZero (fun _ => gfP2_Zero) none.
Proof. go2 h2_SetZero. Qed.
Lemma wp_2SetOne : spec0 c2 h2_SetOne (fun _ => gfP2_One) none.
Proof. go2 h2_SetOne. Qed.
Lemma wp_2Conjugate : spec1 c2 h2_Conjugate gfP2_Conjugate none.
Proof. go2 h2_Conjugate. Qed.
Lemma wp_2Negative : spec1 c2 h2_Negative gfP2_Negative none.
Proof. go2 h2_Negative. Qed.
Lemma wp_2Add : spec2 c2 h2_Add gfP2_Add none.
Proof. go2 h2_Add. Qed.
Lemma wp_2Sub : spec2 c2 h2_Sub gfP2_Sub none.
Proof. go2 h2_Sub. Qed.
Lemma wp_2Double : spec1 c2 h2_Double gfP2_Double none.
Proof. go2 h2_Double. Qed.
Lemma wp_2Mul : spec2 c2 h2_Mul gfP2_Mul none.
Proof. go2 h2_Mul. Qed.
Lemma wp_2MulXi : spec1 c2 h2_MulXi gfP2_MulXi none.
Proof. go2 h2_MulXi. Qed.
Lemma wp_2Square : spec1 c2 h2_Square gfP2_Square none.
Proof. go2 h2_Square. Qed.
Lemma wp_2MulScalar n vn : spec1 c2 (fun e a => h2_MulScalar e a n) (fun a => gfP2_MulScalar a vn) (c1 n vn).
Proof. go2 h2_MulScalar. Qed.
(** the stale content of the integer handed out by the pool is irrelevant *)
Lemma wp_2InvertStale (Q : unit -> cells -> Prop) G G' e ve a va :
  Permutation G (c2 e ve ++ G') -> opnd c2 e ve G' a va ->
  (forall s, Q tt (c2 e (gfP2_InvertStale s va) ++ G')) -> wp (h2_Invert e a) Q G.
Proof.
  intros HP Ha HQ; unfold gfP2_InvertStale in HQ; cbv zeta in HQ.
  start HP; rewrite c2_open; cases; unfold h2_Invert; repeat hop;
    (eapply wp_bModInverse; [side..|]);
    match goal with |- match ?x with _ => _ end => destruct x as [i|] eqn:Ei end; repeat hop;
    try (finish (HQ 0); opened; perm);
    match goal with |- context [c1 _ (bmod (_ * ?s) bn_P)] => finish (HQ s); opened; perm end.
Qed.
