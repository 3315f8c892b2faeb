(** * Programs of BNHeap.v on stores: contents, aliasing, pool *)
From Coq Require Import ZArith List Bool Arith Lia Permutation.
From Verif Require Import Base BB BN256 BNHeap HeapLogic BNHeapProofs BNHeapTower BNHeapCurve BNHeapPair BNHeapFinal BNHeapApi SpecHeap BNHeapTransfer.
Import ListNotations.
Open Scope Z_scope.

(** ** The pool *)
Lemma get_fresh s : good s ->
  exists l s', hGet s = Some (l, s') /\ ~ live_cell s l /\ live_cell s' l /\ (pool s = None \/ pool s = Some [] -> mem s' l = 0) /\ changes_only [] s s'.
Proof.
  intros Hg.
  destruct (run hGet (fun l G => exists v, G = (l, v) :: rest s []) s Hg) as (l & s' & G' & E & Hs & v & ->).
  { apply wp_Get; eauto. }
  assert (Hs2 : holds s' (c1 l v ++ rest s [])) by exact Hs.
  destruct (val_of kBig c1 fits1 _ _ _ _ Hs2) as [Ev [_ Hl]].
  exists l, s'; split; [exact E|split; [|split; [apply Hl; left; reflexivity|split; [|eapply frame_nil; exact Hs2]]]].
  - apply (fresh_of kBig c1 fits1 _ _ _ _ Hs2); left; reflexivity.
  - unfold hGet in E; intros [Hp|Hp]; rewrite Hp in E; injection E as <- <-; cbn [mem]; unfold upd; rewrite Nat.eqb_refl; reflexivity.
Qed.
Lemma put_ok s l : good s -> live_cell s l ->
  exists s', hPut l s = Some (tt, s') /\ good s' /\ mem s' = mem s /\
    (forall l', l' <> l -> (live_cell s' l' <-> live_cell s l')) /\ (pool s <> None -> ~ live_cell s' l).
Proof.
  intros Hg Hl; unfold hPut; destruct (pool s) as [bs|] eqn:Ep; eexists; (split; [reflexivity|]).
  - destruct (Hg bs Ep) as [Hn Hlt]; destruct Hl as [Hl1 Hl2].
    split; [|split; [reflexivity|split]].
    + intros b E; injection E as <-; split; [constructor; [intros Hi; apply Hl2; exists bs; auto|exact Hn]|].
      intros l' [<-|Hi]; [exact Hl1|apply Hlt, Hi].
    + intros l' Hne; unfold live_cell, in_pool; cbn [next pool]; rewrite Ep; split; intros [Ha Hb]; split; auto.
      * intros (b & E & Hi); injection E as <-; apply Hb; eexists; split; [reflexivity|right; exact Hi].
      * intros (b & E & Hi); injection E as <-; destruct Hi as [Hi|Hi]; [congruence|apply Hb; eauto].
    + intros _ [_ Hb]; apply Hb; eexists; split; [reflexivity|left; reflexivity].
  - split; [exact Hg|split; [reflexivity|split; [tauto|congruence]]].
Qed.

(** ** gfp2.go, gfp6.go, gfp12.go *)
Lemma heap_gfP2 :
  computes1 kGF2 h2_Set (fun a r => r = a) /\ computes0 kGF2 h2_SetZero (fun _ r => r = gfP2_Zero) /\
  computes0 kGF2 h2_SetOne (fun _ r => r = gfP2_One) /\ computes0 kGF2 h2_Minimal (fun a r => r = gfP2_Minimal a) /\
  tests kGF2 h2_IsZero gfP2_IsZero /\ tests kGF2 h2_IsOne gfP2_IsOne /\
  computes1 kGF2 h2_Conjugate (fun a r => r = gfP2_Conjugate a) /\ computes1 kGF2 h2_Negative (fun a r => r = gfP2_Negative a) /\
  computes2 kGF2 h2_Add (fun a b r => r = gfP2_Add a b) /\ computes2 kGF2 h2_Sub (fun a b r => r = gfP2_Sub a b) /\
  computes1 kGF2 h2_Double (fun a r => r = gfP2_Double a) /\ computes2 kGF2 h2_Mul (fun a b r => r = gfP2_Mul a b) /\
  computes1x kGF2 kBig h2_MulScalar (fun a k r => r = gfP2_MulScalar a k) /\
  computes1 kGF2 h2_MulXi (fun a r => r = gfP2_MulXi a) /\ computes1 kGF2 h2_Square (fun a r => r = gfP2_Square a) /\
  computes1 kGF2 h2_Invert (fun a r => r = gfP2_Invert a) /\
  (forall n, computes1 kGF2 (fun e a => h2_Exp e a n) (fun a r => r = gfP2_Exp a n)).
Proof.
  split; [exact (transfer1 _ _ fits2 _ _ wp_2Set)|].
  split; [exact (transfer0 _ _ fits2 _ _ wp_2SetZero)|].
  split; [exact (transfer0 _ _ fits2 _ _ wp_2SetOne)|].
  split; [exact (transfer0 _ _ fits2 _ _ wp_2Minimal)|].
  split; [exact (transferT _ _ fits2 _ _ wp_2IsZero)|].
  split; [exact (transferT _ _ fits2 _ _ wp_2IsOne)|].
  split; [exact (transfer1 _ _ fits2 _ _ wp_2Conjugate)|].
  split; [exact (transfer1 _ _ fits2 _ _ wp_2Negative)|].
  split; [exact (transfer2 _ _ fits2 _ _ wp_2Add)|].
  split; [exact (transfer2 _ _ fits2 _ _ wp_2Sub)|].
  split; [exact (transfer1 _ _ fits2 _ _ wp_2Double)|].
  split; [exact (transfer2 _ _ fits2 _ _ wp_2Mul)|].
  split; [exact (transfer1x _ _ fits2 _ _ fits1 h2_MulScalar _ wp_2MulScalar)|].
  split; [exact (transfer1 _ _ fits2 _ _ wp_2MulXi)|].
  split; [exact (transfer1 _ _ fits2 _ _ wp_2Square)|].
  split; [exact (transfer1 _ _ fits2 _ _ wp_2Invert)|].
  intros n; exact (transfer1 _ _ fits2 _ _ (wp_2Exp n)).
Qed.
Lemma heap_gfP6 :
  computes1 kGF6 h6_Set (fun a r => r = a) /\ computes0 kGF6 h6_SetZero (fun _ r => r = gfP6_Zero) /\
  computes0 kGF6 h6_SetOne (fun _ r => r = gfP6_One) /\ computes0 kGF6 h6_Minimal (fun a r => r = gfP6_Minimal a) /\
  tests kGF6 h6_IsZero gfP6_IsZero /\ tests kGF6 h6_IsOne gfP6_IsOne /\
  computes1 kGF6 h6_Negative (fun a r => r = gfP6_Negative a) /\
  computes1g kGF6 h6_Frobenius (fun a r => r = gfP6_Frobenius a) /\
  computes1g kGF6 h6_FrobeniusP2 (fun a r => r = gfP6_FrobeniusP2 a) /\
  computes2 kGF6 h6_Add (fun a b r => r = gfP6_Add a b) /\ computes2 kGF6 h6_Sub (fun a b r => r = gfP6_Sub a b) /\
  computes1 kGF6 h6_Double (fun a r => r = gfP6_Double a) /\ computes2 kGF6 h6_Mul (fun a b r => r = gfP6_Mul a b) /\
  computes1x kGF6 kGF2 h6_MulScalar (fun a k r => r = gfP6_MulScalar a k) /\
  computes1x kGF6 kBig h6_MulGFP (fun a k r => r = gfP6_MulGFP a k) /\
  computes1 kGF6 h6_MulTau (fun a r => r = gfP6_MulTau a) /\ computes1 kGF6 h6_Square (fun a r => r = gfP6_Square a) /\
  computes1 kGF6 h6_Invert (fun a r => r = gfP6_Invert a).
Proof.
  split; [exact (transfer1 _ _ fits6 _ _ wp_6Set)|].
  split; [exact (transfer0 _ _ fits6 _ _ wp_6SetZero)|].
  split; [exact (transfer0 _ _ fits6 _ _ wp_6SetOne)|].
  split; [exact (transfer0 _ _ fits6 _ _ wp_6Minimal)|].
  split; [exact (transferT _ _ fits6 _ _ wp_6IsZero)|].
  split; [exact (transferT _ _ fits6 _ _ wp_6IsOne)|].
  split; [exact (transfer1 _ _ fits6 _ _ wp_6Negative)|].
  split; [exact (transfer1g _ _ fits6 _ _ wp_6Frobenius)|].
  split; [exact (transfer1g _ _ fits6 _ _ wp_6FrobeniusP2)|].
  split; [exact (transfer2 _ _ fits6 _ _ wp_6Add)|].
  split; [exact (transfer2 _ _ fits6 _ _ wp_6Sub)|].
  split; [exact (transfer1 _ _ fits6 _ _ wp_6Double)|].
  split; [exact (transfer2 _ _ fits6 _ _ wp_6Mul)|].
  split; [exact (transfer1x _ _ fits6 _ _ fits2 h6_MulScalar _ wp_6MulScalar)|].
  split; [exact (transfer1x _ _ fits6 _ _ fits1 h6_MulGFP _ wp_6MulGFP)|].
  split; [exact (transfer1 _ _ fits6 _ _ wp_6MulTau)|].
  split; [exact (transfer1 _ _ fits6 _ _ wp_6Square)|].
  exact (transfer1 _ _ fits6 _ _ wp_6Invert).
Qed.
(** Conjugate writes its receiver but returns its argument; IsZero and IsOne
    reduce their receiver *)
Lemma heap_12Conjugate : forall s e a, good s -> object kGF12 s e -> object kGF12 s a -> same_or_apart kGF12 e a ->
  exists s', h12_Conjugate e a s = Some (a, s') /\ val kGF12 (mem s') e = gfP12_Conjugate (val kGF12 (mem s) a) /\
    changes_only (locs kGF12 e) s s'.
Proof.
  intros s e a Hg Ho Ha Hsa.
  destruct (run (h12_Conjugate e a) (fun r G => r = a /\ G = c12 e (gfP12_Conjugate (val kGF12 (mem s) a)) ++ rest s (locs kGF12 e)) s Hg)
    as (r & s' & G' & E & Hs & -> & ->).
  - eapply wp_12Conjugate; [apply (split_obj _ _ fits12); assumption|apply (opnd_of _ _ fits12); assumption|auto].
  - exists s'; split; [exact E|split; [apply (val_of _ _ fits12 _ _ _ _ Hs)|apply (frame_of _ _ fits12 _ _ _ _ Hs)]].
Qed.
Lemma heap_12tests : forall s e, good s -> object kGF12 s e ->
  (exists s', h12_IsZero e s = Some (gfP12_IsZero (val kGF12 (mem s) e), s') /\
     val kGF12 (mem s') e = gfP12_Minimal (val kGF12 (mem s) e) /\ changes_only (locs kGF12 e) s s') /\
  (exists s', h12_IsOne e s = Some (gfP12_IsOne (val kGF12 (mem s) e), s') /\
     val kGF12 (mem s') e = gfP12_Minimal (val kGF12 (mem s) e) /\ changes_only (locs kGF12 e) s s').
Proof.
  intros s e Hg Ho; split.
  - destruct (run (h12_IsZero e) (fun r G => r = gfP12_IsZero (val kGF12 (mem s) e) /\ G = c12 e (gfP12_Minimal (val kGF12 (mem s) e)) ++ rest s (locs kGF12 e)) s Hg)
      as (r & s' & G' & E & Hs & -> & ->).
    + eapply wp_12IsZero; [apply (split_obj _ _ fits12); assumption|auto].
    + exists s'; split; [exact E|split; [apply (val_of _ _ fits12 _ _ _ _ Hs)|apply (frame_of _ _ fits12 _ _ _ _ Hs)]].
  - destruct (run (h12_IsOne e) (fun r G => r = gfP12_IsOne (val kGF12 (mem s) e) /\ G = c12 e (gfP12_Minimal (val kGF12 (mem s) e)) ++ rest s (locs kGF12 e)) s Hg)
      as (r & s' & G' & E & Hs & -> & ->).
    + eapply wp_12IsOne; [apply (split_obj _ _ fits12); assumption|auto].
    + exists s'; split; [exact E|split; [apply (val_of _ _ fits12 _ _ _ _ Hs)|apply (frame_of _ _ fits12 _ _ _ _ Hs)]].
Qed.
(** e.MulScalar(a, b) multiplies e itself, whatever a is *)
Lemma heap_12MulScalar : forall s e a b, good s -> object kGF12 s e -> object kGF12 s a -> object kGF6 s b -> apart kGF12 e kGF6 b ->
  exists s', h12_MulScalar e a b s = Some (tt, s') /\
    val kGF12 (mem s') e = gfP12_MulScalar (val kGF12 (mem s) e) (val kGF12 (mem s) a) (val kGF6 (mem s) b) /\ changes_only (locs kGF12 e) s s'.
Proof.
  intros s e a b Hg Ho Ha Hb Hsb.
  destruct (run (h12_MulScalar e a b) (fun _ G => G = c12 e (gfP12_MulScalar (val kGF12 (mem s) e) (val kGF12 (mem s) a) (val kGF6 (mem s) b)) ++ rest s (locs kGF12 e)) s Hg)
    as (r & s' & G' & E & Hs & ->).
  - eapply (wp_12MulScalar a (val kGF12 (mem s) a) b (val kGF6 (mem s) b)); [apply (split_obj _ _ fits12); assumption| |reflexivity].
    apply (incl_apart _ _ fits6); assumption.
  - destruct r; exists s'; split; [exact E|split; [apply (val_of _ _ fits12 _ _ _ _ Hs)|apply (frame_of _ _ fits12 _ _ _ _ Hs)]].
Qed.
Lemma heap_gfP12 :
  computes1 kGF12 h12_Set (fun a r => r = a) /\ computes0 kGF12 h12_SetZero (fun _ r => r = gfP12_Zero) /\
  computes0 kGF12 h12_SetOne (fun _ r => r = gfP12_One) /\ computes0 kGF12 h12_Minimal (fun a r => r = gfP12_Minimal a) /\
  computes1 kGF12 h12_Negative (fun a r => r = gfP12_Negative a) /\
  computes1g kGF12 h12_Frobenius (fun a r => r = gfP12_Frobenius a) /\
  computes1g kGF12 h12_FrobeniusP2 (fun a r => r = gfP12_FrobeniusP2 a) /\
  computes2 kGF12 h12_Add (fun a b r => r = gfP12_Add a b) /\ computes2 kGF12 h12_Sub (fun a b r => r = gfP12_Sub a b) /\
  computes2 kGF12 h12_Mul (fun a b r => r = gfP12_Mul a b) /\
  computes1 kGF12 h12_Square (fun a r => r = gfP12_Square a) /\ computes1 kGF12 h12_Invert (fun a r => r = gfP12_Invert a) /\
  (forall n, computes1 kGF12 (fun e a => h12_Exp e a n) (fun a r => r = gfP12_Exp a n)).
Proof.
  split; [exact (transfer1 _ _ fits12 _ _ wp_12Set)|].
  split; [exact (transfer0 _ _ fits12 _ _ wp_12SetZero)|].
  split; [exact (transfer0 _ _ fits12 _ _ wp_12SetOne)|].
  split; [exact (transfer0 _ _ fits12 _ _ wp_12Minimal)|].
  split; [exact (transfer1 _ _ fits12 _ _ wp_12Negative)|].
  split; [exact (transfer1g _ _ fits12 _ _ wp_12Frobenius)|].
  split; [exact (transfer1g _ _ fits12 _ _ wp_12FrobeniusP2)|].
  split; [exact (transfer2 _ _ fits12 _ _ wp_12Add)|].
  split; [exact (transfer2 _ _ fits12 _ _ wp_12Sub)|].
  split; [exact (transfer2 _ _ fits12 _ _ wp_12Mul)|].
  split; [exact (transfer1 _ _ fits12 _ _ wp_12Square)|].
  split; [exact (transfer1 _ _ fits12 _ _ wp_12Invert)|].
  intros n; exact (transfer1 _ _ fits12 _ _ (wp_12Exp n)).
Qed.

(** ** curve.go, twist.go *)
Lemma heap_curve :
  computes1 kCurve hc_Set (fun a r => r = a) /\ computes0 kCurve hc_SetInfinity (fun a r => r = cp_SetInfinity a) /\
  tests kCurve hc_IsInfinity cp_IsInfinity /\ computes1 kCurve hc_Negative (fun a r => r = cp_Negative a) /\
  computes1_apart kCurve hc_Double (fun e a r => r = cp_Double e a) /\
  computes0 kCurve (fun e => hc_Double e e) (fun a r => r = cp_DoubleSelf a) /\
  computes2_apart kCurve hc_Add (fun e a b r => r = cp_Add e a b) /\
  computes2_self kCurve hc_Add (fun a b r => r = cp_AddTo a b).
Proof.
  split; [exact (transfer1 _ _ fitsC _ _ wp_cSet)|].
  split; [exact (transfer0 _ _ fitsC _ _ wp_cSetInfinity)|].
  split; [exact (transferT _ _ fitsC _ _ wp_cIsInfinity)|].
  split; [exact (transfer1 _ _ fitsC _ _ wp_cNegative)|].
  split; [exact (transfer1_apart _ _ fitsC _ _ wp_cDouble)|].
  split; [exact (transfer1_self _ _ fitsC (fun e => hc_Double e e) _ wp_cDoubleSelf)|].
  split; [exact (transfer2_apart _ _ fitsC _ _ wp_cAdd)|].
  exact (transfer2_self _ _ fitsC _ _ wp_cAddTo).
Qed.
Lemma heap_twist :
  computes1 kTwist ht_Set (fun a r => r = a) /\ computes0 kTwist ht_SetInfinity (fun a r => r = tp_SetInfinity a) /\
  tests kTwist ht_IsInfinity tp_IsInfinity /\
  computes1_apart kTwist ht_Negative (fun _ a r => r = tp_Negative a) /\
  computes0 kTwist (fun e => ht_Negative e e) (fun a r => r = tp_NegativeSelf a) /\
  computes1_apart kTwist ht_Double (fun e a r => r = tp_Double e a) /\
  computes0 kTwist (fun e => ht_Double e e) (fun a r => r = tp_DoubleSelf a) /\
  computes2_apart kTwist ht_Add (fun e a b r => r = tp_Add e a b) /\
  computes2_self kTwist ht_Add (fun a b r => r = tp_AddTo a b) /\
  computes0 kTwist ht_MakeAffine (fun a r => r = tp_MakeAffine a).
Proof.
  split; [exact (transfer1 _ _ fitsT _ _ wp_tSet)|].
  split; [exact (transfer0 _ _ fitsT _ _ wp_tSetInfinity)|].
  split; [exact (transferT _ _ fitsT _ _ wp_tIsInfinity)|].
  split; [exact (transfer1_apart _ _ fitsT _ (fun _ a => tp_Negative a) wp_tNegative)|].
  split; [exact (transfer1_self _ _ fitsT (fun e => ht_Negative e e) _ wp_tNegativeSelf)|].
  split; [exact (transfer1_apart _ _ fitsT _ _ wp_tDouble)|].
  split; [exact (transfer1_self _ _ fitsT (fun e => ht_Double e e) _ wp_tDoubleSelf)|].
  split; [exact (transfer2_apart _ _ fitsT _ _ wp_tAdd)|].
  split; [exact (transfer2_self _ _ fitsT _ _ wp_tAddTo)|].
  exact (transfer0 _ _ fitsT _ _ wp_tMakeAffine).
Qed.
(** MakeAffine of a curve point panics where ModInverse returns nil *)
Lemma heap_cMakeAffine : forall s e, good s -> object kCurve s e ->
  match cp_MakeAffine (val kCurve (mem s) e) with
  | Some v => exists s', hc_MakeAffine e s = Some (tt, s') /\ val kCurve (mem s') e = v /\ changes_only (locs kCurve e) s s'
  | None => hc_MakeAffine e s = None
  end.
Proof.
  intros s e Hg Ho; destruct (cp_MakeAffine (val kCurve (mem s) e)) as [v|] eqn:Ev.
  - destruct (run (hc_MakeAffine e) (fun _ G => G = ccp e v ++ rest s (locs kCurve e)) s Hg) as (r & s' & G' & E & Hs & ->).
    + eapply wp_cMakeAffine; [apply (split_obj _ _ fitsC); assumption|exact Ev|reflexivity].
    + destruct r; exists s'; split; [exact E|split; [apply (val_of _ _ fitsC _ _ _ _ Hs)|apply (frame_of _ _ fitsC _ _ _ _ Hs)]].
  - eapply pan_cMakeAffine; [apply (split_obj _ _ fitsC); eassumption|exact Ev|apply holds_all, Hg].
Qed.
(** Mul: the two scratch points are not initialised; with a stale pool the
    result starts from what they hold *)
Lemma heap_cMul : forall n, computes1 kCurve (fun e a => hc_Mul e a n) (fun a r => exists s t, r = cp_MulFrom s t a n).
Proof.
  intros n s e a Hg Ho Ha Hsa.
  destruct (run (hc_Mul e a n) (fun _ G => exists s0 t0, G = ccp e (cp_MulFrom s0 t0 (val kCurve (mem s) a) n) ++ rest s (locs kCurve e)) s Hg)
    as (r & s' & G' & E & Hs & s0 & t0 & ->).
  - eapply wp_cMulStale; [apply (split_obj _ _ fitsC); assumption|apply (opnd_of _ _ fitsC); assumption|eauto].
  - destruct r; exists s'; split; [exact E|split; [exists s0, t0; apply (val_of _ _ fitsC _ _ _ _ Hs)|apply (frame_of _ _ fitsC _ _ _ _ Hs)]].
Qed.
Lemma heap_tMul : forall n, computes1 kTwist (fun e a => ht_Mul e a n) (fun a r => exists s t, r = tp_MulFrom s t a n).
Proof.
  intros n s e a Hg Ho Ha Hsa.
  destruct (run (ht_Mul e a n) (fun _ G => exists s0 t0, G = ctp e (tp_MulFrom s0 t0 (val kTwist (mem s) a) n) ++ rest s (locs kTwist e)) s Hg)
    as (r & s' & G' & E & Hs & s0 & t0 & ->).
  - eapply wp_tMulStale; [apply (split_obj _ _ fitsT); assumption|apply (opnd_of _ _ fitsT); assumption|eauto].
  - destruct r; exists s'; split; [exact E|split; [exists s0, t0; apply (val_of _ _ fitsT _ _ _ _ Hs)|apply (frame_of _ _ fitsT _ _ _ _ Hs)]].
Qed.

(** ** bn256.go *)
Local Ltac ret HF := intros; apply (returns_of _ _ HF); [assumption..|]; intros Q HQ.
Local Ltac rc HF := apply (recv_of _ _ HF); assumption.
Local Ltac op HF := apply (opnd'_of _ _ HF); assumption.
Lemma not_global {O V} (K : kind O V) s e : package_variables s -> match e with Some o => not_package_variable K o | None => True end ->
  incl cglob (restr K s e).
Proof. intros Hp Hn; destruct e as [o|]; cbn [restr]; apply incl_globals; auto; intros ? []. Qed.

Lemma heap_G1 : forall s e a b k, good s -> no_pool s -> receiver kCurve s e -> object kCurve s a -> object kCurve s b ->
  (receiver_same_or_apart kCurve e a ->
     returns kCurve (hG1_ScalarMult e a k) s e (G1ScalarMult (content kCurve s e newCurvePoint) (val kCurve (mem s) a) k) /\
     returns kCurve (hG1_Neg e a) s e (G1Neg (val kCurve (mem s) a))) /\
  (receiver_apart kCurve e a -> receiver_same_or_apart kCurve e b ->
     returns kCurve (hG1_Add e a b) s e (G1Add (content kCurve s e newCurvePoint) (val kCurve (mem s) a) (val kCurve (mem s) b))) /\
  (same_or_apart kCurve a b ->
     returns kCurve (hG1_Add (Some a) a b) s (Some a) (G1AddTo (val kCurve (mem s) a) (val kCurve (mem s) b))) /\
  returns kCurve hG1_SetInfinity s None G1SetInfinity.
Proof.
  intros s e a b k Hg Hn Hr Ha Hb; split; [|split; [|split]].
  - split; ret fitsC.
    + eapply wpn_G1_ScalarMult; [rc fitsC|op fitsC|exact HQ].
    + eapply wpn_G1_Neg; [rc fitsC|apply (opnd'_of _ _ fitsC _ _ newCurvePoint); assumption|exact HQ].
  - ret fitsC; eapply wpn_G1_Add; [rc fitsC|apply (incl_of _ _ fitsC); assumption|op fitsC|exact HQ].
  - ret fitsC; eapply wpn_G1_AddTo; [apply (split_obj _ _ fitsC); assumption|apply (opnd_of _ _ fitsC); assumption|].
    apply (HQ a eq_refl).
  - ret fitsC; apply wpn_G1_SetInfinity; intros p; apply (HQ p I).
Qed.
Lemma heap_G2 : forall s e a b k, good s -> no_pool s -> receiver kTwist s e -> object kTwist s a -> object kTwist s b ->
  (receiver_same_or_apart kTwist e a -> returns kTwist (hG2_ScalarMult e a k) s e (G2ScalarMult (val kTwist (mem s) a) k)) /\
  (receiver_apart kTwist e a -> returns kTwist (hG2_Neg e a) s e (G2Neg (val kTwist (mem s) a))) /\
  returns kTwist (hG2_Neg (Some a) a) s (Some a) (G2NegSelf (val kTwist (mem s) a)) /\
  (receiver_apart kTwist e a -> receiver_same_or_apart kTwist e b ->
     returns kTwist (hG2_Add e a b) s e (G2Add (content kTwist s e newTwistPoint) (val kTwist (mem s) a) (val kTwist (mem s) b))) /\
  (same_or_apart kTwist a b ->
     returns kTwist (hG2_Add (Some a) a b) s (Some a) (G2AddTo (val kTwist (mem s) a) (val kTwist (mem s) b))).
Proof.
  intros s e a b k Hg Hn Hr Ha Hb; split; [|split; [|split; [|split]]].
  - ret fitsT; eapply wpn_G2_ScalarMult; [rc fitsT|apply (opnd'_of _ _ fitsT _ _ newTwistPoint); assumption|exact HQ].
  - ret fitsT; eapply wpn_G2_Neg; [rc fitsT|apply (incl_of _ _ fitsT); assumption|exact HQ].
  - ret fitsT; eapply wpn_G2_NegSelf; [apply (split_obj _ _ fitsT); assumption|apply (HQ a eq_refl)].
  - ret fitsT; eapply wpn_G2_Add; [rc fitsT|apply (incl_of _ _ fitsT); assumption|op fitsT|exact HQ].
  - ret fitsT; eapply wpn_G2_AddTo; [apply (split_obj _ _ fitsT); assumption|apply (opnd_of _ _ fitsT); assumption|].
    apply (HQ a eq_refl).
Qed.
Lemma heap_base : forall s e f k, good s -> no_pool s -> package_variables s ->
  (receiver kCurve s e -> match e with Some o => not_package_variable kCurve o | None => True end ->
     returns kCurve (hG1_ScalarBaseMult e k) s e (G1ScalarBaseMult (content kCurve s e newCurvePoint) k)) /\
  (receiver kTwist s f -> match f with Some o => not_package_variable kTwist o | None => True end ->
     returns kTwist (hG2_ScalarBaseMult f k) s f (G2ScalarBaseMult k)).
Proof.
  intros s e f k Hg Hn Hp; split.
  - ret fitsC; eapply wpn_G1_ScalarBaseMult; [rc fitsC|apply not_global; assumption|exact HQ].
  - ret fitsT; eapply (wpn_G2_ScalarBaseMult _ _ Q f (content kTwist s f newTwistPoint)); [rc fitsT|apply not_global; assumption|exact HQ].
Qed.
Lemma heap_GT : forall s e a b k, good s -> no_pool s -> receiver kGF12 s e -> object kGF12 s a -> object kGF12 s b ->
  receiver_same_or_apart kGF12 e a ->
  returns kGF12 (hGT_ScalarMult e a k) s e (GTScalarMult (val kGF12 (mem s) a) k) /\
  returns kGF12 (hGT_Invert e a) s e (GTInvert (val kGF12 (mem s) a)) /\
  returns kGF12 (hGT_Neg e a) s e (GTNeg (val kGF12 (mem s) a)) /\
  (receiver_same_or_apart kGF12 e b -> returns kGF12 (hGT_Add e a b) s e (GTAdd (val kGF12 (mem s) a) (val kGF12 (mem s) b))) /\
  (forall w, returns kGF12 (hGT_Exp a k) s (Some a) (fst (GTExp w (val kGF12 (mem s) a) k))).
Proof.
  intros s e a b k Hg Hn Hr Ha Hb Hs.
  assert (R := recv_of _ _ fits12 s e gfP12_Zero Hg Hr); assert (A := opnd'_of _ _ fits12 s e gfP12_Zero a Ha Hs).
  split; [|split; [|split; [|split]]].
  - ret fits12; eapply wpn_GT_ScalarMult; [exact R|exact A|exact HQ].
  - ret fits12; eapply wpn_GT_Invert; [exact R|exact A|exact HQ].
  - ret fits12; eapply wpn_GT_Neg; [exact R|exact A|exact HQ].
  - ret fits12; eapply wpn_GT_Add; [exact R|exact A|apply (opnd'_of _ _ fits12); assumption|exact HQ].
  - ret fits12; eapply wpn_GT_Exp; [apply (split_obj _ _ fits12); assumption|apply (HQ a eq_refl)].
Qed.
(** Marshal makes its receiver affine *)
Lemma heap_Marshal : forall s n q, good s -> no_pool s -> object kCurve s n -> object kTwist s q ->
  match G1Marshal (val kCurve (mem s) n) with
  | Some (bs, v) => exists s', hG1_Marshal n s = Some (bs, s') /\ val kCurve (mem s') n = v /\ no_pool s' /\ changes_only (locs kCurve n) s s'
  | None => hG1_Marshal n s = None
  end /\
  exists s', hG2_Marshal q s = Some (fst (G2Marshal (val kTwist (mem s) q)), s') /\
    val kTwist (mem s') q = snd (G2Marshal (val kTwist (mem s) q)) /\ no_pool s' /\ changes_only (locs kTwist q) s s'.
Proof.
  intros s n q Hg Hn Hc Ht; split.
  - destruct (G1Marshal (val kCurve (mem s) n)) as [[bs v]|] eqn:E.
    + destruct (wpn_G1_Marshal _ _ (fun r G => r = bs /\ G = ccp n v ++ rest s (locs kCurve n)) n _ bs v (split_obj _ _ fitsC s n Hg Hc) E (conj eq_refl eq_refl) s Hn (holds_all s Hg))
        as (r & s' & G' & Er & Hp & _ & Hs & -> & ->).
      exists s'; split; [exact Er|split; [apply (val_of _ _ fitsC _ _ _ _ Hs)|split; [exact Hp|apply (frame_of _ _ fitsC _ _ _ _ Hs)]]].
    + unfold G1Marshal in E; destruct (cp_MakeAffine (val kCurve (mem s) n)) eqn:Em; [discriminate|].
      unfold hG1_Marshal, mbind, with_nil_pool.
      rewrite (pan_cMakeAffine _ _ n _ (split_obj _ _ fitsC s n Hg Hc) Em); [reflexivity|].
      apply holds_nil_pool; auto; apply holds_all, Hg.
  - destruct (wpn_G2_Marshal _ _ (fun r G => r = fst (G2Marshal (val kTwist (mem s) q)) /\ G = ctp q (snd (G2Marshal (val kTwist (mem s) q))) ++ rest s (locs kTwist q)) q _
      (split_obj _ _ fitsT s q Hg Ht) (conj eq_refl eq_refl) s Hn (holds_all s Hg)) as (r & s' & G' & Er & Hp & _ & Hs & -> & ->).
    exists s'; split; [exact Er|split; [apply (val_of _ _ fitsT _ _ _ _ Hs)|split; [exact Hp|apply (frame_of _ _ fitsT _ _ _ _ Hs)]]].
Qed.
(** Pair makes a new object and changes nothing; it panics where the model does *)
Lemma heap_Pair : forall s p q, good s -> no_pool s -> package_variables s -> object kCurve s p -> object kTwist s q ->
  match PairBN (val kCurve (mem s) p) (val kTwist (mem s) q) with
  | Ok v => returns kGF12 (h_Pair p q) s None v
  | _ => h_Pair p q s = None
  end.
Proof.
  intros s p q Hg Hn Hp Hc Ht.
  assert (I1 : incl (ccp p (val kCurve (mem s) p)) (rest s [])) by (apply (incl_apart _ _ fitsC); [assumption|intros ? []]).
  assert (I2 : incl (ctp q (val kTwist (mem s) q)) (rest s [])) by (apply (incl_apart _ _ fitsT); [assumption|intros ? []]).
  destruct (PairBN _ _) as [v| |] eqn:E.
  - ret fits12; eapply wpn_Pair; [exact I1|exact I2|apply incl_globals; [assumption|intros ? []]|exact E|].
    intros r; apply (HQ r I).
  - exfalso; unfold PairBN, optimalAte in E; destruct (miller _ _) eqn:Em; try discriminate; exact (miller_Err _ _ Em).
  - eapply pan_Pair; [exact I1|exact I2|exact E|exact Hn|apply holds_all, Hg].
Qed.
Lemma lists_of {O V} (K : kind O V) C (HF : fits K C) s a : Forall (object K s) a -> lists C a (map (val K (mem s)) a) (rest s []).
Proof.
  intros H; induction H as [|x a Hx _ IH]; cbn [map]; constructor; [|exact IH].
  apply (incl_apart K C HF); [assumption|intros ? []].
Qed.
Lemma PairingCheck_loop_Err a : forall b acc, PairingCheck_loop a b acc <> Err.
Proof.
  induction a as [|p a IH]; intros b acc; cbn [PairingCheck_loop]; [discriminate|].
  destruct b as [|q b]; [destruct (cp_IsInfinity p); [apply IH|discriminate]|].
  destruct (cp_IsInfinity p || tp_IsInfinity q); [apply IH|].
  destruct (miller q p) eqn:Em; [apply IH|exfalso; exact (miller_Err _ _ Em)|discriminate].
Qed.
Lemma heap_PairingCheck : forall s a b, good s -> no_pool s -> package_variables s -> Forall (object kCurve s) a -> Forall (object kTwist s) b ->
  match PairingCheck (map (val kCurve (mem s)) a) (map (val kTwist (mem s)) b) with
  | Ok v => exists s', h_PairingCheck a b s = Some (v, s') /\ no_pool s' /\ changes_only [] s s'
  | _ => h_PairingCheck a b s = None
  end.
Proof.
  intros s a b Hg Hn Hp Ha Hb.
  assert (La := lists_of _ _ fitsC s a Ha); assert (Lb := lists_of _ _ fitsT s b Hb).
  assert (Lg : incl cglob (rest s [])) by (apply incl_globals; [assumption|intros ? []]).
  destruct (PairingCheck _ _) as [v| |] eqn:E.
  - destruct (wpn_PairingCheck (fun r G => r = v /\ G = rest s []) _ a _ b _ v La Lb Lg E (conj eq_refl eq_refl) s Hn (holds_all s Hg))
      as (r & s' & G' & Er & Hp' & _ & Hs & -> & ->).
    exists s'; split; [exact Er|split; [exact Hp'|apply (frame_nil s s' []), Hs]].
  - exfalso; unfold PairingCheck in E; destruct (PairingCheck_loop _ _ _) eqn:El; try discriminate; exact (PairingCheck_loop_Err _ _ _ El).
  - eapply pan_PairingCheck; [exact La|exact Lb|exact Lg|exact E|exact Hn|apply holds_all, Hg].
Qed.
