(** * The programs of BNHeap.v compute the functions of BN256.v: optimalAte and
    the exported functions of bn256.go *)
From Coq Require Import ZArith List Bool Arith Lia Permutation.
From Verif Require Import Base BB BN256 BNHeap HeapLogic BNHeapProofs BNHeapTower BNHeapCurve BNHeapPair BNHeapFinal.
Import ListNotations.
Open Scope Z_scope.
Local Opaque miller_loop lineFunctionAdd lineFunctionDouble mulLine miller finalExponentiation miller_affine.

(** ** optate.go *)
Lemma pan_miller G q vq p vp :
  incl (ctp q vq) G -> incl (ccp p vp) G -> cp_MakeAffine vp = None -> pan (h_miller q p) G.
Proof.
  intros Hq Hp E; unfold h_miller.
  apply pan_bind, wp_12new; intros ret v0; apply pan_bind; hop.
  apply pan_bind, wp_tnew; intros aA v1; apply pan_bind; hop; apply pan_bind; eapply wp_tMakeAffine; [side..|]; cbv beta.
  apply pan_bind, wp_cnew; intros bA v2; apply pan_bind; hop; apply pan_left; eapply pan_cMakeAffine; [pick|exact E].
Qed.
Lemma miller_Panic q p : miller q p = Panic -> cp_MakeAffine p = None.
Proof. Local Transparent miller. unfold miller; destruct (cp_MakeAffine p); [discriminate|reflexivity]. Local Opaque miller. Qed.
Lemma miller_Err q p : miller q p <> Err.
Proof. Local Transparent miller. unfold miller; destruct (cp_MakeAffine p); discriminate. Local Opaque miller. Qed.
(** optate.go:401-410, optimalAte *)
Lemma wp_optimalAte (Q : o12 -> cells -> Prop) G a va b vb v :
  incl (ctp a va) G -> incl (ccp b vb) G -> incl cglob G -> optimalAte va vb = Ok v ->
  (forall r, Q r (c12 r v ++ G)) -> wp (h_optimalAte a b) Q G.
Proof.
  intros Ha Hb Hg E HQ; unfold optimalAte in E.
  destruct (miller va vb) as [e| |] eqn:Em; [|discriminate|discriminate]; apply Ok_inj in E.
  apply wp_tail; unfold h_optimalAte; hop; eapply wp_miller; [side|side|side|exact Em|]; intros oe.
  hop; eapply wp_finalExponentiation; [side..|]; intros ret; hop; hop.
  hop; eapply wp_tIsInfinity; [side..|]; hop; eapply wp_cIsInfinity; [side..|]; cbv beta.
  hop; destruct (tp_IsInfinity va || cp_IsInfinity vb); subst v; repeat hop; eexists; (split; [|apply HQ]); perm.
Qed.
Lemma pan_optimalAte G a va b vb :
  incl (ctp a va) G -> incl (ccp b vb) G -> optimalAte va vb = Panic -> pan (h_optimalAte a b) G.
Proof.
  intros Ha Hb E; unfold optimalAte in E.
  destruct (miller va vb) as [e| |] eqn:Em; [discriminate|discriminate|].
  apply pan_left; eapply pan_miller; [exact Ha|exact Hb|eapply miller_Panic; exact Em].
Qed.

(** ** Programs outside a pool *)
(** a program that leaves the absence of a pool, and the count, alone *)
Definition keeps {A} (m : prog A) : Prop := forall s r s', m s = Some (r, s') -> pool s = None -> pool s' = None /\ count s' = count s.
Lemma keeps_bind {A B} (m : prog A) (k : A -> prog B) : keeps m -> (forall a, keeps (k a)) -> keeps (mbind m k).
Proof.
  intros Hm Hk s r s' E Hp; unfold mbind in E; destruct (m s) as [[a s1]|] eqn:E1; [|discriminate].
  destruct (Hm _ _ _ E1 Hp) as [P1 C1]; destruct (Hk a _ _ _ E P1) as [P2 C2]; split; congruence.
Qed.
Lemma keeps_ret {A} (a : A) : keeps (mret a).
Proof. intros s r s' E Hp; injection E as _ <-; auto. Qed.
Lemma keeps_rd l : keeps (rd l).
Proof. intros s r s' E Hp; injection E as _ <-; auto. Qed.
Lemma keeps_wr l v : keeps (wr l v).
Proof. intros s r s' E Hp; injection E as _ <-; auto. Qed.
Lemma wpn_wp {A} (m : prog A) Q G : keeps m -> wp m Q G -> wpn m Q G.
Proof.
  intros K H s Hp Hs; destruct (H s Hs) as (r & s' & G' & E & Hs' & HQ).
  destruct (K _ _ _ E Hp) as [P C]; exists r, s', G'; auto 7.
Qed.
Ltac keep := repeat first [apply keeps_ret | apply keeps_rd | apply keeps_wr | apply keeps_bind; [|intros ?]].
Lemma keeps_cSetInfinity c : keeps (hc_SetInfinity c). Proof. unfold hc_SetInfinity, bSetInt64; keep. Qed.
Lemma keeps_tSetInfinity c : keeps (ht_SetInfinity c). Proof. unfold ht_SetInfinity, h2_SetZero, bSetInt64; keep. Qed.
Lemma keeps_cNegative c a : keeps (hc_Negative c a). Proof. unfold hc_Negative, bSet, bNeg, bSetInt64; keep. Qed.

Lemma wpe_2new {B} (k : o2 -> prog B) Q G :
  (forall c, wpe (k c) Q (c2 c gfP2_Zero ++ G)) -> wpe (mbind h2_new k) Q G.
Proof.
  intros HQ; unfold h2_new.
  repeat (first [apply wpe_assoc | apply wpe_ret_bind | apply wpe_GetC; intros ?]; cbv beta).
  eapply wpe_perm; [|apply HQ].
  rewrite c2_open; cbn [c2x c2y p2x p2y gfP2_Zero]; perm.
Qed.
Lemma wpe_6new {B} (k : o6 -> prog B) Q G :
  (forall c, wpe (k c) Q (c6 c gfP6_Zero ++ G)) -> wpe (mbind h6_new k) Q G.
Proof.
  intros HQ; unfold h6_new.
  repeat (first [apply wpe_2new; intros ? | apply wpe_assoc | apply wpe_ret_bind]; cbv beta).
  eapply wpe_perm; [|apply HQ].
  rewrite c6_open; cbn [c6x c6y c6z p6x p6y p6z gfP6_Zero]; perm.
Qed.
Lemma wpe_12new {B} (k : o12 -> prog B) Q G :
  (forall c, wpe (k c) Q (c12 c gfP12_Zero ++ G)) -> wpe (mbind h12_new k) Q G.
Proof.
  intros HQ; unfold h12_new.
  repeat (first [apply wpe_6new; intros ? | apply wpe_assoc | apply wpe_ret_bind]; cbv beta).
  eapply wpe_perm; [|apply HQ].
  rewrite c12_open; cbn [c12x c12y p12x p12y gfP12_Zero]; perm.
Qed.
Lemma wpe_unbind {A} (m : prog A) Q G : wpe (mbind m mret) Q G -> wpe m Q G.
Proof. intros H s Hb Hs; specialize (H s Hb Hs); unfold mbind, mret in H; destruct (m s) as [[? ?]|]; exact H. Qed.

(** the receiver: an existing object, or nil *)
Definition recv {O V} (C : O -> V -> cells) (v0 : V) (e : option O) (ve : V) (G G' : cells) : Prop :=
  match e with Some o => Permutation G (C o ve ++ G') | None => ve = v0 /\ G' = G end.
Lemma wpn_or_new_c e ve G G' (Q : ocp -> cells -> Prop) : recv ccp newCurvePoint e ve G G' ->
  (forall p, (match e with Some o => p = o | None => True end) -> Q p (ccp p ve ++ G')) -> wpn (or_new e hc_new) Q G.
Proof.
  intros HR HQ; destruct e as [o|]; cbn [recv or_new] in *.
  - eapply wpn_ret; [exact HR|apply HQ; reflexivity].
  - destruct HR as [-> ->]; apply wpn_nil_pool_e, wpe_unbind, wpe_cnew; intros p; apply wpe_ret, HQ, I.
Qed.
Lemma wpn_or_new_t e ve G G' (Q : otp -> cells -> Prop) : recv ctp newTwistPoint e ve G G' ->
  (forall p, (match e with Some o => p = o | None => True end) -> Q p (ctp p ve ++ G')) -> wpn (or_new e ht_new) Q G.
Proof.
  intros HR HQ; destruct e as [o|]; cbn [recv or_new] in *.
  - eapply wpn_ret; [exact HR|apply HQ; reflexivity].
  - destruct HR as [-> ->]; apply wpn_nil_pool_e, wpe_unbind, wpe_tnew; intros p; apply wpe_ret, HQ, I.
Qed.
Lemma wpn_or_new_12 e ve G G' (Q : o12 -> cells -> Prop) : recv c12 gfP12_Zero e ve G G' ->
  (forall p, (match e with Some o => p = o | None => True end) -> Q p (c12 p ve ++ G')) -> wpn (or_new e h12_new) Q G.
Proof.
  intros HR HQ; destruct e as [o|]; cbn [recv or_new] in *.
  - eapply wpn_ret; [exact HR|apply HQ; reflexivity].
  - destruct HR as [-> ->]; apply wpn_nil_pool_e, wpe_unbind, wpe_12new; intros p; apply wpe_ret, HQ, I.
Qed.
(** an operand of an exported method: the receiver, or apart *)
Definition opnd' {O V} (C : O -> V -> cells) (e : option O) (ve : V) (G' : cells) (a : O) (va : V) : Prop :=
  (e = Some a /\ va = ve) \/ incl (C a va) G'.
Lemma opnd'_opnd {O V} (C : O -> V -> cells) e ve G' a va p :
  match e with Some o => p = o | None => True end -> opnd' C e ve G' a va -> opnd C p ve G' a va.
Proof. intros Hp [[-> ->]|H]; [left; auto|right; exact H]. Qed.

(** ** G1 *)
Lemma wpn_G1_SetInfinity (Q : ocp -> cells -> Prop) G :
  (forall p, Q p (ccp p G1SetInfinity ++ G)) -> wpn hG1_SetInfinity Q G.
Proof.
  intros HQ; unfold hG1_SetInfinity; apply wpn_bind, wpn_new_pool_e, wpe_unbind, wpe_cnew; intros p; apply wpe_ret.
  apply wpn_bind, wpn_wp; [apply keeps_cSetInfinity|]; hop; eapply wpn_ret; [apply Permutation_refl|apply HQ].
Qed.
Lemma wpn_G1_ScalarMult G G' (Q : ocp -> cells -> Prop) e ve a va k :
  recv ccp newCurvePoint e ve G G' -> opnd' ccp e ve G' a va ->
  (forall p, (match e with Some o => p = o | None => True end) -> Q p (ccp p (G1ScalarMult ve va k) ++ G')) ->
  wpn (hG1_ScalarMult e a k) Q G.
Proof.
  intros HR Ha HQ; unfold hG1_ScalarMult, G1ScalarMult in *; apply wpn_bind; eapply wpn_or_new_c; [exact HR|].
  intros p Hp; apply (opnd'_opnd _ _ _ _ _ _ p Hp) in Ha; specialize (HQ p Hp); apply wpn_bind.
  destruct (0 <=? k); [destruct (k =? 0)|].
  - apply wpn_wp; [apply keeps_cSetInfinity|]; hop; eapply wpn_ret; [|exact HQ]; perm.
  - apply wpn_new_pool_e; eapply wpe_cMul; [pick|exact Ha|]; eapply wpn_ret; [|exact HQ]; perm.
  - apply wpn_bind, wpn_new_pool_e; eapply wpe_cMul; [pick|exact Ha|].
    apply wpn_wp; [apply keeps_cNegative|]; hop; eapply wpn_ret; [|exact HQ]; perm.
Qed.
Lemma wpn_G1_ScalarBaseMult G G' (Q : ocp -> cells -> Prop) e ve k :
  recv ccp newCurvePoint e ve G G' -> incl cglob G' ->
  (forall p, (match e with Some o => p = o | None => True end) -> Q p (ccp p (G1ScalarBaseMult ve k) ++ G')) ->
  wpn (hG1_ScalarBaseMult e k) Q G.
Proof. intros HR Hg HQ; apply (wpn_G1_ScalarMult G G' Q e ve gl_curveGen curveGen k HR); [right; look|exact HQ]. Qed.
(** the receiver is not the first operand *)
Lemma wpn_G1_Add G G' (Q : ocp -> cells -> Prop) e ve a va b vb :
  recv ccp newCurvePoint e ve G G' -> incl (ccp a va) G' -> opnd' ccp e ve G' b vb ->
  (forall p, (match e with Some o => p = o | None => True end) -> Q p (ccp p (G1Add ve va vb) ++ G')) ->
  wpn (hG1_Add e a b) Q G.
Proof.
  intros HR Ha Hb HQ; unfold hG1_Add, G1Add in *; apply wpn_bind; eapply wpn_or_new_c; [exact HR|].
  intros p Hp; apply (opnd'_opnd _ _ _ _ _ _ p Hp) in Hb; specialize (HQ p Hp).
  apply wpn_bind, wpn_new_pool; eapply wp_cAdd; [pick|exact Ha|exact Hb|]; eapply wpn_ret; [|exact HQ]; perm.
Qed.
Lemma wpn_G1_AddTo G G' (Q : ocp -> cells -> Prop) e ve b vb :
  Permutation G (ccp e ve ++ G') -> opnd ccp e ve G' b vb ->
  Q e (ccp e (G1AddTo ve vb) ++ G') -> wpn (hG1_Add (Some e) e b) Q G.
Proof.
  intros HP Hb HQ; unfold hG1_Add, G1AddTo in *; apply wpn_bind; eapply wpn_ret; [exact HP|].
  apply wpn_bind, wpn_new_pool; eapply wp_cAddTo; [pick|exact Hb|]; eapply wpn_ret; [|exact HQ]; perm.
Qed.
Lemma wpn_G1_Neg G G' (Q : ocp -> cells -> Prop) e ve a va :
  recv ccp newCurvePoint e ve G G' -> opnd' ccp e ve G' a va ->
  (forall p, (match e with Some o => p = o | None => True end) -> Q p (ccp p (G1Neg va) ++ G')) ->
  wpn (hG1_Neg e a) Q G.
Proof.
  intros HR Ha HQ; unfold hG1_Neg, G1Neg in *; apply wpn_bind; eapply wpn_or_new_c; [exact HR|].
  intros p Hp; apply (opnd'_opnd _ _ _ _ _ _ p Hp) in Ha; specialize (HQ p Hp).
  apply wpn_bind, wpn_wp; [apply keeps_cNegative|]; eapply wp_cNegative; [pick|exact Ha|side|]; eapply wpn_ret; [|exact HQ]; perm.
Qed.
Lemma wpn_read (Q : Z -> cells -> Prop) G0 x vx : incl (c1 x vx) G0 -> Q vx G0 -> wpn (rd x) Q G0.
Proof. intros Hx HQ; apply wpn_wp; [apply keeps_rd|eapply wp_read; eassumption]. Qed.
Lemma wpn_G1_Marshal G G' (Q : list Z -> cells -> Prop) n vn bs v :
  Permutation G (ccp n vn ++ G') -> G1Marshal vn = Some (bs, v) -> Q bs (ccp n v ++ G') -> wpn (hG1_Marshal n) Q G.
Proof.
  intros HP E HQ; unfold G1Marshal in E; destruct (cp_MakeAffine vn) as [w|] eqn:Ew; [|discriminate].
  assert (Eb := f_equal (fun o => match o with Some (x, _) => x | None => bs end) E); cbv beta iota in Eb.
  assert (Ev : w = v) by congruence; subst bs v.
  unfold hG1_Marshal; apply wpn_bind, wpn_nil_pool; eapply wp_cMakeAffine; [exact HP|exact Ew|].
  apply wpn_bind; eapply wpn_read; [look|]; apply wpn_bind; eapply wpn_read; [look|].
  eapply wpn_ret; [|exact HQ]; perm.
Qed.

(** ** G2 *)
Lemma wpn_G2_ScalarMult G G' (Q : otp -> cells -> Prop) e ve a va k :
  recv ctp newTwistPoint e ve G G' -> opnd' ctp e ve G' a va ->
  (forall p, (match e with Some o => p = o | None => True end) -> Q p (ctp p (G2ScalarMult va k) ++ G')) ->
  wpn (hG2_ScalarMult e a k) Q G.
Proof.
  intros HR Ha HQ; unfold hG2_ScalarMult, G2ScalarMult in *; apply wpn_bind; eapply wpn_or_new_t; [exact HR|].
  intros p Hp; apply (opnd'_opnd _ _ _ _ _ _ p Hp) in Ha; specialize (HQ p Hp); apply wpn_bind.
  destruct (0 <=? k).
  - apply wpn_new_pool_e; eapply wpe_tMul; [pick|exact Ha|]; eapply wpn_ret; [|exact HQ]; perm.
  - apply wpn_bind, wpn_new_pool_e; eapply wpe_tMul; [pick|exact Ha|].
    apply wpn_new_pool; eapply wp_tNegativeSelf; [pick|]; eapply wpn_ret; [|exact HQ]; perm.
Qed.
Lemma wpn_G2_ScalarBaseMult G G' (Q : otp -> cells -> Prop) e ve k :
  recv ctp newTwistPoint e ve G G' -> incl cglob G' ->
  (forall p, (match e with Some o => p = o | None => True end) -> Q p (ctp p (G2ScalarBaseMult k) ++ G')) ->
  wpn (hG2_ScalarBaseMult e k) Q G.
Proof. intros HR Hg HQ; apply (wpn_G2_ScalarMult G G' Q e ve gl_twistGen twistGen k HR); [right; look|exact HQ]. Qed.
Lemma wpn_G2_Add G G' (Q : otp -> cells -> Prop) e ve a va b vb :
  recv ctp newTwistPoint e ve G G' -> incl (ctp a va) G' -> opnd' ctp e ve G' b vb ->
  (forall p, (match e with Some o => p = o | None => True end) -> Q p (ctp p (G2Add ve va vb) ++ G')) ->
  wpn (hG2_Add e a b) Q G.
Proof.
  intros HR Ha Hb HQ; unfold hG2_Add, G2Add in *; apply wpn_bind; eapply wpn_or_new_t; [exact HR|].
  intros p Hp; apply (opnd'_opnd _ _ _ _ _ _ p Hp) in Hb; specialize (HQ p Hp).
  apply wpn_bind, wpn_new_pool; eapply wp_tAdd; [pick|exact Ha|exact Hb|]; eapply wpn_ret; [|exact HQ]; perm.
Qed.
Lemma wpn_G2_AddTo G G' (Q : otp -> cells -> Prop) e ve b vb :
  Permutation G (ctp e ve ++ G') -> opnd ctp e ve G' b vb ->
  Q e (ctp e (G2AddTo ve vb) ++ G') -> wpn (hG2_Add (Some e) e b) Q G.
Proof.
  intros HP Hb HQ; unfold hG2_Add, G2AddTo in *; apply wpn_bind; eapply wpn_ret; [exact HP|].
  apply wpn_bind, wpn_new_pool; eapply wp_tAddTo; [pick|exact Hb|]; eapply wpn_ret; [|exact HQ]; perm.
Qed.
Lemma wpn_G2_Neg G G' (Q : otp -> cells -> Prop) e ve a va :
  recv ctp newTwistPoint e ve G G' -> incl (ctp a va) G' ->
  (forall p, (match e with Some o => p = o | None => True end) -> Q p (ctp p (G2Neg va) ++ G')) ->
  wpn (hG2_Neg e a) Q G.
Proof.
  intros HR Ha HQ; unfold hG2_Neg, G2Neg in *; apply wpn_bind; eapply wpn_or_new_t; [exact HR|].
  intros p Hp; specialize (HQ p Hp).
  apply wpn_bind, wpn_new_pool; eapply wp_tNegative; [pick|exact Ha|]; eapply wpn_ret; [|exact HQ]; perm.
Qed.
Lemma wpn_G2_NegSelf G G' (Q : otp -> cells -> Prop) e ve :
  Permutation G (ctp e ve ++ G') -> Q e (ctp e (G2NegSelf ve) ++ G') -> wpn (hG2_Neg (Some e) e) Q G.
Proof.
  intros HP HQ; unfold hG2_Neg, G2NegSelf in *; apply wpn_bind; eapply wpn_ret; [exact HP|].
  apply wpn_bind, wpn_new_pool; eapply wp_tNegativeSelf; [pick|]; eapply wpn_ret; [|exact HQ]; perm.
Qed.
Lemma wpn_G2_Marshal G G' (Q : list Z -> cells -> Prop) n vn :
  Permutation G (ctp n vn ++ G') -> Q (fst (G2Marshal vn)) (ctp n (snd (G2Marshal vn)) ++ G') -> wpn (hG2_Marshal n) Q G.
Proof.
  intros HP HQ; unfold G2Marshal in HQ; cbv zeta in HQ; cbn [fst snd] in HQ.
  unfold hG2_Marshal; apply wpn_bind, wpn_nil_pool; eapply wp_tMakeAffine; [exact HP|side|].
  do 4 (apply wpn_bind; eapply wpn_read; [look|]); cbv zeta; eapply wpn_ret; [|exact HQ]; perm.
Qed.

(** ** GT *)
Lemma wpn_GT_ScalarMult G G' (Q : o12 -> cells -> Prop) e ve a va k :
  recv c12 gfP12_Zero e ve G G' -> opnd' c12 e ve G' a va ->
  (forall p, (match e with Some o => p = o | None => True end) -> Q p (c12 p (GTScalarMult va k) ++ G')) ->
  wpn (hGT_ScalarMult e a k) Q G.
Proof.
  intros HR Ha HQ; unfold hGT_ScalarMult, GTScalarMult in *; apply wpn_bind; eapply wpn_or_new_12; [exact HR|].
  intros p Hp; apply (opnd'_opnd _ _ _ _ _ _ p Hp) in Ha; specialize (HQ p Hp).
  apply wpn_bind, wpn_new_pool; eapply wp_12Exp; [pick|exact Ha|side|]; eapply wpn_ret; [|exact HQ]; perm.
Qed.
Lemma wpn_GT_Invert G G' (Q : o12 -> cells -> Prop) e ve a va :
  recv c12 gfP12_Zero e ve G G' -> opnd' c12 e ve G' a va ->
  (forall p, (match e with Some o => p = o | None => True end) -> Q p (c12 p (GTInvert va) ++ G')) ->
  wpn (hGT_Invert e a) Q G.
Proof.
  intros HR Ha HQ; unfold hGT_Invert, GTInvert in *; apply wpn_bind; eapply wpn_or_new_12; [exact HR|].
  intros p Hp; apply (opnd'_opnd _ _ _ _ _ _ p Hp) in Ha; specialize (HQ p Hp).
  apply wpn_bind, wpn_new_pool; eapply wp_12Invert; [pick|exact Ha|side|]; eapply wpn_ret; [|exact HQ]; perm.
Qed.
Lemma wpn_GT_Add G G' (Q : o12 -> cells -> Prop) e ve a va b vb :
  recv c12 gfP12_Zero e ve G G' -> opnd' c12 e ve G' a va -> opnd' c12 e ve G' b vb ->
  (forall p, (match e with Some o => p = o | None => True end) -> Q p (c12 p (GTAdd va vb) ++ G')) ->
  wpn (hGT_Add e a b) Q G.
Proof.
  intros HR Ha Hb HQ; unfold hGT_Add, GTAdd in *; apply wpn_bind; eapply wpn_or_new_12; [exact HR|].
  intros p Hp; apply (opnd'_opnd _ _ _ _ _ _ p Hp) in Ha, Hb; specialize (HQ p Hp).
  apply wpn_bind, wpn_new_pool; eapply wp_12Mul; [pick|exact Ha|exact Hb|side|]; eapply wpn_ret; [|exact HQ]; perm.
Qed.
Lemma wpn_GT_Neg G G' (Q : o12 -> cells -> Prop) e ve a va :
  recv c12 gfP12_Zero e ve G G' -> opnd' c12 e ve G' a va ->
  (forall p, (match e with Some o => p = o | None => True end) -> Q p (c12 p (GTNeg va) ++ G')) ->
  wpn (hGT_Neg e a) Q G.
Proof. exact (wpn_GT_Invert G G' Q e ve a va). Qed.
(** Exp works in place, on its argument *)
Lemma wpn_GT_Exp G G' (Q : o12 -> cells -> Prop) a va w k :
  Permutation G (c12 a va ++ G') -> Q a (c12 a (fst (GTExp w va k)) ++ G') -> wpn (hGT_Exp a k) Q G.
Proof.
  intros HP HQ; unfold hGT_Exp, GTExp in *; destruct (0 <=? k); cbn [fst] in HQ.
  - eapply (wpn_GT_ScalarMult G G'); [exact HP|left; split; reflexivity|]; intros p ->; exact HQ.
  - apply wpn_bind; eapply (wpn_GT_ScalarMult G G'); [exact HP|left; split; reflexivity|]; intros p ->.
    eapply (wpn_GT_Invert _ G'); [apply Permutation_refl|left; split; reflexivity|]; intros p ->; exact HQ.
Qed.

(** ** Pairings *)
Lemma wpn_Pair (Q : o12 -> cells -> Prop) G g1 v1 g2 v2 v :
  incl (ccp g1 v1) G -> incl (ctp g2 v2) G -> incl cglob G -> PairBN v1 v2 = Ok v ->
  (forall r, Q r (c12 r v ++ G)) -> wpn (h_Pair g1 g2) Q G.
Proof. intros H1 H2 Hg E HQ; apply wpn_new_pool; eapply wp_optimalAte; eassumption. Qed.
Lemma pan_Pair G g1 v1 g2 v2 s :
  incl (ccp g1 v1) G -> incl (ctp g2 v2) G -> PairBN v1 v2 = Panic -> pool s = None -> holds s G -> h_Pair g1 g2 s = None.
Proof.
  intros H1 H2 E Hp Hs; unfold h_Pair, with_new_pool.
  rewrite (pan_optimalAte G _ _ _ _ H2 H1 E); [reflexivity|apply holds_nil_pool; auto].
Qed.
Definition lists {O V} (C : O -> V -> cells) (a : list O) (va : list V) (G : cells) : Prop :=
  Forall2 (fun o v => incl (C o v) G) a va.
Lemma lists_next {O V} (C : O -> V -> cells) a va X G : lists C a va G -> lists C a va (X ++ G).
Proof. intros H; induction H as [|o v os vs Ho _ IH]; constructor; [apply incl_next, Ho|exact IH]. Qed.
Lemma wp_PairingCheck_loop a : forall (Q : unit -> cells -> Prop) G G' va b vb acc vacc v,
  Permutation G (c12 acc vacc ++ G') -> lists ccp a va G' -> lists ctp b vb G' -> incl cglob G' ->
  PairingCheck_loop va vb vacc = Ok v -> Q tt (c12 acc v ++ G') -> wp (h_PairingCheck_loop a b acc) Q G.
Proof.
  induction a as [|p a IH]; intros Q G G' va b vb acc vacc v HP Ha Hb Hg E HQ;
    inversion Ha as [|? vp ? va' Hp Ha']; subst; cbn [h_PairingCheck_loop PairingCheck_loop] in *.
  { apply Ok_inj in E; subst; start HP; hop; eexists; split; [|exact HQ]; perm. }
  start_drop HP; hop; hop.
  inversion Hb as [|q vq b' vb' Hq Hb']; subst; cbv beta iota in E |- *.
  - destruct (cp_IsInfinity vp); [|discriminate].
    eapply IH; [apply Permutation_refl|eassumption..|]; eexists _, []; rewrite app_nil_r; split; [|exact HQ]; perm.
  - hop; hop; destruct (cp_IsInfinity vp || tp_IsInfinity vq).
    + eapply IH; [apply Permutation_refl|eassumption..|]; eexists _, []; rewrite app_nil_r; split; [|exact HQ]; perm.
    + destruct (miller vq vp) as [m| |] eqn:Em; [|discriminate|discriminate].
      hop; eapply wp_miller; [side|side|side|exact Em|]; intros om; hop; hop.
      eapply IH; [apply Permutation_refl|apply lists_next; exact Ha'|apply lists_next; exact Hb'|look|exact E|].
      exists (c12 acc v ++ G'), (c12 om m); split; [|exact HQ]; rewrite <- app_assoc; apply Permutation_app_head, Permutation_app_comm.
Qed.
Lemma pan_PairingCheck_loop a : forall G G' va b vb acc vacc,
  Permutation G (c12 acc vacc ++ G') -> lists ccp a va G' -> lists ctp b vb G' -> incl cglob G' ->
  PairingCheck_loop va vb vacc = Panic -> pan (h_PairingCheck_loop a b acc) G.
Proof.
  induction a as [|p a IH]; intros G G' va b vb acc vacc HP Ha Hb Hg E;
    inversion Ha as [|? vp ? va' Hp Ha']; subst; cbn [h_PairingCheck_loop PairingCheck_loop] in *; [discriminate|].
  eapply pan_perm; [exact HP|]; apply pan_bind; hop.
  inversion Hb as [|q vq b' vb' Hq Hb']; subst; cbv beta iota in E |- *.
  - destruct (cp_IsInfinity vp); [|apply pan_panic].
    eapply IH; [apply Permutation_refl|eassumption..].
  - apply pan_bind; hop; destruct (cp_IsInfinity vp || tp_IsInfinity vq).
    + eapply IH; [apply Permutation_refl|eassumption..].
    + destruct (miller vq vp) as [m| |] eqn:Em; [|discriminate|].
      * apply pan_bind; eapply wp_miller; [side|side|side|exact Em|]; intros om; apply pan_bind; hop.
        eapply IH; [apply Permutation_refl|apply lists_next; exact Ha'|apply lists_next; exact Hb'|look|exact E].
      * apply pan_left; eapply pan_miller; [look|look|eapply miller_Panic; exact Em].
Qed.
Lemma wpn_PairingCheck (Q : bool -> cells -> Prop) G a va b vb v :
  lists ccp a va G -> lists ctp b vb G -> incl cglob G -> PairingCheck va vb = Ok v -> Q v G -> wpn (h_PairingCheck a b) Q G.
Proof.
  intros Ha Hb Hg E HQ; unfold PairingCheck in E.
  destruct (PairingCheck_loop va vb gfP12_One) as [w| |] eqn:El; [|discriminate|discriminate]; apply Ok_inj in E.
  apply wpn_new_pool, wp_tail_drop; hop; hop; hop; hop.
  hop; eapply wp_PairingCheck_loop; [pick|exact Ha|exact Hb|exact Hg|exact El|].
  hop; eapply wp_finalExponentiation; [side..|]; intros ret; hop; hop.
  subst v; eapply wp_12IsOne; [side..|]; eexists G, _; split; [|exact HQ]; apply Permutation_app_comm.
Qed.
Lemma pan_PairingCheck G a va b vb s :
  lists ccp a va G -> lists ctp b vb G -> incl cglob G -> PairingCheck va vb = Panic ->
  pool s = None -> holds s G -> h_PairingCheck a b s = None.
Proof.
  intros Ha Hb Hg E Hp Hs; unfold PairingCheck in E.
  destruct (PairingCheck_loop va vb gfP12_One) as [w| |] eqn:El; [discriminate|discriminate|].
  unfold h_PairingCheck, with_new_pool.
  match goal with |- match ?m ?s0 with _ => _ end = _ => assert (HH : pan m G) end.
  { apply pan_bind; hop; apply pan_bind; hop; apply pan_left; eapply pan_PairingCheck_loop; [pick|eassumption..]. }
  rewrite HH; [reflexivity|apply holds_nil_pool; auto].
Qed.
