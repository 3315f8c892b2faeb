(** * The programs of BNHeap.v compute the functions of BN256.v: curve.go, twist.go *)
From Coq Require Import ZArith List Bool Arith Lia Permutation.
From Verif Require Import Base BB BN256 BNHeap HeapLogic BNHeapProofs BNHeapTower.
Import ListNotations.
Open Scope Z_scope.

(** finish, leaving cells behind *)
Ltac fin_drop := eexists; eexists; split;
  [|match goal with HQ : _ tt _ |- _ => exact HQ end];
  rewrite ?ccp_open, ?ctp_open; cbn [cpx cpy cpz cpt tpx tpy tpz tpt]; rewrite <- ?app_assoc; perm.
Ltac begin_drop := intros;
  match goal with HP : Permutation _ _ |- _ => start_drop HP; clear HP end; cases.

(** ** curve.go *)
Ltac finc := eexists; split; [|match goal with HQ : _ tt _ |- _ => exact HQ end];
  rewrite ?ccp_open; cbn [cpx cpy cpz cpt]; perm.
Ltac goc m := begin; rewrite ccp_open; unfold m; repeat hop; finc.
Lemma wp_cPut : specPut ccp hc_Put.
Proof. goc hc_Put. Qed.
Lemma wp_cnew : specNew ccp hc_new.
Proof.
  intros Q G HQ; apply wp_tail; unfold hc_new; repeat hop.
  match goal with |- exists _, Permutation (c1 ?t ?vt ++ c1 ?z ?vz ++ c1 ?y ?vy ++ c1 ?x ?vx ++ _) _ /\ _ =>
    finish (HQ (Ocp x y z t) (CurvePoint vx vy vz vt)) end.
  rewrite ccp_open; cbn [cpx cpy cpz cpt pcx pcy pcz pct]; perm.
Qed.
Lemma wp_cSet : spec1 ccp hc_Set (fun a => a) none.
Proof. goc hc_Set. Qed.
Lemma wp_cSetInfinity : spec0 ccp hc_SetInfinity cp_SetInfinity none.
Proof. goc hc_SetInfinity. Qed.
Lemma wp_cNegative : spec1 ccp hc_Negative cp_Negative none.
Proof. goc hc_Negative. Qed.
Lemma wp_cIsInfinity (Q : bool -> cells -> Prop) G a va : incl (ccp a va) G -> Q (cp_IsInfinity va) G -> wp (hc_IsInfinity a) Q G.
Proof. intros Ha HQ; unfold hc_IsInfinity; repeat hop; exact HQ. Qed.
Lemma wp_cDouble (Q : unit -> cells -> Prop) G G' c vc a va :
  Permutation G (ccp c vc ++ G') -> incl (ccp a va) G' -> Q tt (ccp c (cp_Double vc va) ++ G') -> wp (hc_Double c a) Q G.
Proof. cbv beta iota zeta delta [cp_Double cp_Double_xy]; goc hc_Double. Qed.
Lemma wp_cDoubleSelf (Q : unit -> cells -> Prop) G G' c vc :
  Permutation G (ccp c vc ++ G') -> Q tt (ccp c (cp_DoubleSelf vc) ++ G') -> wp (hc_Double c c) Q G.
Proof. cbv beta iota zeta delta [cp_DoubleSelf cp_Double_xy]; goc hc_Double. Qed.

Ltac hopc := lazymatch goal with
  | |- wp hc_new _ _ => apply wp_cnew; intros ? ?
  | |- wp (hc_Put _) _ _ => eapply wp_cPut; [side|]
  | |- wp (hc_Set _ _) _ _ => eapply wp_cSet; [side..|]
  | |- wp (hc_SetInfinity _) _ _ => eapply wp_cSetInfinity; [side..|]
  | |- wp (hc_IsInfinity _) _ _ => eapply wp_cIsInfinity; [side..|]
  | |- wp (hc_Negative _ _) _ _ => eapply wp_cNegative; [side..|]
  | _ => hop12
  end; cbv beta.
Ltac hop ::= hopc.

(** curve.go:90-194, Add.  After the doubling of line 145 the temporaries are
    not returned to the pool. *)
Ltac split_if := match goal with
  | |- wp (if ?b then _ else _) _ _ => let E := fresh "E" in destruct b eqn:E; try rewrite E in *
  end.
Ltac fold_inf := repeat match goal with H : _ tt _ |- _ => progress cbv beta zeta in H end.
Lemma wp_cAdd (Q : unit -> cells -> Prop) G G' c vc a va b vb :
  Permutation G (ccp c vc ++ G') -> incl (ccp a va) G' -> opnd ccp c vc G' b vb ->
  Q tt (ccp c (cp_Add vc va vb) ++ G') -> wp (hc_Add c a b) Q G.
Proof.
  intros HP Ha Hb; unfold cp_Add, cp_Add_with; cbv zeta; intros HQ; start_drop HP; unfold hc_Add.
  hop; eapply wp_cIsInfinity; [side..|]; cbv beta.
  split_if. { cases; hop; fin_drop. }
  hop; eapply wp_cIsInfinity; [cases; side..|]; cbv beta.
  split_if. { cases; hop; fin_drop. }
  cases; rewrite ccp_open; repeat hop; cbv zeta; split_if.
  all: try (match goal with |- context [hc_Double] =>
    rewrite <- ccp_open; eapply wp_cDouble; [pick|side|]; fin_drop end).
  all: repeat hop; fin_drop.
Qed.
Lemma wp_cAddTo (Q : unit -> cells -> Prop) G G' c vc b vb :
  Permutation G (ccp c vc ++ G') -> opnd ccp c vc G' b vb ->
  Q tt (ccp c (cp_AddTo vc vb) ++ G') -> wp (hc_Add c c b) Q G.
Proof.
  intros HP Hb; unfold cp_AddTo, cp_Add_with; cbv zeta; intros HQ; start_drop HP; unfold hc_Add.
  hop; eapply wp_cIsInfinity; [side..|]; cbv beta.
  split_if. { cases; hop; fin_drop. }
  hop; eapply wp_cIsInfinity; [cases; side..|]; cbv beta.
  split_if. { cases; hop; fin_drop. }
  cases; rewrite ccp_open; repeat hop; cbv zeta; split_if.
  all: try (match goal with |- context [hc_Double] =>
    rewrite <- ccp_open; eapply wp_cDoubleSelf; [pick|]; fin_drop end).
  all: repeat hop; fin_drop.
Qed.
(** curve.go:241-259, Mul, from the contents [s], [t] of the two new points on *)
Definition cp_MulFrom (s t a : curvePoint) (scalar : Z) : curvePoint :=
  fst (bit_loop (fun (st : curvePoint * curvePoint) i =>
    let '(sum, t) := st in
    let t := cp_Double t sum in
    if Bit scalar i then (cp_Add sum t a, t) else (t, t))
  (Z.to_nat (BitLen scalar + 1)) (cp_SetInfinity s, t)).
Lemma wp_cMul_loop n (Q : unit -> cells -> Prop) G G' c vc a va sum vs t vt :
  Permutation G (ccp t vt ++ ccp sum (cp_SetInfinity vs) ++ ccp c vc ++ G') -> opnd ccp c vc G' a va ->
  Q tt (ccp c (cp_MulFrom vs vt va n) ++ G') ->
  wp (mloop (fun i => hc_Double t sum ;;; if Bit n i then hc_Add sum t a else hc_Set sum t)
        (Z.to_nat (BitLen n + 1)) ;;;
      hc_Set c sum ;;; hc_Put sum ;;; hc_Put t) Q G.
Proof.
  intros HP Ha HQ; start HP; hop.
  apply wp_mloop with (Inv := fun i G2 => exists s vt',
     cp_MulFrom vs vt va n = fst (bit_loop (fun (st : curvePoint * curvePoint) i =>
       let '(sum, t) := st in
       let t := cp_Double t sum in
       if Bit n i then (cp_Add sum t va, t) else (t, t)) i (s, vt'))
     /\ Permutation G2 (ccp t vt' ++ ccp sum s ++ ccp c vc ++ G')).
  - exists (cp_SetInfinity vs), vt; split; [reflexivity|perm].
  - intros i G2 Hi (s & vt' & E & HP2); start HP2.
    assert (Ha2 : incl (ccp a va) (ccp c vc ++ G')) by (destruct Ha as [[-> ->]|Ha]; look).
    hop; eapply wp_cDouble; [pick|look|]; cbv beta; rewrite E; cbn [bit_loop]; cbv zeta.
    destruct (Bit n (Z.of_nat i)).
    + eapply wp_cAdd; [pick|look|right; look|]; eexists; (split; [apply Permutation_refl|]); eexists; eexists;
      (split; [reflexivity|perm]).
    + hop; eexists; (split; [apply Permutation_refl|]); eexists; eexists; (split; [reflexivity|perm]).
  - cbn [bit_loop]; intros G2 (s & vt' & E & HP2); eapply wp_perm; [exact HP2|]; rewrite E in HQ; cbn [fst] in HQ.
    repeat hop; eexists; split; [|exact HQ]; perm.
Qed.
(** with any pool: the two points start with stale contents *)
Lemma wp_cMulStale n (Q : unit -> cells -> Prop) G G' c vc a va :
  Permutation G (ccp c vc ++ G') -> opnd ccp c vc G' a va ->
  (forall s t, Q tt (ccp c (cp_MulFrom s t va n) ++ G')) -> wp (hc_Mul c a n) Q G.
Proof.
  intros HP Ha HQ; eapply wp_perm; [exact HP|]; unfold hc_Mul.
  hop; apply wp_cnew; intros sum vs; hop; hop; hop; apply wp_cnew; intros t vt.
  eapply wp_cMul_loop; [perm|exact Ha|apply HQ].
Qed.
(** with a new pool, or none *)
Lemma wpe_cnew {B} (k : ocp -> prog B) Q G :
  (forall c, wpe (k c) Q (ccp c newCurvePoint ++ G)) -> wpe (mbind hc_new k) Q G.
Proof.
  intros HQ; unfold hc_new.
  repeat (first [apply wpe_assoc | apply wpe_ret_bind | apply wpe_GetC; intros ?]; cbv beta).
  eapply wpe_perm; [|apply HQ].
  rewrite ccp_open; cbn [cpx cpy cpz cpt pcx pcy pcz pct newCurvePoint]; perm.
Qed.
Lemma wpe_cMul n (Q : unit -> cells -> Prop) G G' c vc a va :
  Permutation G (ccp c vc ++ G') -> opnd ccp c vc G' a va ->
  Q tt (ccp c (cp_Mul va n) ++ G') -> wpe (hc_Mul c a n) Q G.
Proof.
  intros HP Ha HQ; eapply wpe_perm; [exact HP|]; unfold hc_Mul.
  apply wpe_cnew; intros sum; unfold hc_SetInfinity; rewrite ccp_open.
  eapply wpe_SetInt; [pick|]; cbv beta.
  apply wpe_cnew; intros t; apply wpe_wp.
  eapply wp_cMul_loop; [|exact Ha|exact HQ].
  rewrite (ccp_open sum); cbn [cpx cpy cpz cpt cp_SetInfinity newCurvePoint]; perm.
Qed.

(** curve.go:261-292, MakeAffine *)
Lemma wp_cMakeAffine (Q : unit -> cells -> Prop) G G' c vc v :
  Permutation G (ccp c vc ++ G') -> cp_MakeAffine vc = Some v -> Q tt (ccp c v ++ G') -> wp (hc_MakeAffine c) Q G.
Proof.
  intros HP E HQ; unfold cp_MakeAffine in E; cbv zeta in E; start HP; unfold hc_MakeAffine.
  hop; hop; split_if. { injection E as <-; hop; finc. }
  hop; eapply wp_cIsInfinity; [side..|]; cbv beta.
  split_if. { injection E as <-; rewrite ccp_open; repeat hop; finc. }
  hop; hop; hop; eapply wp_bModInverse; [side..|].
  destruct (ModInverse (cpz vc) bn_P) as [i|]; [|discriminate].
  injection E as <-; cbn [negb]; rewrite ccp_open; repeat hop; finc.
Qed.
Lemma pan_cMakeAffine G G' c vc :
  Permutation G (ccp c vc ++ G') -> cp_MakeAffine vc = None -> pan (hc_MakeAffine c) G.
Proof.
  intros HP E; unfold cp_MakeAffine in E; cbv zeta in E; eapply pan_perm; [exact HP|]; unfold hc_MakeAffine.
  apply pan_bind; hop; destruct (big_IsOneWord (cpz vc)); [discriminate|].
  apply pan_bind; eapply wp_cIsInfinity; [side..|]; cbv beta; destruct (cp_IsInfinity vc); [discriminate|].
  apply pan_bind; hop; apply pan_bind; eapply wp_bModInverse; [side..|].
  destruct (ModInverse (cpz vc) bn_P) as [i|]; [discriminate|]; cbn [negb]; apply pan_panic.
Qed.

(** ** twist.go *)
Ltac fint := eexists; split; [|match goal with HQ : _ tt _ |- _ => exact HQ end];
  rewrite ?ctp_open; cbn [tpx tpy tpz tpt]; perm.
Ltac got m := begin; rewrite ctp_open; unfold m; repeat hop; fint.
Lemma wp_tPut : specPut ctp ht_Put.
Proof. got ht_Put. Qed.
Lemma wp_tnew : specNew ctp ht_new.
Proof.
  intros Q G HQ; apply wp_tail; unfold ht_new; repeat hop.
  match goal with |- exists _, Permutation (c2 ?t ?vt ++ c2 ?z ?vz ++ c2 ?y ?vy ++ c2 ?x ?vx ++ _) _ /\ _ =>
    finish (HQ (Otp x y z t) (TwistPoint vx vy vz vt)) end.
  rewrite ctp_open; cbn [tpx tpy tpz tpt ptx pty ptz ptt]; perm.
Qed.
Lemma wp_tSet : spec1 ctp ht_Set (fun a => a) none.
Proof. got ht_Set. Qed.
Lemma wp_tSetInfinity : spec0 ctp ht_SetInfinity tp_SetInfinity none.
Proof. got ht_SetInfinity. Qed.
Lemma wp_tIsInfinity (Q : bool -> cells -> Prop) G a va : incl (ctp a va) G -> Q (tp_IsInfinity va) G -> wp (ht_IsInfinity a) Q G.
Proof. intros Ha HQ; unfold ht_IsInfinity; repeat hop; exact HQ. Qed.
Lemma wp_tNegative (Q : unit -> cells -> Prop) G G' c vc a va :
  Permutation G (ctp c vc ++ G') -> incl (ctp a va) G' -> Q tt (ctp c (tp_Negative va) ++ G') -> wp (ht_Negative c a) Q G.
Proof. unfold tp_Negative; got ht_Negative. Qed.
Lemma wp_tNegativeSelf (Q : unit -> cells -> Prop) G G' c vc :
  Permutation G (ctp c vc ++ G') -> Q tt (ctp c (tp_NegativeSelf vc) ++ G') -> wp (ht_Negative c c) Q G.
Proof. unfold tp_NegativeSelf; got ht_Negative. Qed.
Lemma wp_tDouble (Q : unit -> cells -> Prop) G G' c vc a va :
  Permutation G (ctp c vc ++ G') -> incl (ctp a va) G' -> Q tt (ctp c (tp_Double vc va) ++ G') -> wp (ht_Double c a) Q G.
Proof. cbv beta iota zeta delta [tp_Double tp_Double_xy]; got ht_Double. Qed.
Lemma wp_tDoubleSelf (Q : unit -> cells -> Prop) G G' c vc :
  Permutation G (ctp c vc ++ G') -> Q tt (ctp c (tp_DoubleSelf vc) ++ G') -> wp (ht_Double c c) Q G.
Proof. cbv beta iota zeta delta [tp_DoubleSelf tp_Double_xy]; got ht_Double. Qed.

Ltac hopt := lazymatch goal with
  | |- wp ht_new _ _ => apply wp_tnew; intros ? ?
  | |- wp (ht_Put _) _ _ => eapply wp_tPut; [side|]
  | |- wp (ht_Set _ _) _ _ => eapply wp_tSet; [side..|]
  | |- wp (ht_SetInfinity _) _ _ => eapply wp_tSetInfinity; [side..|]
  | |- wp (ht_IsInfinity _) _ _ => eapply wp_tIsInfinity; [side..|]
  | _ => hopc
  end; cbv beta.
Ltac hop ::= hopt.

Lemma wp_tAdd (Q : unit -> cells -> Prop) G G' c vc a va b vb :
  Permutation G (ctp c vc ++ G') -> incl (ctp a va) G' -> opnd ctp c vc G' b vb ->
  Q tt (ctp c (tp_Add vc va vb) ++ G') -> wp (ht_Add c a b) Q G.
Proof.
  intros HP Ha Hb; unfold tp_Add, tp_Add_with; cbv zeta; intros HQ; start_drop HP; unfold ht_Add.
  hop; eapply wp_tIsInfinity; [side..|]; cbv beta.
  split_if. { cases; hop; fin_drop. }
  hop; eapply wp_tIsInfinity; [cases; side..|]; cbv beta.
  split_if. { cases; hop; fin_drop. }
  cases; rewrite ctp_open; repeat hop; cbv zeta; split_if.
  all: try (match goal with |- context [ht_Double] =>
    rewrite <- ctp_open; eapply wp_tDouble; [pick|side|]; fin_drop end).
  all: repeat hop; fin_drop.
Qed.
Lemma wp_tAddTo (Q : unit -> cells -> Prop) G G' c vc b vb :
  Permutation G (ctp c vc ++ G') -> opnd ctp c vc G' b vb ->
  Q tt (ctp c (tp_AddTo vc vb) ++ G') -> wp (ht_Add c c b) Q G.
Proof.
  intros HP Hb; unfold tp_AddTo, tp_Add_with; cbv zeta; intros HQ; start_drop HP; unfold ht_Add.
  hop; eapply wp_tIsInfinity; [side..|]; cbv beta.
  split_if. { cases; hop; fin_drop. }
  hop; eapply wp_tIsInfinity; [cases; side..|]; cbv beta.
  split_if. { cases; hop; fin_drop. }
  cases; rewrite ctp_open; repeat hop; cbv zeta; split_if.
  all: try (match goal with |- context [ht_Double] =>
    rewrite <- ctp_open; eapply wp_tDoubleSelf; [pick|]; fin_drop end).
  all: repeat hop; fin_drop.
Qed.
(** twist.go:217-235, Mul *)
Definition tp_MulFrom (s t a : twistPoint) (scalar : Z) : twistPoint :=
  fst (bit_loop (fun (st : twistPoint * twistPoint) i =>
    let '(sum, t) := st in
    let t := tp_Double t sum in
    if Bit scalar i then (tp_Add sum t a, t) else (t, t))
  (Z.to_nat (BitLen scalar + 1)) (tp_SetInfinity s, t)).
Lemma wp_tMul_loop n (Q : unit -> cells -> Prop) G G' c vc a va sum vs t vt :
  Permutation G (ctp t vt ++ ctp sum (tp_SetInfinity vs) ++ ctp c vc ++ G') -> opnd ctp c vc G' a va ->
  Q tt (ctp c (tp_MulFrom vs vt va n) ++ G') ->
  wp (mloop (fun i => ht_Double t sum ;;; if Bit n i then ht_Add sum t a else ht_Set sum t)
        (Z.to_nat (BitLen n + 1)) ;;;
      ht_Set c sum ;;; ht_Put sum ;;; ht_Put t) Q G.
Proof.
  intros HP Ha HQ; start HP; hop.
  apply wp_mloop with (Inv := fun i G2 => exists s vt',
     tp_MulFrom vs vt va n = fst (bit_loop (fun (st : twistPoint * twistPoint) i =>
       let '(sum, t) := st in
       let t := tp_Double t sum in
       if Bit n i then (tp_Add sum t va, t) else (t, t)) i (s, vt'))
     /\ Permutation G2 (ctp t vt' ++ ctp sum s ++ ctp c vc ++ G')).
  - exists (tp_SetInfinity vs), vt; split; [reflexivity|perm].
  - intros i G2 Hi (s & vt' & E & HP2); start HP2.
    assert (Ha2 : incl (ctp a va) (ctp c vc ++ G')) by (destruct Ha as [[-> ->]|Ha]; look).
    hop; eapply wp_tDouble; [pick|look|]; cbv beta; rewrite E; cbn [bit_loop]; cbv zeta.
    destruct (Bit n (Z.of_nat i)).
    + eapply wp_tAdd; [pick|look|right; look|]; eexists; (split; [apply Permutation_refl|]); eexists; eexists;
      (split; [reflexivity|perm]).
    + hop; eexists; (split; [apply Permutation_refl|]); eexists; eexists; (split; [reflexivity|perm]).
  - cbn [bit_loop]; intros G2 (s & vt' & E & HP2); eapply wp_perm; [exact HP2|]; rewrite E in HQ; cbn [fst] in HQ.
    repeat hop; eexists; split; [|exact HQ]; perm.
Qed.
Lemma wp_tMulStale n (Q : unit -> cells -> Prop) G G' c vc a va :
  Permutation G (ctp c vc ++ G') -> opnd ctp c vc G' a va ->
  (forall s t, Q tt (ctp c (tp_MulFrom s t va n) ++ G')) -> wp (ht_Mul c a n) Q G.
Proof.
  intros HP Ha HQ; eapply wp_perm; [exact HP|]; unfold ht_Mul.
  hop; apply wp_tnew; intros sum vs; hop; hop; hop; apply wp_tnew; intros t vt.
  eapply wp_tMul_loop; [perm|exact Ha|apply HQ].
Qed.
Lemma wpe_tnew {B} (k : otp -> prog B) Q G :
  (forall c, wpe (k c) Q (ctp c newTwistPoint ++ G)) -> wpe (mbind ht_new k) Q G.
Proof.
  intros HQ; unfold ht_new, h2_new.
  repeat (first [apply wpe_assoc | apply wpe_ret_bind | apply wpe_GetC; intros ?]; cbv beta).
  eapply wpe_perm; [|apply HQ].
  rewrite ctp_open; cbn [tpx tpy tpz tpt ptx pty ptz ptt newTwistPoint gfP2_Zero]; opened; cbn [p2x p2y]; perm.
Qed.
Lemma wpe_tMul n (Q : unit -> cells -> Prop) G G' c vc a va :
  Permutation G (ctp c vc ++ G') -> opnd ctp c vc G' a va ->
  Q tt (ctp c (tp_Mul va n) ++ G') -> wpe (ht_Mul c a n) Q G.
Proof.
  intros HP Ha HQ; eapply wpe_perm; [exact HP|]; unfold ht_Mul.
  apply wpe_tnew; intros sum; unfold ht_SetInfinity, h2_SetZero; rewrite ctp_open, !(c2_open (ptz sum)).
  apply wpe_assoc; eapply wpe_SetInt; [pick|]; cbv beta; eapply wpe_SetInt; [pick|]; cbv beta.
  apply wpe_tnew; intros t; apply wpe_wp.
  eapply wp_tMul_loop; [|exact Ha|exact HQ].
  rewrite (ctp_open sum); cbn [tpx tpy tpz tpt tp_SetInfinity newTwistPoint gfP2_Zero].
  rewrite (c2_open (ptz sum)); perm.
Qed.
(** twist.go:237-256, MakeAffine *)
Lemma wp_tMakeAffine : spec0 ctp ht_MakeAffine tp_MakeAffine none.
Proof.
  intros Q G G' c vc HP _ HQ; unfold tp_MakeAffine in HQ; cbv zeta in HQ; start HP; unfold ht_MakeAffine.
  hop; hop; split_if; [hop; fint|].
  rewrite ctp_open; repeat hop; fint.
Qed.
