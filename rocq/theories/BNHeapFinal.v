(** * The programs of BNHeap.v compute the functions of BN256.v: the end of
    optate.go *)
From Coq Require Import ZArith List Bool Arith Lia Permutation.
From Verif Require Import Base BB BN256 BNHeap HeapLogic BNHeapProofs BNHeapTower BNHeapCurve BNHeapPair.
Import ListNotations.
Open Scope Z_scope.

Ltac hopo := lazymatch goal with
  | |- wp (h12_Exp _ _ _) _ _ => eapply wp_12Exp; [side..|]
  | _ => hopt
  end; cbv beta.
Ltac hop ::= hopo.

(** ** optate.go *)
(** optate.go:321-399, finalExponentiation *)
Lemma wp_finalExponentiation (Q : o12 -> cells -> Prop) G i vi :
  incl (c12 i vi) G -> incl cglob G ->
  (forall t, Q t (c12 t (finalExponentiation vi) ++ G)) -> wp (h_finalExponentiation i) Q G.
Proof.
  intros Hi Hg HQ; unfold finalExponentiation in HQ; cbv zeta in HQ; apply wp_tail; unfold h_finalExponentiation.
  hop; apply wp_12new; intros t1 v1; rewrite (c12_open t1); do 4 hop.
  eapply (close12 _ _ t1); [perm|].
repeat hop.
(eexists; split; [|apply HQ]; perm).
Qed.
Lemma Ok_inj {A} (a b : A) : Ok a = Ok b -> a = b.
Proof. intros H; exact (f_equal (fun r => match r with Ok x => x | _ => a end) H). Qed.
Local Opaque miller_loop lineFunctionAdd lineFunctionDouble mulLine.
(** optate.go:205-316, miller *)
Lemma wp_miller (Q : o12 -> cells -> Prop) G q vq p vp v :
  incl (ctp q vq) G -> incl (ccp p vp) G -> incl cglob G -> miller vq vp = Ok v ->
  (forall r, Q r (c12 r v ++ G)) -> wp (h_miller q p) Q G.
Proof.
  intros Hq Hp Hg E HQ; unfold miller in E.
  destruct (cp_MakeAffine vp) as [vb|] eqn:Eb; [|discriminate]; apply Ok_inj in E.
  remember (tp_MakeAffine vq) as va eqn:Eva.
  unfold miller_affine in E; cbv zeta in E.
  destruct (miller_loop va (tp_Negative va) vb (gfP2_Square (tpy va)) true miller_digits (gfP12_One, va)) as [w1 r1] eqn:El.
  destruct (lineFunctionAdd r1 (miller_q1 va) vb (gfP2_Square (tpy (miller_q1 va)))) as [l1 r1'] eqn:E1.
  destruct (lineFunctionAdd r1' (miller_minusQ2 va) vb (gfP2_Square (tpy (miller_minusQ2 va)))) as [l2 r2'] eqn:E2.
  cbn [fst] in E; unfold miller_q1, miller_minusQ2 in E1, E2; cbn [tpy] in E1, E2.
  apply wp_tail_drop; unfold h_miller.
  hop; apply wp_12new; intros ret v0; hop; hop.
  hop; apply wp_tnew; intros aA v1; hop; hop; hop; eapply wp_tMakeAffine; [side..|]; cbv beta; rewrite <- Eva; clear Eva.
  hop; apply wp_cnew; intros bA v2; hop; hop; hop; eapply wp_cMakeAffine; [side|exact Eb|]; clear Eb.
  hop; apply wp_tnew; intros mA v3; hop; eapply wp_tNegative; [side..|].
  hop; apply wp_tnew; intros r v4; hop; hop; hop; apply wp_2new; intros r2 v5; hop; hop.
  hop; eapply wp_miller_loop; [perm|side|side|side|side|exact El|]; clear El; clear r; intros r.
  hop; apply wp_tnew; intros q1 v6; rewrite (ctp_open q1).
  do 12 hop; eapply (closet _ _ q1); [perm|].
  hop; apply wp_tnew; intros mQ v7; rewrite (ctp_open mQ).
  do 8 hop; eapply (closet _ _ mQ); [perm|].
  do 3 hop; eapply wp_lineAdd; [side|side|side|side|exact E1|]; intros a b c o; hop; clear E1.
  eapply wp_use_line; [perm|].
  do 3 hop; eapply wp_lineAdd; [side|side|side|side|exact E2|]; intros a' b' c' o'; hop; clear E2.
  eapply wp_use_line; [perm|]; rewrite E; clear E.
  repeat hop.
  eexists; eexists; split; [|apply HQ]; rewrite <- ?app_assoc; perm.
Qed.
