(** * The programs of BNHeap.v compute the functions of BN256.v: optate.go *)
From Coq Require Import ZArith List Bool Arith Lia Permutation.
From Verif Require Import Base BB BN256 BNHeap HeapLogic BNHeapProofs BNHeapTower BNHeapCurve.
Import ListNotations.
Open Scope Z_scope.

(** gather the cells of an object *)
Lemma close6 {A} (m : prog A) Q e x y z G R :
  Permutation G (c2 (p6x e) x ++ c2 (p6y e) y ++ c2 (p6z e) z ++ R) -> wp m Q (c6 e (GfP6 x y z) ++ R) -> wp m Q G.
Proof. intros HP H; eapply wp_perm; [exact HP|]; rewrite c6_open in H; exact H. Qed.
Lemma close12 {A} (m : prog A) Q e x y G R :
  Permutation G (c6 (p12x e) x ++ c6 (p12y e) y ++ R) -> wp m Q (c12 e (GfP12 x y) ++ R) -> wp m Q G.
Proof. intros HP H; eapply wp_perm; [exact HP|]; rewrite c12_open in H; exact H. Qed.
Lemma closet {A} (m : prog A) Q e x y z t G R :
  Permutation G (c2 (ptx e) x ++ c2 (pty e) y ++ c2 (ptz e) z ++ c2 (ptt e) t ++ R) ->
  wp m Q (ctp e (TwistPoint x y z t) ++ R) -> wp m Q G.
Proof. intros HP H; eapply wp_perm; [exact HP|]; rewrite ctp_open in H; exact H. Qed.

Lemma pair_inj {A B} (a a' : A) (b b' : B) : (a, b) = (a', b') -> a = a' /\ b = b'.
Proof. intros H; split; [exact (f_equal fst H)|exact (f_equal snd H)]. Qed.
(** optate.go:20-165, lineFunctionAdd, lineFunctionDouble: the operands may be
    any objects, the results are new *)
Notation line_post Q G l vo := (forall a b c o,
  Q (a, b, c, o) (c2 a (ln_a l) ++ c2 b (ln_b l) ++ c2 c (ln_c l) ++ ctp o vo ++ G)) (only parsing).
Ltac fin_line HQ := match goal with |- exists _, _ /\ _ (?a, ?b, ?c, ?o) _ =>
    eexists; split; [|exact (HQ a b c o)] end;
  rewrite ?ctp_open; cbn [ln_a ln_b ln_c tpx tpy tpz tpt]; perm.
Lemma wp_lineAdd (Q : o2 * o2 * o2 * otp -> cells -> Prop) G r vr p vp q vq r2 v2 :
  incl (ctp r vr) G -> incl (ctp p vp) G -> incl (ccp q vq) G -> incl (c2 r2 v2) G ->
  forall l o, lineFunctionAdd vr vp vq v2 = (l, o) ->
  line_post Q G l o -> wp (h_lineFunctionAdd r p q r2) Q G.
Proof.
  intros Hr Hp Hq H2 l o E HQ; unfold lineFunctionAdd in E; cbv zeta in E; apply pair_inj in E; destruct E as [<- <-].
  apply wp_tail; unfold h_lineFunctionAdd.
  repeat (lazymatch goal with |- wp ht_new _ _ => apply wp_tnew; intros ? ?; rewrite ctp_open; cbv beta | _ => hop end).
  fin_line HQ.
Qed.
Lemma wp_lineDouble (Q : o2 * o2 * o2 * otp -> cells -> Prop) G r vr q vq :
  incl (ctp r vr) G -> incl (ccp q vq) G ->
  forall l o, lineFunctionDouble vr vq = (l, o) ->
  line_post Q G l o -> wp (h_lineFunctionDouble r q) Q G.
Proof.
  intros Hr Hq l o E HQ; unfold lineFunctionDouble in E; cbv zeta in E; apply pair_inj in E; destruct E as [<- <-].
  apply wp_tail; unfold h_lineFunctionDouble.
  repeat (lazymatch goal with |- wp ht_new _ _ => apply wp_tnew; intros ? ?; rewrite ctp_open; cbv beta | _ => hop end).
  fin_line HQ.
Qed.
(** optate.go:167-195, mulLine *)
Lemma wp_mulLine (Q : unit -> cells -> Prop) G G' ret vret a b c l :
  Permutation G (c12 ret vret ++ G') -> incl (c2 a (ln_a l)) G' -> incl (c2 b (ln_b l)) G' -> incl (c2 c (ln_c l)) G' ->
  Q tt (c12 ret (mulLine vret l) ++ G') -> wp (h_mulLine ret a b c) Q G.
Proof.
  intros HP Ha Hb Hc HQ; unfold mulLine in HQ; cbv zeta in HQ; start HP; rewrite c12_open; unfold h_mulLine.
  hop; apply wp_6new; intros a2 v1; rewrite (c6_open a2); do 6 hop.
  eapply (close6 _ _ a2); [perm|]; do 11 hop; apply wp_6new; intros t2 v3; rewrite (c6_open t2); do 6 hop.
  eapply (close6 _ _ t2); [perm|]; repeat hop; fin12.
Qed.
(** optate.go:233-237: multiply by the line, release the coefficients and r *)
Lemma wp_use_line (Q : otp -> cells -> Prop) G G' ret vret a b c l o r vr :
  Permutation G (c12 ret vret ++ c2 a (ln_a l) ++ c2 b (ln_b l) ++ c2 c (ln_c l) ++ ctp r vr ++ G') ->
  Q o (c12 ret (mulLine vret l) ++ G') -> wp (h_use_line ret (a, b, c, o) r) Q G.
Proof.
  intros HP HQ; start HP; unfold h_use_line; hop; eapply wp_mulLine; [side..|]; repeat hop.
  eexists; split; [|exact HQ]; perm.
Qed.
(** optate.go:226-254, the loop *)
Lemma wp_miller_loop ret aA va mA vm bA vb r2 v2 digits : forall (first : bool) (Q : otp -> cells -> Prop) G G' vret r vr,
  Permutation G (c12 ret vret ++ ctp r vr ++ G') ->
  incl (ctp aA va) G' -> incl (ctp mA vm) G' -> incl (ccp bA vb) G' -> incl (c2 r2 v2) G' ->
  forall vret' vr', miller_loop va vm vb v2 first digits (vret, vr) = (vret', vr') ->
  (forall r', Q r' (c12 ret vret' ++ ctp r' vr' ++ G')) ->
  wp (h_miller_loop ret aA mA bA r2 first digits r) Q G.
Proof.
  induction digits as [|d digits IH]; intros first Q G G' vret r vr HP Ha Hm Hb H2 vret' vr' Em HQ; cbn [h_miller_loop miller_loop] in *.
  { injection Em as <- <-; start HP; hop; eexists; split; [|apply HQ]; perm. }
  destruct (lineFunctionDouble vr vb) as [l newR] eqn:El.
  start HP; hop; eapply wp_lineDouble; [side|side|exact El|]; intros a b c o.
  hop.
  assert (Hsq : forall (Q2 : unit -> cells -> Prop) G2 G3, Permutation G2 (c12 ret vret ++ G3) ->
     Q2 tt (c12 ret (if first then vret else gfP12_Square vret) ++ G3) -> wp (if first then mret tt else h12_Square ret ret) Q2 G2).
  { intros Q2 G2 G3 HP3 HQ2; start HP3; destruct first; hop; eexists; (split; [|exact HQ2]); perm. }
  eapply Hsq; [pick|]; clear Hsq; set (vret1 := if first then vret else gfP12_Square vret) in *; clearbody vret1.
  hop; eapply wp_use_line; [perm|]; cbv beta; hop.
  destruct (miller_add va vm vb v2 d (mulLine vret1 l, newR)) as [vret2 vr2] eqn:Ea.
  assert (Hadd : forall (Q2 : otp -> cells -> Prop) G2, Permutation G2 (c12 ret (mulLine vret1 l) ++ ctp o newR ++ G') ->
     (forall r', Q2 r' (c12 ret vret2 ++ ctp r' vr2 ++ G')) ->
     wp (if d =? 1 then l <- h_lineFunctionAdd o aA bA r2 ;; h_use_line ret l o
         else if d =? -1 then l <- h_lineFunctionAdd o mA bA r2 ;; h_use_line ret l o else mret o) Q2 G2).
  { intros Q2 G2 HP3 HQ2; start HP3; unfold miller_add in Ea; clear HQ IH Em.
    destruct (d =? 1); [|destruct (d =? -1)].
    - destruct (lineFunctionAdd newR va vb v2) as [l' newR'] eqn:El'; apply pair_inj in Ea; destruct Ea as [<- <-].
      hop; eapply wp_lineAdd; [side|side|side|side|exact El'|]; intros a' b' c' o'.
      eapply wp_use_line; [perm|]; eexists; split; [|apply HQ2]; perm.
    - destruct (lineFunctionAdd newR vm vb v2) as [l' newR'] eqn:El'; apply pair_inj in Ea; destruct Ea as [<- <-].
      hop; eapply wp_lineAdd; [side|side|side|side|exact El'|]; intros a' b' c' o'.
      eapply wp_use_line; [perm|]; eexists; split; [|apply HQ2]; perm.
    - apply pair_inj in Ea; destruct Ea as [<- <-]; hop; eexists; split; [|apply HQ2]; perm. }
  eapply Hadd; [perm|]; clear Hadd; intros r'.
  eapply IH; [pick|side..|exact Em|]; intros r2'; eexists; split; [|apply HQ]; perm.
Qed.
