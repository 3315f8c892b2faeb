(** * The count of the pool *)
From Coq Require Import ZArith List Bool Arith Lia.
From Verif Require Import Base BB BN256 BNHeap SpecHeap.
Import ListNotations.
Open Scope Z_scope.

Definition cnt {A} (n : Z) (m : prog A) : Prop := counts m (fun d => d = n).
Lemma cnt_bind {A B} n1 n2 (m : prog A) (k : A -> prog B) : cnt n1 m -> (forall a, cnt n2 (k a)) -> cnt (n1 + n2) (mbind m k).
Proof.
  intros Hm Hk s r s' E; unfold mbind in E; destruct (m s) as [[a s1]|] eqn:E1; [|discriminate].
  specialize (Hm _ _ _ E1); specialize (Hk a _ _ _ E); destruct (pool s).
  - destruct Hm as [P1 C1]; destruct (pool s1); [|congruence]; destruct Hk; split; [assumption|lia].
  - destruct Hm as [P1 C1]; rewrite P1 in Hk; destruct Hk; split; [assumption|lia].
Qed.
Lemma cnt_eq {A} n n' (m : prog A) : cnt n m -> n = n' -> cnt n' m.
Proof. intros H <-; exact H. Qed.
Lemma cnt_ret {A} (a : A) : cnt 0 (mret a).
Proof. intros s r s' E; injection E as <- <-; destruct (pool s); split; congruence || lia. Qed.
Lemma cnt_rd l : cnt 0 (rd l).
Proof. intros s r s' E; injection E as <- <-; destruct (pool s); split; congruence || lia. Qed.
Lemma cnt_wr l v : cnt 0 (wr l v).
Proof. intros s r s' E; injection E as <- <-; cbn; destruct (pool s); split; congruence || lia. Qed.
Lemma cnt_Get : cnt 1 hGet.
Proof.
  intros s r s' E; unfold hGet in E; destruct (pool s) as [[|l b]|]; injection E as <- <-; cbn; split; try congruence; lia.
Qed.
Lemma cnt_Put l : cnt (-1) (hPut l).
Proof. intros s r s' E; unfold hPut in E; destruct (pool s) as [b|] eqn:Ep; injection E as <- <-; cbn; split; try congruence; lia. Qed.
Lemma cnt_panic {A} n : cnt n (@mpanic A).
Proof. intros s r s' E; discriminate. Qed.
Lemma cnt_if {A} n (b : bool) (m m' : prog A) : cnt n m -> cnt n m' -> cnt n (if b then m else m').
Proof. destruct b; auto. Qed.
Lemma cnt_mloop body n : (forall i, cnt 0 (body i)) -> cnt 0 (mloop body n).
Proof. intros H; induction n as [|n IH]; cbn [mloop]; [apply cnt_ret|]; eapply cnt_eq; [apply cnt_bind; [apply H|intros _; exact IH]|reflexivity]. Qed.
Create HintDb cnt discriminated.
#[global] Hint Constants Opaque : cnt.
#[global] Hint Resolve cnt_ret cnt_rd cnt_wr cnt_Get cnt_Put cnt_panic : cnt.
(** the sum of the counts of the statements *)
Ltac csum := first
  [ solve [eauto 1 with cnt nocore]
  | apply cnt_bind; [csum | intros ?; csum]
  | apply cnt_mloop; intros ?; eapply cnt_eq; [csum | reflexivity]
  | lazymatch goal with |- cnt _ (if _ then _ else _) => apply cnt_if; [csum | eapply cnt_eq; [csum | reflexivity]] end
  | cbv beta zeta; progress match goal with |- cnt _ (match ?x with _ => _ end) => destruct x end; csum ].
Ltac count m := intros; eapply cnt_eq; [cbv delta [m]; cbv beta; csum | reflexivity].

Lemma k_Set z x : cnt 0 (bSet z x). Proof. count bSet. Qed.
Lemma k_SetInt64 z x : cnt 0 (bSetInt64 z x). Proof. count bSetInt64. Qed.
Lemma k_Neg z x : cnt 0 (bNeg z x). Proof. count bNeg. Qed.
Lemma k_Add z x y : cnt 0 (bAdd z x y). Proof. count bAdd. Qed.
Lemma k_Sub z x y : cnt 0 (bSub z x y). Proof. count bSub. Qed.
Lemma k_Mul z x y : cnt 0 (bMul z x y). Proof. count bMul. Qed.
Lemma k_Lsh z x n : cnt 0 (bLsh z x n). Proof. count bLsh. Qed.
Lemma k_Mod z x : cnt 0 (bMod z x). Proof. count bMod. Qed.
Lemma k_ModInverse z x : cnt 0 (bModInverse z x).
Proof. unfold bModInverse; eapply cnt_eq; [apply cnt_bind; [apply cnt_rd|]; intros a; destruct (ModInverse a bn_P)|]; [|apply cnt_ret|reflexivity]. eapply cnt_eq; [csum|reflexivity]. Qed.
#[global] Hint Resolve k_Set k_SetInt64 k_Neg k_Add k_Sub k_Mul k_Lsh k_Mod k_ModInverse : cnt.
Lemma k_Minimal l : cnt 0 (h_Minimal l). Proof. count h_Minimal. Qed.
#[global] Hint Resolve k_Minimal : cnt.
Lemma k_h2_new : cnt 2 (h2_new). Proof. count h2_new. Qed.
#[global] Hint Resolve k_h2_new : cnt.
Lemma k_h2_Put e : cnt (-2) (h2_Put e). Proof. count h2_Put. Qed.
#[global] Hint Resolve k_h2_Put : cnt.
Lemma k_h2_Set e a : cnt 0 (h2_Set e a). Proof. count h2_Set. Qed.
#[global] Hint Resolve k_h2_Set : cnt.
Lemma k_h2_SetZero e : cnt 0 (h2_SetZero e). Proof. count h2_SetZero. Qed.
#[global] Hint Resolve k_h2_SetZero : cnt.
Lemma k_h2_SetOne e : cnt 0 (h2_SetOne e). Proof. count h2_SetOne. Qed.
#[global] Hint Resolve k_h2_SetOne : cnt.
Lemma k_h2_Minimal e : cnt 0 (h2_Minimal e). Proof. count h2_Minimal. Qed.
#[global] Hint Resolve k_h2_Minimal : cnt.
Lemma k_h2_IsZero e : cnt 0 (h2_IsZero e). Proof. count h2_IsZero. Qed.
#[global] Hint Resolve k_h2_IsZero : cnt.
Lemma k_h2_IsOne e : cnt 0 (h2_IsOne e). Proof. count h2_IsOne. Qed.
#[global] Hint Resolve k_h2_IsOne : cnt.
Lemma k_h2_Conjugate e a : cnt 0 (h2_Conjugate e a). Proof. count h2_Conjugate. Qed.
#[global] Hint Resolve k_h2_Conjugate : cnt.
Lemma k_h2_Negative e a : cnt 0 (h2_Negative e a). Proof. count h2_Negative. Qed.
#[global] Hint Resolve k_h2_Negative : cnt.
Lemma k_h2_Add e a b : cnt 0 (h2_Add e a b). Proof. count h2_Add. Qed.
#[global] Hint Resolve k_h2_Add : cnt.
Lemma k_h2_Sub e a b : cnt 0 (h2_Sub e a b). Proof. count h2_Sub. Qed.
#[global] Hint Resolve k_h2_Sub : cnt.
Lemma k_h2_Double e a : cnt 0 (h2_Double e a). Proof. count h2_Double. Qed.
#[global] Hint Resolve k_h2_Double : cnt.
Lemma k_h2_Mul e a b : cnt 0 (h2_Mul e a b). Proof. count h2_Mul. Qed.
#[global] Hint Resolve k_h2_Mul : cnt.
Lemma k_h2_MulScalar e a b : cnt 0 (h2_MulScalar e a b). Proof. count h2_MulScalar. Qed.
#[global] Hint Resolve k_h2_MulScalar : cnt.
Lemma k_h2_MulXi e a : cnt 0 (h2_MulXi e a). Proof. count h2_MulXi. Qed.
#[global] Hint Resolve k_h2_MulXi : cnt.
Lemma k_h2_Square e a : cnt 0 (h2_Square e a). Proof. count h2_Square. Qed.
#[global] Hint Resolve k_h2_Square : cnt.
Lemma k_h2_Invert e a : cnt 0 (h2_Invert e a). Proof. count h2_Invert. Qed.
#[global] Hint Resolve k_h2_Invert : cnt.
Lemma k_h2_Exp c a power : cnt 0 (h2_Exp c a power). Proof. count h2_Exp. Qed.
#[global] Hint Resolve k_h2_Exp : cnt.
Lemma k_h6_new : cnt 6 (h6_new). Proof. count h6_new. Qed.
#[global] Hint Resolve k_h6_new : cnt.
Lemma k_h6_Put e : cnt (-6) (h6_Put e). Proof. count h6_Put. Qed.
#[global] Hint Resolve k_h6_Put : cnt.
Lemma k_h6_Set e a : cnt 0 (h6_Set e a). Proof. count h6_Set. Qed.
#[global] Hint Resolve k_h6_Set : cnt.
Lemma k_h6_SetZero e : cnt 0 (h6_SetZero e). Proof. count h6_SetZero. Qed.
#[global] Hint Resolve k_h6_SetZero : cnt.
Lemma k_h6_SetOne e : cnt 0 (h6_SetOne e). Proof. count h6_SetOne. Qed.
#[global] Hint Resolve k_h6_SetOne : cnt.
Lemma k_h6_Minimal e : cnt 0 (h6_Minimal e). Proof. count h6_Minimal. Qed.
#[global] Hint Resolve k_h6_Minimal : cnt.
Lemma k_h6_IsZero e : cnt 0 (h6_IsZero e). Proof. count h6_IsZero. Qed.
#[global] Hint Resolve k_h6_IsZero : cnt.
Lemma k_h6_IsOne e : cnt 0 (h6_IsOne e). Proof. count h6_IsOne. Qed.
#[global] Hint Resolve k_h6_IsOne : cnt.
Lemma k_h6_Negative e a : cnt 0 (h6_Negative e a). Proof. count h6_Negative. Qed.
#[global] Hint Resolve k_h6_Negative : cnt.
Lemma k_h6_Frobenius e a : cnt 0 (h6_Frobenius e a). Proof. count h6_Frobenius. Qed.
#[global] Hint Resolve k_h6_Frobenius : cnt.
Lemma k_h6_FrobeniusP2 e a : cnt 0 (h6_FrobeniusP2 e a). Proof. count h6_FrobeniusP2. Qed.
#[global] Hint Resolve k_h6_FrobeniusP2 : cnt.
Lemma k_h6_Add e a b : cnt 0 (h6_Add e a b). Proof. count h6_Add. Qed.
#[global] Hint Resolve k_h6_Add : cnt.
Lemma k_h6_Sub e a b : cnt 0 (h6_Sub e a b). Proof. count h6_Sub. Qed.
#[global] Hint Resolve k_h6_Sub : cnt.
Lemma k_h6_Double e a : cnt 0 (h6_Double e a). Proof. count h6_Double. Qed.
#[global] Hint Resolve k_h6_Double : cnt.
Lemma k_h6_Mul e a b : cnt 0 (h6_Mul e a b). Proof. count h6_Mul. Qed.
#[global] Hint Resolve k_h6_Mul : cnt.
Lemma k_h6_MulScalar e a b : cnt 0 (h6_MulScalar e a b). Proof. count h6_MulScalar. Qed.
#[global] Hint Resolve k_h6_MulScalar : cnt.
Lemma k_h6_MulGFP e a b : cnt 0 (h6_MulGFP e a b). Proof. count h6_MulGFP. Qed.
#[global] Hint Resolve k_h6_MulGFP : cnt.
Lemma k_h6_MulTau e a : cnt 0 (h6_MulTau e a). Proof. count h6_MulTau. Qed.
#[global] Hint Resolve k_h6_MulTau : cnt.
Lemma k_h6_Square e a : cnt 0 (h6_Square e a). Proof. count h6_Square. Qed.
#[global] Hint Resolve k_h6_Square : cnt.
Lemma k_h6_Invert e a : cnt 0 (h6_Invert e a). Proof. count h6_Invert. Qed.
#[global] Hint Resolve k_h6_Invert : cnt.
Lemma k_h12_new : cnt 12 (h12_new). Proof. count h12_new. Qed.
#[global] Hint Resolve k_h12_new : cnt.
Lemma k_h12_Put e : cnt (-12) (h12_Put e). Proof. count h12_Put. Qed.
#[global] Hint Resolve k_h12_Put : cnt.
Lemma k_h12_Set e a : cnt 0 (h12_Set e a). Proof. count h12_Set. Qed.
#[global] Hint Resolve k_h12_Set : cnt.
Lemma k_h12_SetZero e : cnt 0 (h12_SetZero e). Proof. count h12_SetZero. Qed.
#[global] Hint Resolve k_h12_SetZero : cnt.
Lemma k_h12_SetOne e : cnt 0 (h12_SetOne e). Proof. count h12_SetOne. Qed.
#[global] Hint Resolve k_h12_SetOne : cnt.
Lemma k_h12_Minimal e : cnt 0 (h12_Minimal e). Proof. count h12_Minimal. Qed.
#[global] Hint Resolve k_h12_Minimal : cnt.
Lemma k_h12_IsZero e : cnt 0 (h12_IsZero e). Proof. count h12_IsZero. Qed.
#[global] Hint Resolve k_h12_IsZero : cnt.
Lemma k_h12_IsOne e : cnt 0 (h12_IsOne e). Proof. count h12_IsOne. Qed.
#[global] Hint Resolve k_h12_IsOne : cnt.
Lemma k_h12_Conjugate e a : cnt 0 (h12_Conjugate e a). Proof. count h12_Conjugate. Qed.
#[global] Hint Resolve k_h12_Conjugate : cnt.
Lemma k_h12_Negative e a : cnt 0 (h12_Negative e a). Proof. count h12_Negative. Qed.
#[global] Hint Resolve k_h12_Negative : cnt.
Lemma k_h12_Frobenius e a : cnt 0 (h12_Frobenius e a). Proof. count h12_Frobenius. Qed.
#[global] Hint Resolve k_h12_Frobenius : cnt.
Lemma k_h12_FrobeniusP2 e a : cnt 0 (h12_FrobeniusP2 e a). Proof. count h12_FrobeniusP2. Qed.
#[global] Hint Resolve k_h12_FrobeniusP2 : cnt.
Lemma k_h12_Add e a b : cnt 0 (h12_Add e a b). Proof. count h12_Add. Qed.
#[global] Hint Resolve k_h12_Add : cnt.
Lemma k_h12_Sub e a b : cnt 0 (h12_Sub e a b). Proof. count h12_Sub. Qed.
#[global] Hint Resolve k_h12_Sub : cnt.
Lemma k_h12_Mul e a b : cnt 0 (h12_Mul e a b). Proof. count h12_Mul. Qed.
#[global] Hint Resolve k_h12_Mul : cnt.
Lemma k_h12_MulScalar e a b : cnt 0 (h12_MulScalar e a b). Proof. count h12_MulScalar. Qed.
#[global] Hint Resolve k_h12_MulScalar : cnt.
Lemma k_h12_Square e a : cnt 0 (h12_Square e a). Proof. count h12_Square. Qed.
#[global] Hint Resolve k_h12_Square : cnt.
Lemma k_h12_Exp c a power : cnt 0 (h12_Exp c a power). Proof. count h12_Exp. Qed.
#[global] Hint Resolve k_h12_Exp : cnt.
Lemma k_h12_Invert e a : cnt 0 (h12_Invert e a). Proof. count h12_Invert. Qed.
#[global] Hint Resolve k_h12_Invert : cnt.
Lemma k_hc_new : cnt 4 (hc_new). Proof. count hc_new. Qed.
#[global] Hint Resolve k_hc_new : cnt.
Lemma k_hc_Put c : cnt (-4) (hc_Put c). Proof. count hc_Put. Qed.
#[global] Hint Resolve k_hc_Put : cnt.
Lemma k_hc_Set c a : cnt 0 (hc_Set c a). Proof. count hc_Set. Qed.
#[global] Hint Resolve k_hc_Set : cnt.
Lemma k_hc_SetInfinity c : cnt 0 (hc_SetInfinity c). Proof. count hc_SetInfinity. Qed.
#[global] Hint Resolve k_hc_SetInfinity : cnt.
Lemma k_hc_IsInfinity c : cnt 0 (hc_IsInfinity c). Proof. count hc_IsInfinity. Qed.
#[global] Hint Resolve k_hc_IsInfinity : cnt.
Lemma k_hc_Double c a : cnt 0 (hc_Double c a). Proof. count hc_Double. Qed.
#[global] Hint Resolve k_hc_Double : cnt.
Lemma k_hc_MakeAffine c : cnt 0 (hc_MakeAffine c). Proof. count hc_MakeAffine. Qed.
#[global] Hint Resolve k_hc_MakeAffine : cnt.
Lemma k_hc_Negative c a : cnt 0 (hc_Negative c a). Proof. count hc_Negative. Qed.
#[global] Hint Resolve k_hc_Negative : cnt.
Lemma k_ht_new : cnt 8 (ht_new). Proof. count ht_new. Qed.
#[global] Hint Resolve k_ht_new : cnt.
Lemma k_ht_Put c : cnt (-8) (ht_Put c). Proof. count ht_Put. Qed.
#[global] Hint Resolve k_ht_Put : cnt.
Lemma k_ht_Set c a : cnt 0 (ht_Set c a). Proof. count ht_Set. Qed.
#[global] Hint Resolve k_ht_Set : cnt.
Lemma k_ht_SetInfinity c : cnt 0 (ht_SetInfinity c). Proof. count ht_SetInfinity. Qed.
#[global] Hint Resolve k_ht_SetInfinity : cnt.
Lemma k_ht_IsInfinity c : cnt 0 (ht_IsInfinity c). Proof. count ht_IsInfinity. Qed.
#[global] Hint Resolve k_ht_IsInfinity : cnt.
Lemma k_ht_Double c a : cnt 0 (ht_Double c a). Proof. count ht_Double. Qed.
#[global] Hint Resolve k_ht_Double : cnt.
Lemma k_ht_MakeAffine c : cnt 0 (ht_MakeAffine c). Proof. count ht_MakeAffine. Qed.
#[global] Hint Resolve k_ht_MakeAffine : cnt.
Lemma k_ht_Negative c a : cnt 0 (ht_Negative c a). Proof. count ht_Negative. Qed.
#[global] Hint Resolve k_ht_Negative : cnt.
Lemma k_h_lineFunctionAdd r p q r2 : cnt 14 (h_lineFunctionAdd r p q r2). Proof. count h_lineFunctionAdd. Qed.
#[global] Hint Resolve k_h_lineFunctionAdd : cnt.
Lemma k_h_lineFunctionDouble r q : cnt 14 (h_lineFunctionDouble r q). Proof. count h_lineFunctionDouble. Qed.
#[global] Hint Resolve k_h_lineFunctionDouble : cnt.
Lemma k_h_mulLine ret a b c : cnt 0 (h_mulLine ret a b c). Proof. count h_mulLine. Qed.
#[global] Hint Resolve k_h_mulLine : cnt.
Lemma k_use_line ret l r : cnt (-14) (h_use_line ret l r).
Proof. destruct l as [[[a b] c] o]; count h_use_line. Qed.
#[global] Hint Resolve k_use_line : cnt.
Lemma k_miller_loop ret a m b r2 : forall digits first r, cnt 0 (h_miller_loop ret a m b r2 first digits r).
Proof.
  induction digits as [|d digits IH]; intros first r; cbn [h_miller_loop]; [apply cnt_ret|].
  eapply cnt_eq; [|instantiate (1 := 14 + (0 + (-14 + (0 + 0)))); reflexivity].
  apply cnt_bind; [auto with cnt|intros l]; apply cnt_bind; [destruct first; auto with cnt|intros _]; apply cnt_bind; [auto with cnt|intros r'].
  apply cnt_bind; [|intros r''; apply IH].
  destruct (d =? 1); [|destruct (d =? -1)]; [| |apply cnt_ret]; (eapply cnt_eq; [csum|reflexivity]).
Qed.
#[global] Hint Resolve k_miller_loop : cnt.
(** 12 for the result, 8 + 8 for q1 and minusQ2 *)
Lemma k_miller q p : cnt 28 (h_miller q p). Proof. count h_miller. Qed.
#[global] Hint Resolve k_miller : cnt.
Lemma k_finalExponentiation i : cnt 12 (h_finalExponentiation i). Proof. count h_finalExponentiation. Qed.
#[global] Hint Resolve k_finalExponentiation : cnt.
Lemma k_optimalAte a b : cnt 28 (h_optimalAte a b). Proof. count h_optimalAte. Qed.
(** Add returns early when it doubles, and keeps the integers it has taken *)
Lemma counts_bind {A B} n (P : Z -> Prop) (m : prog A) (k : A -> prog B) : cnt n m -> (forall a, counts (k a) (fun d => P (n + d))) -> counts (mbind m k) P.
Proof.
  intros Hm Hk s r s' E; unfold mbind in E; destruct (m s) as [[a s1]|] eqn:E1; [|discriminate].
  specialize (Hm _ _ _ E1); specialize (Hk a _ _ _ E); destruct (pool s).
  - destruct Hm as [P1 C1]; destruct (pool s1); [|congruence]; destruct Hk as [H1 H2]; split; [assumption|].
    replace (count s' - count s) with (n + (count s' - count s1)) by lia; exact H2.
  - destruct Hm as [P1 C1]; rewrite P1 in Hk; destruct Hk; split; [assumption|lia].
Qed.
Lemma counts_bind2 {A B} (P1 P2 P : Z -> Prop) (m : prog A) (k : A -> prog B) : counts m P1 -> (forall a, counts (k a) P2) ->
  (forall d1 d2, P1 d1 -> P2 d2 -> P (d1 + d2)) -> counts (mbind m k) P.
Proof.
  intros Hm Hk HP s r s' E; unfold mbind in E; destruct (m s) as [[a s1]|] eqn:E1; [|discriminate].
  specialize (Hm _ _ _ E1); specialize (Hk a _ _ _ E); destruct (pool s).
  - destruct Hm as [H0 C1]; destruct (pool s1); [|congruence]; destruct Hk as [H1 H2]; split; [assumption|].
    replace (count s' - count s) with ((count s1 - count s) + (count s' - count s1)) by lia; apply HP; assumption.
  - destruct Hm as [H0 C1]; rewrite H0 in Hk; destruct Hk; split; [assumption|congruence].
Qed.
Lemma counts_weak {A} (P Q : Z -> Prop) (m : prog A) : (forall d, P d -> Q d) -> counts m P -> counts m Q.
Proof. intros H Hm s r s' E; specialize (Hm s r s' E); destruct (pool s); destruct Hm; split; auto. Qed.
Lemma cnt_counts {A} n (P : Z -> Prop) (m : prog A) : cnt n m -> P n -> counts m P.
Proof. intros H HP; eapply counts_weak; [|exact H]; intros d ->; exact HP. Qed.
Ltac cstep := eapply counts_bind; [first [solve [eauto 1 with cnt nocore] | csum]|intros ?]; cbv beta zeta.
Ltac cend := eapply cnt_counts; [csum|cbv; auto].
Lemma k_cAdd c a b : counts (hc_Add c a b) (fun d => d = 0 \/ d = 10).
Proof.
  unfold hc_Add; cstep; match goal with |- counts (if ?b then _ else _) _ => destruct b end; [cend|].
  cstep; match goal with |- counts (if ?b then _ else _) _ => destruct b end; [cend|].
  repeat (lazymatch goal with |- counts (mbind _ _) _ => cstep end); match goal with |- counts (if ?b then _ else _) _ => destruct b end; cend.
Qed.
Lemma k_tAdd c a b : counts (ht_Add c a b) (fun d => d = 0 \/ d = 20).
Proof.
  unfold ht_Add; cstep; match goal with |- counts (if ?b then _ else _) _ => destruct b end; [cend|].
  cstep; match goal with |- counts (if ?b then _ else _) _ => destruct b end; [cend|].
  repeat (lazymatch goal with |- counts (mbind _ _) _ => cstep end); match goal with |- counts (if ?b then _ else _) _ => destruct b end; cend.
Qed.
Definition multiple (k : Z) (d : Z) : Prop := exists j, 0 <= j /\ d = k * j.
Lemma multiple_add k d1 d2 : multiple k d1 -> multiple k d2 -> multiple k (d1 + d2).
Proof. intros (i & Hi & ->) (j & Hj & ->); exists (i + j); split; [lia|ring]. Qed.
Lemma multiple_0 k : multiple k 0. Proof. exists 0; lia. Qed.
Lemma counts_mloop k body n : (forall i, counts (body i) (multiple k)) -> counts (mloop body n) (multiple k).
Proof.
  intros H; induction n as [|n IH]; cbn [mloop]; [eapply cnt_counts; [apply cnt_ret|apply multiple_0]|].
  eapply counts_bind2; [apply H|intros _; exact IH|apply multiple_add].
Qed.
Lemma k_cMul c a n : counts (hc_Mul c a n) (multiple 10).
Proof.
  unfold hc_Mul; do 3 cstep; eapply counts_bind2 with (P1 := multiple 10) (P2 := fun d => d = -8);
    [apply counts_mloop; intros i; cstep|intros _; apply (cnt_eq (0 + (-4 + -4))); [csum|reflexivity]|].
  - destruct (Bit n i); [|eapply cnt_counts; [csum|exists 0; split; [lia|reflexivity]]].
    eapply counts_weak; [|apply k_cAdd]; intros d [->| ->]; [exists 0|exists 1]; split; lia.
  - intros d1 d2 (j & Hj & ->) ->; exists j; split; [exact Hj|cbv beta; lia].
Qed.
Lemma k_tMul c a n : counts (ht_Mul c a n) (multiple 20).
Proof.
  unfold ht_Mul; do 3 cstep; eapply counts_bind2 with (P1 := multiple 20) (P2 := fun d => d = -16);
    [apply counts_mloop; intros i; cstep|intros _; apply (cnt_eq (0 + (-8 + -8))); [csum|reflexivity]|].
  - destruct (Bit n i); [|eapply cnt_counts; [csum|exists 0; split; [lia|reflexivity]]].
    eapply counts_weak; [|apply k_tAdd]; intros d [->| ->]; [exists 0|exists 1]; split; lia.
  - intros d1 d2 (j & Hj & ->) ->; exists j; split; [exact Hj|cbv beta; lia].
Qed.
