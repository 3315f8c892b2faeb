(** * The programs of BNHeap.v compute the functions of BN256.v: gfp6.go, gfp12.go *)
From Coq Require Import ZArith List Bool Arith Lia Permutation.
From Verif Require Import Base BB BN256 BNHeap HeapLogic BNHeapProofs BNStale.
Import ListNotations.
Open Scope Z_scope.

Lemma wp_2Invert : spec1 c2 h2_Invert gfP2_Invert none.
Proof.
  intros; eapply wp_2InvertStale; try eassumption.
  intros s; rewrite gfP2_InvertStaleE; assumption.
Qed.
Lemma wp_Minimal (Q : unit -> cells -> Prop) G G' l v :
  Permutation G (c1 l v ++ G') -> Q tt (c1 l (big_Minimal v) ++ G') -> wp (h_Minimal l) Q G.
Proof.
  intros HP HQ; start HP; unfold h_Minimal, big_Minimal in *; repeat hop.
  destruct ((v <? 0) || (bn_P <=? v)); repeat hop; fin.
Qed.
Lemma wp_2Minimal : spec0 c2 h2_Minimal gfP2_Minimal none.
Proof.
  begin; rewrite c2_open; unfold h2_Minimal.
  repeat (hop || (eapply wp_Minimal; [side|]; cbv beta)); fin.
Qed.
Lemma wp_2IsZero (Q : bool -> cells -> Prop) G a va : incl (c2 a va) G -> Q (gfP2_IsZero va) G -> wp (h2_IsZero a) Q G.
Proof. intros Ha HQ; unfold h2_IsZero; repeat hop; exact HQ. Qed.
Lemma wp_2IsOne (Q : bool -> cells -> Prop) G a va : incl (c2 a va) G -> Q (gfP2_IsOne va) G -> wp (h2_IsOne a) Q G.
Proof.
  intros Ha HQ; unfold h2_IsOne, gfP2_IsOne in *; repeat hop.
  destruct (c2x va =? 0); cbn [negb] in *; repeat hop; exact HQ.
Qed.

Ltac hop2 := lazymatch goal with
  | |- wp h2_new _ _ => apply wp_2new; intros ? ?
  | |- wp (h2_Put _) _ _ => eapply wp_2Put; [side|]
  | |- wp (h2_Set _ _) _ _ => eapply wp_2Set; [side..|]
  | |- wp (h2_SetZero _) _ _ => eapply wp_2SetZero; [side..|]
  | |- wp (h2_SetOne _) _ _ => eapply wp_2SetOne; [side..|]
  | |- wp (h2_Minimal _) _ _ => eapply wp_2Minimal; [side..|]
  | |- wp (h2_IsZero _) _ _ => eapply wp_2IsZero; [side..|]
  | |- wp (h2_IsOne _) _ _ => eapply wp_2IsOne; [side..|]
  | |- wp (h2_Conjugate _ _) _ _ => eapply wp_2Conjugate; [side..|]
  | |- wp (h2_Negative _ _) _ _ => eapply wp_2Negative; [side..|]
  | |- wp (h2_Double _ _) _ _ => eapply wp_2Double; [side..|]
  | |- wp (h2_Add _ _ _) _ _ => eapply wp_2Add; [side..|]
  | |- wp (h2_Sub _ _ _) _ _ => eapply wp_2Sub; [side..|]
  | |- wp (h2_Mul _ _ _) _ _ => eapply wp_2Mul; [side..|]
  | |- wp (h2_MulScalar _ _ _) _ _ => eapply wp_2MulScalar; [side..|]
  | |- wp (h2_MulXi _ _) _ _ => eapply wp_2MulXi; [side..|]
  | |- wp (h2_Square _ _) _ _ => eapply wp_2Square; [side..|]
  | |- wp (h2_Invert _ _) _ _ => eapply wp_2Invert; [side..|]
  | _ => hop0
  end; cbv beta.
Ltac hop ::= hop2.

(** gfp2.go:118-138, Exp *)
Lemma wp_2Exp n : spec1 c2 (fun e a => h2_Exp e a n) (fun a => gfP2_Exp a n) none.
Proof.
  intros Q G G' e ve a va HP Ha _ HQ; start HP; unfold h2_Exp.
  hop; apply wp_2new; intros sum vs; hop; hop; hop; apply wp_2new; intros t vt0; hop.
  apply wp_mloop with (Inv := fun i G2 => exists s vt,
     gfP2_Exp va n = bit_loop (fun sum i => let t := gfP2_Square sum in if Bit n i then gfP2_Mul t va else t) i s
     /\ Permutation G2 (c2 t vt ++ c2 sum s ++ c2 e ve ++ G')).
  - exists gfP2_One; eexists; split; [reflexivity|perm].
  - intros i G2 Hi (s & vt & E & HP2); start HP2.
    assert (Ha2 : incl (c2 a va) (c2 e ve ++ G')) by (destruct Ha as [[-> ->]|Ha]; look).
    hop; hop; rewrite E; cbn [bit_loop]; cbv zeta.
    destruct (Bit n (Z.of_nat i)); hop; eexists; (split; [apply Permutation_refl|]); eexists; eexists;
      (split; [reflexivity|perm]).
  - cbn [bit_loop]; intros G2 (s & vt & E & HP2); eapply wp_perm; [exact HP2|]; cbv beta in HQ; rewrite E in HQ; repeat hop; eexists; split; [|exact HQ]; perm.
Qed.

(** ** gfp6.go *)
Ltac fin6 := eexists; split; [|match goal with HQ : _ tt _ |- _ => exact HQ end];
  rewrite ?c6_open; cbn [c6x c6y c6z]; perm.
(** [f] is unfolded first, so that contents are compared as they stand *)
Ltac unfQ f := unfold f in *; cbv zeta beta in *; cbn [c6x c6y c6z c12x c12y] in *.
Ltac go6 m f := begin; unfQ f; rewrite c6_open; unfold m; repeat hop; fin6.
Lemma wp_6Put : specPut c6 h6_Put.
Proof. go6 h6_Put (@id). Qed.
Lemma wp_6new : specNew c6 h6_new.
Proof.
  intros Q G HQ; apply wp_tail; unfold h6_new; repeat hop.
  match goal with |- exists _, Permutation (c2 ?z ?vz ++ c2 ?y ?vy ++ c2 ?x ?vx ++ _) _ /\ _ =>
    finish (HQ (O6 x y z) (GfP6 vx vy vz)) end.
  opened; cbn [p6x p6y p6z]; rewrite ?c2_open; perm.
Qed.
Lemma wp_6Set : spec1 c6 h6_Set (fun a => a) none.
Proof. go6 h6_Set (@id). Qed.
Lemma wp_6SetZero : spec0 c6 h6_SetZero (fun _ => gfP6_Zero) none.
Proof. go6 h6_SetZero gfP6_Zero. Qed.
Lemma wp_6SetOne : spec0 c6 h6_SetOne (fun _ => gfP6_One) none.
Proof. go6 h6_SetOne gfP6_One. Qed.
Lemma wp_6Minimal : spec0 c6 h6_Minimal gfP6_Minimal none.
Proof. go6 h6_Minimal gfP6_Minimal. Qed.
Lemma wp_6Negative : spec1 c6 h6_Negative gfP6_Negative none.
Proof. go6 h6_Negative gfP6_Negative. Qed.
Lemma wp_6Frobenius : spec1 c6 h6_Frobenius gfP6_Frobenius cglob.
Proof. go6 h6_Frobenius gfP6_Frobenius. Qed.
Lemma wp_6FrobeniusP2 : spec1 c6 h6_FrobeniusP2 gfP6_FrobeniusP2 cglob.
Proof. go6 h6_FrobeniusP2 gfP6_FrobeniusP2. Qed.
Lemma wp_6Add : spec2 c6 h6_Add gfP6_Add none.
Proof. go6 h6_Add gfP6_Add. Qed.
Lemma wp_6Sub : spec2 c6 h6_Sub gfP6_Sub none.
Proof. go6 h6_Sub gfP6_Sub. Qed.
Lemma wp_6Double : spec1 c6 h6_Double gfP6_Double none.
Proof. go6 h6_Double gfP6_Double. Qed.
Lemma wp_6MulTau : spec1 c6 h6_MulTau gfP6_MulTau none.
Proof. go6 h6_MulTau gfP6_MulTau. Qed.
Lemma wp_6Mul : spec2 c6 h6_Mul gfP6_Mul none.
Proof. go6 h6_Mul gfP6_Mul. Qed.
Lemma wp_6MulScalar b vb : spec1 c6 (fun e a => h6_MulScalar e a b) (fun a => gfP6_MulScalar a vb) (c2 b vb).
Proof. go6 h6_MulScalar gfP6_MulScalar. Qed.
Lemma wp_6MulGFP b vb : spec1 c6 (fun e a => h6_MulGFP e a b) (fun a => gfP6_MulGFP a vb) (c1 b vb).
Proof. go6 h6_MulGFP gfP6_MulGFP. Qed.
Lemma wp_6Square : spec1 c6 h6_Square gfP6_Square none.
Proof. go6 h6_Square gfP6_Square. Qed.
Lemma wp_6Invert : spec1 c6 h6_Invert gfP6_Invert none.
Proof. go6 h6_Invert gfP6_Invert. Qed.
Lemma wp_6IsZero (Q : bool -> cells -> Prop) G a va : incl (c6 a va) G -> Q (gfP6_IsZero va) G -> wp (h6_IsZero a) Q G.
Proof. intros Ha HQ; unfold h6_IsZero; repeat hop; exact HQ. Qed.
Lemma wp_6IsOne (Q : bool -> cells -> Prop) G a va : incl (c6 a va) G -> Q (gfP6_IsOne va) G -> wp (h6_IsOne a) Q G.
Proof. intros Ha HQ; unfold h6_IsOne; repeat hop; exact HQ. Qed.

Ltac hop6 := lazymatch goal with
  | |- wp h6_new _ _ => apply wp_6new; intros ? ?
  | |- wp (h6_Put _) _ _ => eapply wp_6Put; [side|]
  | |- wp (h6_Set _ _) _ _ => eapply wp_6Set; [side..|]
  | |- wp (h6_SetZero _) _ _ => eapply wp_6SetZero; [side..|]
  | |- wp (h6_SetOne _) _ _ => eapply wp_6SetOne; [side..|]
  | |- wp (h6_Minimal _) _ _ => eapply wp_6Minimal; [side..|]
  | |- wp (h6_IsZero _) _ _ => eapply wp_6IsZero; [side..|]
  | |- wp (h6_IsOne _) _ _ => eapply wp_6IsOne; [side..|]
  | |- wp (h6_Negative _ _) _ _ => eapply wp_6Negative; [side..|]
  | |- wp (h6_Frobenius _ _) _ _ => eapply wp_6Frobenius; [side..|]
  | |- wp (h6_FrobeniusP2 _ _) _ _ => eapply wp_6FrobeniusP2; [side..|]
  | |- wp (h6_Double _ _) _ _ => eapply wp_6Double; [side..|]
  | |- wp (h6_Add _ _ _) _ _ => eapply wp_6Add; [side..|]
  | |- wp (h6_Sub _ _ _) _ _ => eapply wp_6Sub; [side..|]
  | |- wp (h6_Mul _ _ _) _ _ => eapply wp_6Mul; [side..|]
  | |- wp (h6_MulScalar _ _ _) _ _ => eapply wp_6MulScalar; [side..|]
  | |- wp (h6_MulGFP _ _ _) _ _ => eapply wp_6MulGFP; [side..|]
  | |- wp (h6_MulTau _ _) _ _ => eapply wp_6MulTau; [side..|]
  | |- wp (h6_Square _ _) _ _ => eapply wp_6Square; [side..|]
  | |- wp (h6_Invert _ _) _ _ => eapply wp_6Invert; [side..|]
  | _ => hop2
  end; cbv beta.
Ltac hop ::= hop6.

(** ** gfp12.go *)
Ltac open12 := rewrite ?c12_open; cbn [c12x c12y].
Ltac fin12 := eexists; split; [|match goal with HQ : _ tt _ |- _ => exact HQ end]; open12; perm.
Ltac go12 m f := begin; unfQ f; rewrite c12_open; unfold m; repeat hop; fin12.
Lemma wp_12Put : specPut c12 h12_Put.
Proof. go12 h12_Put (@id). Qed.
Lemma wp_12new : specNew c12 h12_new.
Proof.
  intros Q G HQ; apply wp_tail; unfold h12_new; repeat hop.
  match goal with |- exists _, Permutation (c6 ?y ?vy ++ c6 ?x ?vx ++ _) _ /\ _ =>
    finish (HQ (O12 x y) (GfP12 vx vy)) end.
  open12; cbn [p12x p12y]; perm.
Qed.
Lemma wp_12Set : spec1 c12 h12_Set (fun a => a) none.
Proof. go12 h12_Set (@id). Qed.
Lemma wp_12SetZero : spec0 c12 h12_SetZero (fun _ => gfP12_Zero) none.
Proof. go12 h12_SetZero gfP12_Zero. Qed.
Lemma wp_12SetOne : spec0 c12 h12_SetOne (fun _ => gfP12_One) none.
Proof. go12 h12_SetOne gfP12_One. Qed.
Lemma wp_12Minimal : spec0 c12 h12_Minimal gfP12_Minimal none.
Proof. go12 h12_Minimal gfP12_Minimal. Qed.
Lemma wp_12Negative : spec1 c12 h12_Negative gfP12_Negative none.
Proof. go12 h12_Negative gfP12_Negative. Qed.
Lemma wp_12Frobenius : spec1 c12 h12_Frobenius gfP12_Frobenius cglob.
Proof. go12 h12_Frobenius gfP12_Frobenius. Qed.
Lemma wp_12FrobeniusP2 : spec1 c12 h12_FrobeniusP2 gfP12_FrobeniusP2 cglob.
Proof. go12 h12_FrobeniusP2 gfP12_FrobeniusP2. Qed.
Lemma wp_12Add : spec2 c12 h12_Add gfP12_Add none.
Proof. go12 h12_Add gfP12_Add. Qed.
Lemma wp_12Sub : spec2 c12 h12_Sub gfP12_Sub none.
Proof. go12 h12_Sub gfP12_Sub. Qed.
Lemma wp_12Mul : spec2 c12 h12_Mul gfP12_Mul none.
Proof. go12 h12_Mul gfP12_Mul. Qed.
Lemma wp_12MulScalar a va b vb : spec0 c12 (fun e => h12_MulScalar e a b) (fun e => gfP12_MulScalar e va vb) (c6 b vb).
Proof. go12 h12_MulScalar gfP12_MulScalar. Qed.
Lemma wp_12Square : spec1 c12 h12_Square gfP12_Square none.
Proof. go12 h12_Square gfP12_Square. Qed.
(** Conjugate returns its argument *)
Lemma wp_12Conjugate (Q : o12 -> cells -> Prop) G G' e ve a va :
  Permutation G (c12 e ve ++ G') -> opnd c12 e ve G' a va -> Q a (c12 e (gfP12_Conjugate va) ++ G') -> wp (h12_Conjugate e a) Q G.
Proof. begin; unfQ gfP12_Conjugate; rewrite c12_open; unfold h12_Conjugate; repeat hop; eexists; (split; [|eassumption]); open12; perm. Qed.
Lemma wp_12Invert : spec1 c12 h12_Invert gfP12_Invert none.
Proof.
  begin; unfQ gfP12_Invert; unfQ gfP12_MulScalar; rewrite c12_open; unfold h12_Invert, h12_MulScalar; repeat hop; fin12.
Qed.
Lemma wp_12IsZero (Q : bool -> cells -> Prop) G G' e ve : Permutation G (c12 e ve ++ G') ->
  Q (gfP12_IsZero ve) (c12 e (gfP12_Minimal ve) ++ G') -> wp (h12_IsZero e) Q G.
Proof.
  intros HP HQ; unfold h12_IsZero; start HP; hop; eapply wp_12Minimal; [side..|].
  repeat hop; eexists; split; [|exact HQ]; perm.
Qed.
Lemma wp_12IsOne (Q : bool -> cells -> Prop) G G' e ve : Permutation G (c12 e ve ++ G') ->
  Q (gfP12_IsOne ve) (c12 e (gfP12_Minimal ve) ++ G') -> wp (h12_IsOne e) Q G.
Proof.
  intros HP HQ; unfold h12_IsOne; start HP; hop; eapply wp_12Minimal; [side..|].
  repeat hop; eexists; split; [|exact HQ]; perm.
Qed.

Ltac hop12 := lazymatch goal with
  | |- wp h12_new _ _ => apply wp_12new; intros ? ?
  | |- wp (h12_Put _) _ _ => eapply wp_12Put; [side|]
  | |- wp (h12_Set _ _) _ _ => eapply wp_12Set; [side..|]
  | |- wp (h12_SetZero _) _ _ => eapply wp_12SetZero; [side..|]
  | |- wp (h12_SetOne _) _ _ => eapply wp_12SetOne; [side..|]
  | |- wp (h12_Minimal _) _ _ => eapply wp_12Minimal; [side..|]
  | |- wp (h12_IsZero _) _ _ => eapply wp_12IsZero; [side..|]
  | |- wp (h12_IsOne _) _ _ => eapply wp_12IsOne; [side..|]
  | |- wp (h12_Conjugate _ _) _ _ => eapply wp_12Conjugate; [side..|]
  | |- wp (h12_Negative _ _) _ _ => eapply wp_12Negative; [side..|]
  | |- wp (h12_Frobenius _ _) _ _ => eapply wp_12Frobenius; [side..|]
  | |- wp (h12_FrobeniusP2 _ _) _ _ => eapply wp_12FrobeniusP2; [side..|]
  | |- wp (h12_Add _ _ _) _ _ => eapply wp_12Add; [side..|]
  | |- wp (h12_Sub _ _ _) _ _ => eapply wp_12Sub; [side..|]
  | |- wp (h12_Mul _ _ _) _ _ => eapply wp_12Mul; [side..|]
  | |- wp (h12_Square _ _) _ _ => eapply wp_12Square; [side..|]
  | |- wp (h12_Invert _ _) _ _ => eapply wp_12Invert; [side..|]
  | _ => hop6
  end; cbv beta.
Ltac hop ::= hop12.

(** gfp12.go:146-166, Exp *)
Lemma wp_12Exp n : spec1 c12 (fun e a => h12_Exp e a n) (fun a => gfP12_Exp a n) none.
Proof.
  intros Q G G' e ve a va HP Ha _ HQ; start HP; unfold h12_Exp.
  hop; apply wp_12new; intros sum vs; hop; hop; hop; apply wp_12new; intros t vt0; hop.
  apply wp_mloop with (Inv := fun i G2 => exists s vt,
     gfP12_Exp va n = bit_loop (fun sum i => let t := gfP12_Square sum in if Bit n i then gfP12_Mul t va else t) i s
     /\ Permutation G2 (c12 t vt ++ c12 sum s ++ c12 e ve ++ G')).
  - exists gfP12_One; eexists; split; [reflexivity|perm].
  - intros i G2 Hi (s & vt & E & HP2); start HP2.
    assert (Ha2 : incl (c12 a va) (c12 e ve ++ G')) by (destruct Ha as [[-> ->]|Ha]; look).
    hop; hop; rewrite E; cbn [bit_loop]; cbv zeta.
    destruct (Bit n (Z.of_nat i)); hop; eexists; (split; [apply Permutation_refl|]); eexists; eexists;
      (split; [reflexivity|perm]).
  - cbn [bit_loop]; intros G2 (s & vt & E & HP2); eapply wp_perm; [exact HP2|]; cbv beta in HQ; rewrite E in HQ; repeat hop; eexists; split; [|exact HQ]; perm.
Qed.
