(** * Proofs of C18 *)
From Coq Require Import ZArith Znumtheory List Bool Lia.
From Verif Require Import Base BaseFacts SpecCodec P256 SpecSecp SecpMain Vector Bulletproofs SpecBP.
Import ListNotations.
Open Scope Z_scope.
Local Opaque secp_P secp_N.

Lemma N_gt1 : 1 < secp_N. Proof. Local Transparent secp_N. reflexivity. Qed.
Local Opaque secp_N.

Lemma len_eqb {A B} (a : list A) (b : list B) : (len a =? len b) = (length a =? length b)%nat.
Proof.
  unfold len. destruct (Nat.eqb_spec (length a) (length b)) as [->|H]; [apply Z.eqb_refl|].
  apply Z.eqb_neq. lia.
Qed.
Section Two.
Variables (op : Z -> Z -> Z) (V : list Z -> list Z -> res (list Z)).
Hypothesis HV : forall a b, V a b = if negb (len a =? len b) then Err else Ok (map2 (fun x y => bmod (op x y) ORDER) a b).
Lemma map2_spec (f : Z -> Z -> Z) : forall a b, length a = length b ->
  length (map2 f a b) = length a /\ forall i, (i < length a)%nat -> nth i (map2 f a b) 0 = f (nth i a 0) (nth i b 0).
Proof.
  induction a as [|x a IH]; intros [|y b] L; cbn in *; try easy. split; [|].
  - f_equal. apply IH. lia.
  - intros [|i] H; [easy|]. apply IH; lia.
Qed.
Lemma two_spec a b : (length a <> length b -> V a b = Err) /\
  (length a = length b -> exists c, V a b = Ok c /\ length c = length a /\
     forall i, (i < length a)%nat -> nth i c 0 = (op (nth i a 0) (nth i b 0)) mod secp_N).
Proof.
  rewrite HV, len_eqb. destruct (Nat.eqb_spec (length a) (length b)) as [L|L]; cbn [negb]; (split; [easy|]); [intros _|easy].
  eexists. split; [reflexivity|]. now apply map2_spec.
Qed.
End Two.
Lemma VectorAdd_spec a b : (length a <> length b -> VectorAdd a b = Err) /\
  (length a = length b -> exists c, VectorAdd a b = Ok c /\ length c = length a /\
     forall i, (i < length a)%nat -> nth i c 0 = (nth i a 0 + nth i b 0) mod secp_N).
Proof. now apply (two_spec Z.add VectorAdd). Qed.
Lemma VectorSub_spec a b : (length a <> length b -> VectorSub a b = Err) /\
  (length a = length b -> exists c, VectorSub a b = Ok c /\ length c = length a /\
     forall i, (i < length a)%nat -> nth i c 0 = (nth i a 0 - nth i b 0) mod secp_N).
Proof. now apply (two_spec Z.sub VectorSub). Qed.
Lemma VectorMul_spec a b : (length a <> length b -> VectorMul a b = Err) /\
  (length a = length b -> exists c, VectorMul a b = Ok c /\ length c = length a /\
     forall i, (i < length a)%nat -> nth i c 0 = (nth i a 0 * nth i b 0) mod secp_N).
Proof. now apply (two_spec Z.mul VectorMul). Qed.
Lemma VectorScalarMul_spec a b : exists c, VectorScalarMul a (Some b) = Ok c /\ length c = length a /\
  forall i, (i < length a)%nat -> nth i c 0 = (nth i a 0 * b) mod secp_N.
Proof.
  exists (map (fun x => bmod (x * b) ORDER) a). split; [now destruct a|]. split; [apply map_length|].
  intros i H. rewrite nth_indep with (d' := (fun x => bmod (x * b) ORDER) 0) by (rewrite map_length; easy).
  exact (map_nth (fun x => bmod (x * b) ORDER) a 0 i).
Qed.
Lemma VectorCopy_spec a (n : nat) : exists c, VectorCopy a (Z.of_nat n) = Ok c /\ length c = n /\
  forall i, (i < n)%nat -> nth i c 0 = a.
Proof.
  unfold VectorCopy, make_ok. destruct (Z.ltb_spec (Z.of_nat n) 0); [lia|]. rewrite Nat2Z.id.
  eexists. split; [reflexivity|]. split; [apply repeat_length|]. clear H. induction n; intros [|i] L; cbn; try lia. apply IHn. lia.
Qed.
Lemma VectorConvert_spec a : VectorConvertToBig a (len a) = Ok a.
Proof. unfold VectorConvertToBig, len. destruct (Z.ltb_spec (Z.of_nat (length a)) 0); [lia|]. rewrite Z.ltb_irrefl, Nat2Z.id, firstn_all. easy. Qed.
Lemma powerOf_spec x (n : nat) : exists c, powerOf x (Z.of_nat n) = Ok c /\ length c = n /\
  forall i, (i < n)%nat -> nth i c 0 = (x ^ Z.of_nat i) mod secp_N.
Proof.
  unfold powerOf, make_ok. destruct (Z.ltb_spec (Z.of_nat n) 0); [lia|]. rewrite Nat2Z.id. clear H.
  eexists. split; [reflexivity|].
  assert (G : forall e c, c = (x ^ Z.of_nat e) mod secp_N -> length (powerOf_loop x c n) = n /\
     forall i, (i < n)%nat -> nth i (powerOf_loop x c n) 0 = (x ^ Z.of_nat (e + i)) mod secp_N).
  { induction n as [|n IH]; intros e c Hc; [split; [easy|]; intros i Hi; lia|]. cbn [powerOf_loop].
    destruct (IH (S e) (bmod (c * x) ORDER)) as [L H].
    - unfold bmod, ORDER. rewrite Hc, Zmult_mod_idemp_l. f_equal. rewrite Nat2Z.inj_succ, Z.pow_succ_r by lia. ring.
    - split; [cbn; now rewrite L|]. intros [|i] Hi; cbn [nth]; [now rewrite Nat.add_0_r|]. rewrite H by lia. do 3 f_equal. lia. }
  apply (G O). pose proof N_gt1. rewrite Z.mod_small; cbn; lia.
Qed.
Lemma ScalarProduct_spec a b : (length a <> length b -> ScalarProduct a b = Err) /\
  (length a = length b -> ScalarProduct a b = Ok (dot a b mod secp_N)).
Proof.
  unfold ScalarProduct. rewrite len_eqb. destruct (Nat.eqb_spec (length a) (length b)) as [L|L]; cbn [negb]; (split; [easy|]); [intros _|easy].
  f_equal. unfold dot. pose proof N_gt1.
  assert (G : forall l r, 0 <= r < secp_N -> fold_left (fun r ab => bmod (r + fst ab * snd ab) ORDER) l r =
     (r + fold_right Z.add 0 (map (fun p : Z * Z => fst p * snd p) l)) mod secp_N).
  { induction l as [|p l IH]; intros r Hr; cbn [fold_left fold_right map].
    - rewrite Z.add_0_r, Z.mod_small; easy.
    - rewrite IH by (apply Z.mod_pos_bound; lia). unfold bmod, ORDER. rewrite Zplus_mod_idemp_l. f_equal. lia. }
  rewrite G by lia. f_equal.
Qed.
