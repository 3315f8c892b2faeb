(** * 32-byte blocks *)
From Coq Require Import ZArith List Bool Lia.
From Verif Require Import Base BaseFacts BN256.
Import ListNotations.
Open Scope Z_scope.

Definition be (n : nat) (v : Z) : list Z := map (fun i => (v / 256 ^ (Z.of_nat n - 1 - Z.of_nat i)) mod 256) (seq 0 n).
Lemma be_length n v : length (be n v) = n. Proof. unfold be. now rewrite map_length, seq_length. Qed.
Lemma be_ok n v : bytes_ok (be n v).
Proof.
  unfold bytes_ok, be. apply Forall_forall. intros x Hx. apply in_map_iff in Hx as (i & <- & _).
  unfold byte_ok. apply Z.mod_pos_bound. lia.
Qed.
Lemma be_S n v : be (S n) v = (v / 256 ^ Z.of_nat n) mod 256 :: be n v.
Proof.
  unfold be. cbn [seq map]. f_equal.
  - f_equal. f_equal. f_equal. lia.
  - rewrite <- seq_shift, map_map. apply map_ext. intros i. f_equal. f_equal. f_equal. lia.
Qed.
Lemma be_val n v : 0 <= v -> val 256 (be n v) = v mod 256 ^ Z.of_nat n.
Proof.
  intros Hv. induction n as [|n IH].
  - cbn. now rewrite Z.mod_1_r.
  - rewrite be_S, val_cons, IH, be_length. set (q := 256 ^ Z.of_nat n).
    assert (0 < q) by (apply Z.pow_pos_nonneg; lia).
    rewrite Nat2Z.inj_succ, Z.pow_succ_r by lia. fold q.
    rewrite (Z.mul_comm 256 q), Z.rem_mul_r by lia. ring.
Qed.
Lemma digits_len_le n v : 0 <= v < 256 ^ Z.of_nat n -> (length (digits 256 v) <= n)%nat.
Proof.
  intros Hv. destruct (Z.eq_dec v 0) as [->|]; [rewrite digits_0; cbn; lia|].
  destruct (digits_length_inv 256 v) as (m & E & B); try lia. rewrite E.
  destruct (Nat.le_gt_cases (S m) n) as [H|H]; [assumption|exfalso].
  assert (256 ^ Z.of_nat n <= 256 ^ Z.of_nat m) by (apply Z.pow_le_mono_r; lia). lia.
Qed.
Lemma pow256_32 : 256 ^ Z.of_nat 32 = 2 ^ 256. Proof. reflexivity. Qed.
Lemma block32_be v : 0 <= v < 2 ^ 256 -> block32 (Bytes v) = be 32 v.
Proof.
  intros Hv. unfold block32, Bytes. rewrite Z.abs_eq by lia.
  pose proof (digits_len_le 32 v ltac:(rewrite pow256_32; lia)) as L.
  apply (val_inj 256); [lia| | | |].
  - apply Forall_app. split.
    + apply Forall_forall. intros x Hx. apply repeat_spec in Hx. lia.
    + apply digits_digits_ok; lia.
  - apply be_ok.
  - rewrite app_length, repeat_length, be_length. lia.
  - rewrite digits_zeros, digits_val, be_val by lia. rewrite pow256_32, Z.mod_small; lia.
Qed.
Lemma be32_val v : 0 <= v < 2 ^ 256 -> SetBytes (be 32 v) = v.
Proof. intros Hv. unfold SetBytes. rewrite be_val by lia. rewrite pow256_32, Z.mod_small; lia. Qed.
Lemma be32_inj v w : 0 <= v < 2 ^ 256 -> 0 <= w < 2 ^ 256 -> be 32 v = be 32 w -> v = w.
Proof. intros Hv Hw E. rewrite <- (be32_val v Hv), <- (be32_val w Hw). now rewrite E. Qed.
Lemma slice_app (l : list (list Z)) (i : nat) : Forall (fun b => length b = 32%nat) l -> (i < length l)%nat ->
  slice32 i (concat l) = nth i l [].
Proof.
  unfold slice32. intros H. revert i. induction H as [|b l Hb Hl IH]; intros i Hi; [cbn in Hi; lia|].
  cbn [concat]. destruct i as [|i].
  - rewrite Nat.mul_0_r. cbn [skipn]. rewrite firstn_app, <- Hb, Nat.sub_diag, firstn_all. cbn. apply app_nil_r.
  - cbn [nth]. rewrite <- IH by (cbn in Hi; lia). f_equal. rewrite skipn_app.
    rewrite (skipn_all2 b) by lia. cbn [app]. f_equal. lia.
Qed.
Lemma concat_len (l : list (list Z)) : Forall (fun b => length b = 32%nat) l -> length (concat l) = (32 * length l)%nat.
Proof. induction 1 as [|b l Hb Hl IH]; cbn [concat length]; [reflexivity|]. rewrite app_length, IH, Hb. lia. Qed.
Lemma SetBytes_nonneg l : bytes_ok l -> 0 <= SetBytes l.
Proof. intros H. apply (val_bound 256 l); [lia|exact H]. Qed.
Lemma in_firstn (A : Type) n (l : list A) x : In x (firstn n l) -> In x l.
Proof. intros H. rewrite <- (firstn_skipn n l). apply in_or_app. now left. Qed.
Lemma in_skipn (A : Type) n (l : list A) x : In x (skipn n l) -> In x l.
Proof. intros H. rewrite <- (firstn_skipn n l). apply in_or_app. now right. Qed.
Lemma slice_ok i m : bytes_ok m -> bytes_ok (slice32 i m).
Proof.
  intros H. unfold slice32, bytes_ok in *. rewrite Forall_forall in *. intros x Hx. apply H.
  now apply in_firstn, in_skipn in Hx.
Qed.
