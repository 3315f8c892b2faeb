(** * Lemmas for C68 *)
From Coq Require Import ZArith List Bool Lia FinFun.
From Verif Require Import Base BaseFacts BB SpecCodec CodecProofs SpecRand BN256 Rand.
Import ListNotations.
Open Scope Z_scope.

Lemma skipn_skipn' {A} a b (l : list A) : skipn a (skipn b l) = skipn (b + a) l.
Proof.
  revert l. induction b as [|b IH]; intros l; [easy|]. destruct l; [now rewrite !skipn_nil|]. cbn. apply IH.
Qed.
Lemma block_skip k i j s : block k j (skipn (k * i) s) = block k (i + j) s.
Proof. unfold block. rewrite skipn_skipn'. f_equal. f_equal. lia. Qed.
Lemma bytes_firstn k s : Forall byte s -> Forall byte (firstn k s).
Proof. intros H. rewrite <- (firstn_skipn k s) in H. now apply Forall_app in H. Qed.
Lemma bytes_skipn k s : Forall byte s -> Forall byte (skipn k s).
Proof. intros H. rewrite <- (firstn_skipn k s) in H. now apply Forall_app in H. Qed.

(** the mask keeps the low bits of the whole block *)
Lemma clear_candidate b n k l : Forall byte l -> length l = S k -> 0 <= b -> n = 8 * Z.of_nat k + b ->
  SetBytes (clear_bits b l) = candidate n l.
Proof.
  intros H L B ->. destruct l as [|h t]; [easy|]. injection L as L. inversion_clear H as [|? ? _ Ht].
  unfold SetBytes, candidate. rewrite val_be. cbn [clear_bits be_value]. rewrite L.
  replace (2 ^ b - 1) with (Z.ones b) by (rewrite Z.ones_equiv; lia). rewrite Z.land_ones by lia.
  pose proof (be_bound t Ht) as T. rewrite L in T.
  assert (E : 2 ^ (8 * Z.of_nat k + b) = 2 ^ b * 256 ^ Z.of_nat k).
  { rewrite Z.pow_add_r, Z.pow_mul_r by lia. change (2 ^ 8) with 256. lia. }
  rewrite E. assert (P : 0 < 2 ^ b) by (apply Z.pow_pos_nonneg; lia).
  pose proof (Z.div_mod h (2 ^ b)). pose proof (Z.mod_pos_bound h (2 ^ b) P).
  apply Z.mod_unique with (q := h / 2 ^ b); [left; nia|]. nia.
Qed.

Section Loop.
Variables (n b max : Z) (k0 : nat).
Hypotheses (B : 0 <= b) (N : n = 8 * Z.of_nat k0 + b).
Let k := S k0.
Lemma cand_nonneg l : 0 <= candidate n l.
Proof. apply Z.mod_pos_bound, Z.pow_pos_nonneg; lia. Qed.
Lemma rand_loop_spec fuel : forall s, Forall byte s -> (length s < fuel)%nat ->
  (exists i, first_hit n k 0 max s i /\ rand_loop fuel max b k s = Ok (candidate n (block k i s), skipn (k * S i) s)) \/
  (no_hit n k 0 max s /\ rand_loop fuel max b k s = Err).
Proof.
  induction fuel as [|fuel IH]; intros s H L; [lia|]. cbn [rand_loop].
  destruct (Nat.ltb_spec (length s) k) as [C|C].
  { right. split; [|easy]. intros i Hi. unfold k in *. nia. }
  assert (E : SetBytes (clear_bits b (firstn k s)) = candidate n (block k 0 s)).
  { unfold block. rewrite Nat.mul_0_r. cbn [skipn]. apply clear_candidate with (k := k0); try easy.
    - now apply bytes_firstn.
    - rewrite firstn_length. unfold k in *. lia. }
  rewrite E. pose proof (cand_nonneg (block k 0 s)) as Q.
  destruct (Z.ltb_spec (candidate n (block k 0 s)) max) as [D|D].
  { left. exists 0%nat. rewrite Nat.mul_1_r. split; [|easy]. repeat split; try lia. }
  assert (K : skipn k s = skipn (k * 1) s) by now rewrite Nat.mul_1_r.
  assert (L' : length (skipn k s) = (length s - k)%nat) by apply skipn_length.
  destruct (IH (skipn k s)) as [[i [[H1 [H2 H3]] ->]]|[H1 ->]]; [now apply bytes_skipn|unfold k in *; lia| |].
  - left. exists (S i). rewrite K in *. rewrite block_skip in *. split.
    + split; [lia|]. split; [easy|]. intros [|j] J; [lia|]. specialize (H3 j). rewrite block_skip in H3. apply H3. lia.
    + rewrite skipn_skipn'. do 2 f_equal. f_equal. lia.
  - right. split; [|easy]. intros [|i] Hi; [lia|]. specialize (H1 i). rewrite K, block_skip in H1. apply H1.
    rewrite <- K. lia.
Qed.
End Loop.

(** crypto/rand.Int *)
Lemma rand_Int_spec max s : 1 < max -> Forall byte s ->
  let n := Z.log2_up max in let k := Z.to_nat ((n + 7) / 8) in
  (exists i, first_hit n k 0 max s i /\ rand_Int max s = Ok (candidate n (block k i s), skipn (k * S i) s)) \/
  (no_hit n k 0 max s /\ rand_Int max s = Err).
Proof.
  intros M H n k. unfold rand_Int. destruct (Z.leb_spec max 0); [lia|].
  assert (E : BitLen (max - 1) = n).
  { unfold BitLen, n. destruct (Z.eqb_spec (max - 1) 0); [lia|]. rewrite Z.abs_eq by lia.
    rewrite Z.log2_up_eqn by lia. replace (Z.pred max) with (max - 1) by lia. lia. }
  rewrite E. assert (P : 0 < n) by (unfold n; apply Z.log2_up_pos; lia).
  destruct (Z.eqb_spec n 0); [lia|]. cbv zeta. fold k.
  assert (P8 : 0 < (n + 7) / 8) by (apply Z.div_str_pos; lia).
  assert (K : k = S (Z.to_nat ((n + 7) / 8 - 1))) by (unfold k; lia).
  rewrite K. apply rand_loop_spec; try lia; try easy.
  - pose proof (Z.mod_pos_bound n 8). destruct (Z.eqb_spec (n mod 8) 0); lia.
  - rewrite Z2Nat.id by lia. pose proof (Z.div_mod n 8). pose proof (Z.mod_pos_bound n 8).
    pose proof (Z.div_mod (n + 7) 8). pose proof (Z.mod_pos_bound (n + 7) 8).
    destruct (Z.eqb_spec (n mod 8) 0); lia.
Qed.
Lemma rand_Int_edges s : rand_Int 1 s = Ok (0, s) /\ forall max, max <= 0 -> rand_Int max s = Panic.
Proof. split; [easy|]. intros max M. unfold rand_Int. now destruct (Z.leb_spec max 0); [|lia]. Qed.

(** every number is the candidate of the same number of blocks *)
Lemma candidate_fibre n k v : 0 <= n <= 8 * Z.of_nat k -> 0 <= v < 2 ^ n -> forall l, length l = k -> Forall byte l ->
  (candidate n l = v <-> exists j, 0 <= j < 2 ^ (8 * Z.of_nat k - n) /\ be_value l = v + 2 ^ n * j).
Proof.
  intros N V l L H. unfold candidate. pose proof (be_bound l H) as Q. rewrite L in Q.
  assert (E : 256 ^ Z.of_nat k = 2 ^ n * 2 ^ (8 * Z.of_nat k - n)).
  { rewrite <- Z.pow_add_r by lia. replace (n + (8 * Z.of_nat k - n)) with (8 * Z.of_nat k) by lia.
    rewrite Z.pow_mul_r by lia. easy. }
  rewrite E in Q. assert (P : 0 < 2 ^ n) by lia. split.
  - intros C. exists (be_value l / 2 ^ n). pose proof (Z.div_mod (be_value l) (2 ^ n)). split; [|lia].
    split; [apply Z.div_pos; lia|]. apply Z.div_lt_upper_bound; lia.
  - intros [j [J ->]]. rewrite Z.mul_comm, Z.mod_add by lia. now apply Z.mod_small.
Qed.
Lemma be_unique l : forall l', length l = length l' -> Forall byte l -> Forall byte l' -> be_value l = be_value l' -> l = l'.
Proof.
  induction l as [|x l IH]; intros [|y l'] L H H' E; try easy. injection L as L. inversion_clear H. inversion_clear H'.
  cbn [be_value] in E. rewrite L in E. pose proof (be_bound l H1) as Q. pose proof (be_bound l' H2) as Q'. rewrite L in Q.
  assert (x = y) as -> by nia. f_equal. apply IH; try easy. lia.
Qed.
Fixpoint to_block (k : nat) (v : Z) : list Z :=
  match k with O => [] | S k => v / 256 ^ Z.of_nat k :: to_block k (v mod 256 ^ Z.of_nat k) end.
Lemma to_block_spec k : forall v, 0 <= v < 256 ^ Z.of_nat k ->
  length (to_block k v) = k /\ Forall byte (to_block k v) /\ be_value (to_block k v) = v.
Proof.
  induction k as [|k IH]; intros v V. { cbn in *. repeat split; [constructor|lia]. }
  rewrite Nat2Z.inj_succ, Z.pow_succ_r in V by lia. pose proof (pow256_pos k) as P.
  destruct (IH (v mod 256 ^ Z.of_nat k)) as [L [H E]]; [apply Z.mod_pos_bound; lia|].
  cbn [to_block length be_value]. rewrite L, E. split; [easy|]. split.
  - constructor; [|easy]. split; [apply Z.div_pos; lia|apply Z.div_lt_upper_bound; lia].
  - pose proof (Z.div_mod v (256 ^ Z.of_nat k)). lia.
Qed.
Lemma uniform n k v : 0 <= n <= 8 * Z.of_nat k -> 0 <= v < 2 ^ n -> exists ls,
  NoDup ls /\ Z.of_nat (length ls) = 2 ^ (8 * Z.of_nat k - n) /\
  forall l, In l ls <-> length l = k /\ Forall byte l /\ candidate n l = v.
Proof.
  intros N V. set (m := 2 ^ (8 * Z.of_nat k - n)).
  assert (M : 0 < m) by (apply Z.pow_pos_nonneg; lia).
  assert (E : 256 ^ Z.of_nat k = 2 ^ n * m).
  { unfold m. rewrite <- Z.pow_add_r by lia. replace (n + (8 * Z.of_nat k - n)) with (8 * Z.of_nat k) by lia.
    rewrite Z.pow_mul_r by lia. easy. }
  pose (f := fun j => to_block k (v + 2 ^ n * Z.of_nat j)).
  assert (F : forall j, (j < Z.to_nat m)%nat -> length (f j) = k /\ Forall byte (f j) /\ be_value (f j) = v + 2 ^ n * Z.of_nat j).
  { intros j J. apply to_block_spec. rewrite E. assert (Z.of_nat j <= m - 1) by lia. nia. }
  exists (map f (seq 0 (Z.to_nat m))). split; [|split].
  - apply NoDup_map_inv with (f := be_value). rewrite map_map.
    rewrite map_ext_in with (g := fun j => v + 2 ^ n * Z.of_nat j).
    2: { intros j J. apply in_seq in J. apply F. lia. }
    apply FinFun.Injective_map_NoDup; [|apply seq_NoDup]. intros i j X. nia.
  - rewrite map_length, seq_length. lia.
  - intros l. rewrite in_map_iff. split.
    + intros [j [<- J]]. apply in_seq in J. destruct (F j) as [A [B C]]; [lia|]. split; [easy|]. split; [easy|].
      apply (candidate_fibre n k v N V); try easy. exists (Z.of_nat j). fold m. lia.
    + intros [L [H C]]. apply (candidate_fibre n k v N V) in C; try easy. fold m in C. destruct C as [j [J C]].
      exists (Z.to_nat j). rewrite in_seq. split; [|lia]. destruct (F (Z.to_nat j)) as [A1 [A2 A3]]; [lia|].
      apply be_unique; try easy; [congruence|]. rewrite A3, C, Z2Nat.id; lia.
Qed.

(** ** RandomG1, RandomG2 *)
Lemma order_bits : Z.log2_up bnOrder = 254. Proof. now vm_compute. Qed.
Lemma rand_order s : Forall byte s ->
  (exists i, first_hit 254 32 0 bnOrder s i /\ rand_Int bnOrder s = Ok (candidate 254 (block 32 i s), skipn (32 * S i) s)) \/
  (no_hit 254 32 0 bnOrder s /\ rand_Int bnOrder s = Err).
Proof.
  intros H. pose proof (rand_Int_spec bnOrder s) as X. cbv zeta in X. rewrite order_bits in X. apply X; easy.
Qed.
Lemma random_loop_spec fuel : forall s, Forall byte s -> (length s < fuel)%nat ->
  (exists i, first_hit 254 32 1 bnOrder s i /\ random_loop fuel s = Ok (candidate 254 (block 32 i s), skipn (32 * S i) s)) \/
  (no_hit 254 32 1 bnOrder s /\ random_loop fuel s = Err).
Proof.
  induction fuel as [|fuel IH]; intros s H L; [lia|]. cbn [random_loop].
  destruct (rand_order s H) as [[i [[H1 [H2 H3]] ->]]|[H1 ->]]; cbn [bind].
  2: { right. split; [|easy]. intros i Hi C. apply (H1 i Hi). lia. }
  destruct (Z.ltb_spec 0 (candidate 254 (block 32 i s))) as [D|D].
  { left. exists i. split; [|easy]. split; [easy|]. split; [lia|]. intros j J C. apply (H3 j J). lia. }
  pose proof (skipn_length (32 * S i) s) as SL.
  assert (Bad : forall j, (j < S i)%nat -> ~ 1 <= candidate 254 (block 32 j s) < bnOrder).
  { intros j J C. destruct (Nat.eq_dec j i) as [->|]; [lia|]. apply (H3 j); lia. }
  destruct (IH (skipn (32 * S i) s)) as [[i' [[G1 [G2 G3]] ->]]|[G1 ->]]; [now apply bytes_skipn|lia| |].
  - left. exists (S i + i')%nat. rewrite block_skip in *. split.
    + split; [lia|]. split; [easy|]. intros j J. destruct (Nat.lt_ge_cases j (S i)) as [X|X]; [now apply Bad|].
      specialize (G3 (j - S i)%nat). rewrite block_skip in G3. replace (S i + (j - S i))%nat with j in G3 by lia. apply G3. lia.
    + rewrite skipn_skipn'. do 2 f_equal. f_equal. lia.
  - right. split; [|easy]. intros j J. destruct (Nat.lt_ge_cases j (S i)) as [X|X]; [now apply Bad|].
    specialize (G1 (j - S i)%nat). rewrite block_skip in G1. replace (S i + (j - S i))%nat with j in G1 by lia. apply G1. lia.
Qed.
