(** Facts about the big-integer model of Base.v. *)
From Coq Require Import ZArith Zpow_facts Znumtheory List Lia Bool.
From Verif Require Import Base.
Import ListNotations.
Open Scope Z_scope.

Lemma val_app B l1 l2 : val B (l1 ++ l2) = val B l1 * B ^ Z.of_nat (length l2) + val B l2.
Proof.
  unfold val. rewrite fold_left_app. generalize (fold_left (fun acc d => acc * B + d) l1 0).
  induction l2 as [|d l IH]; intros a; cbn [fold_left length].
  - change (Z.of_nat 0) with 0. rewrite Z.pow_0_r. ring.
  - rewrite (IH (a * B + d)), (IH (0 * B + d)), Nat2Z.inj_succ, Z.pow_succ_r by lia. ring.
Qed.

Lemma val_cons B d l : val B (d :: l) = d * B ^ Z.of_nat (length l) + val B l.
Proof. change (d :: l) with ([d] ++ l). rewrite val_app. unfold val at 1. cbn [fold_left]. ring. Qed.

Lemma val_nil B : val B [] = 0.
Proof. reflexivity. Qed.

Definition digits_ok (B : Z) (l : list Z) : Prop := Forall (fun d => 0 <= d < B) l.

Lemma val_bound B l : 1 <= B -> digits_ok B l -> 0 <= val B l < B ^ Z.of_nat (length l).
Proof.
  intros HB. induction 1 as [|d l Hd Hl IH].
  - rewrite val_nil. cbn. lia.
  - rewrite val_cons. cbn [length]. rewrite Nat2Z.inj_succ, Z.pow_succ_r by lia. nia.
Qed.

(** digit lists of the same length with the same value are equal *)
Lemma val_inj B l1 l2 : 1 <= B -> digits_ok B l1 -> digits_ok B l2 ->
  length l1 = length l2 -> val B l1 = val B l2 -> l1 = l2.
Proof.
  intros HB H1; revert l2. induction H1 as [|d l Hd Hl IH]; intros l2 H2 Hlen Hv.
  - destruct l2; [easy|discriminate].
  - destruct l2 as [|d2 l2]; [discriminate|]. pose proof (Forall_inv H2) as O1; pose proof (Forall_inv_tail H2) as O2; cbn beta in O1.
    injection Hlen as Hlen. rewrite !val_cons, Hlen in Hv.
    pose proof (val_bound B l HB Hl) as B1. pose proof (val_bound B l2 HB O2) as B2.
    rewrite Hlen in B1. set (W := B ^ Z.of_nat (length l2)) in *.
    assert (d = d2) by nia. subst. f_equal. apply IH; auto. lia.
Qed.

Lemma digits_fuel_spec B n x acc : 2 <= B -> 0 <= x < B ^ Z.of_nat n -> digits_ok B acc ->
  val B (digits_fuel B n x acc) = x * B ^ Z.of_nat (length acc) + val B acc
  /\ digits_ok B (digits_fuel B n x acc).
Proof.
  intros HB. revert x acc. induction n as [|n IH]; intros x acc Hx Hacc; cbn [digits_fuel].
  - cbn in Hx. assert (x = 0) by lia. subst. split; [ring|easy].
  - destruct (Z.leb_spec x 0).
    + assert (x = 0) by lia. subst. split; [ring|easy].
    + assert (0 <= x mod B < B) by (apply Z.mod_pos_bound; lia).
      destruct (IH (x / B) (x mod B :: acc)) as [E1 E2].
      * rewrite Nat2Z.inj_succ, Z.pow_succ_r in Hx by lia.
        split; [apply Z.div_pos; lia|]. apply Z.div_lt_upper_bound; lia.
      * constructor; easy.
      * split; [|easy]. rewrite E1, val_cons. cbn [length]. rewrite Nat2Z.inj_succ, Z.pow_succ_r by lia.
        pose proof (Z.div_mod x B). nia.
Qed.

Lemma fuel_enough B x : 2 <= B -> 0 <= x -> x < B ^ Z.of_nat (Z.to_nat (Z.log2 x + 1)).
Proof.
  intros HB Hx. destruct (Z.eq_dec x 0) as [->|].
  - apply Z.pow_pos_nonneg; lia.
  - pose proof (Z.log2_spec x). pose proof (Z.log2_nonneg x).
    rewrite Z2Nat.id by lia. apply Z.lt_le_trans with (2 ^ (Z.log2 x + 1)); [lia|].
    apply Z.pow_le_mono_l. lia.
Qed.

Lemma digits_val B x : 2 <= B -> 0 <= x -> val B (digits B x) = x.
Proof.
  intros HB Hx. unfold digits.
  destruct (digits_fuel_spec B (Z.to_nat (Z.log2 x + 1)) x []) as [E _]; auto.
  - split; [easy|apply fuel_enough; easy].
  - constructor.
  - rewrite E, val_nil. cbn. ring.
Qed.

Lemma digits_digits_ok B x : 2 <= B -> 0 <= x -> digits_ok B (digits B x).
Proof.
  intros HB Hx. unfold digits.
  apply (digits_fuel_spec B (Z.to_nat (Z.log2 x + 1)) x []); auto.
  - split; [easy|apply fuel_enough; easy].
  - constructor.
Qed.

(** no leading zero *)
Lemma digits_fuel_head B n x acc : 2 <= B -> 0 <= x < B ^ Z.of_nat n -> 0 < x ->
  exists d l, digits_fuel B n x acc = d :: l /\ 0 < d.
Proof.
  intros HB. revert x acc. induction n as [|n IH]; intros x acc Hx Hpos; cbn [digits_fuel].
  - cbn in Hx. lia.
  - destruct (Z.leb_spec x 0); [lia|].
    destruct (Z.eq_dec (x / B) 0) as [E|E].
    + assert (x < B) by (apply Z.div_small_iff in E; lia).
      rewrite Z.mod_small by lia. destruct n; cbn [digits_fuel].
      * exists x, acc. split; [easy|lia].
      * rewrite E. cbn [Z.leb Z.compare]. exists x, acc. split; [easy|lia].
    + assert (0 <= x / B) by (apply Z.div_pos; lia).
      apply IH; [|lia]. split; [lia|]. rewrite Nat2Z.inj_succ, Z.pow_succ_r in Hx by lia.
      apply Z.div_lt_upper_bound; lia.
Qed.

Lemma digits_head B x : 2 <= B -> 0 < x -> exists d l, digits B x = d :: l /\ 0 < d.
Proof.
  intros. apply digits_fuel_head; auto. split; [lia|]. apply fuel_enough; lia.
Qed.

Lemma digits_0 B : digits B 0 = [].
Proof. reflexivity. Qed.

(** length of the digit list *)
Lemma digits_length B x (n : nat) : 2 <= B -> B ^ Z.of_nat n <= x < B ^ (Z.of_nat n + 1) ->
  length (digits B x) = S n.
Proof.
  intros HB Hx. assert (0 < x) by (pose proof (Z.pow_pos_nonneg B (Z.of_nat n)); lia).
  destruct (digits_head B x) as (d & l & E & Hd); try lia.
  pose proof (digits_val B x HB ltac:(lia)) as V. pose proof (digits_digits_ok B x HB ltac:(lia)) as O.
  rewrite E in *. pose proof (Forall_inv O) as O1; pose proof (Forall_inv_tail O) as O2; cbn beta in O1. rewrite val_cons in V.
  pose proof (val_bound B l ltac:(lia) O2) as Bl. cbn [length]. f_equal.
  destruct (Nat.lt_trichotomy (length l) n) as [L|[L|L]]; auto; exfalso.
  - assert (B ^ (Z.of_nat (length l) + 1) <= B ^ Z.of_nat n) by (apply Z.pow_le_mono_r; lia).
    rewrite Z.pow_add_r, Z.pow_1_r in H0 by lia. nia.
  - assert (B ^ (Z.of_nat n + 1) <= B ^ Z.of_nat (length l)) by (apply Z.pow_le_mono_r; lia).
    nia.
Qed.

Lemma digits_length_inv B x : 2 <= B -> 0 < x ->
  exists n, length (digits B x) = S n /\ B ^ Z.of_nat n <= x < B ^ (Z.of_nat n + 1).
Proof.
  intros HB Hx. destruct (digits_head B x) as (d & l & E & Hd); try lia.
  pose proof (digits_val B x HB ltac:(lia)) as V. pose proof (digits_digits_ok B x HB ltac:(lia)) as O.
  rewrite E in *. pose proof (Forall_inv O) as O1; pose proof (Forall_inv_tail O) as O2; cbn beta in O1. rewrite val_cons in V.
  pose proof (val_bound B l ltac:(lia) O2) as Bl. exists (length l). split; [easy|].
  rewrite Z.pow_add_r, Z.pow_1_r by lia. nia.
Qed.

(** digits inverts val on lists without leading zero *)
Lemma digits_of_val B d l : 2 <= B -> digits_ok B (d :: l) -> 0 < d -> digits B (val B (d :: l)) = d :: l.
Proof.
  intros HB O Hd. pose proof (Forall_inv O) as O1; pose proof (Forall_inv_tail O) as O2; cbn beta in O1.
  pose proof (val_bound B l ltac:(lia) O2) as Bl.
  assert (L : length (digits B (val B (d :: l))) = S (length l)).
  { apply digits_length; auto. rewrite val_cons, Z.pow_add_r, Z.pow_1_r by lia. nia. }
  apply (val_inj B); auto; try lia.
  - apply digits_digits_ok; auto. rewrite val_cons. nia.
  - rewrite digits_val; auto. rewrite val_cons. nia.
Qed.

Lemma digits_zeros B k l : val B (repeat 0 k ++ l) = val B l.
Proof.
  rewrite val_app. enough (val B (repeat 0 k) = 0) as -> by ring.
  induction k; cbn [repeat]; [easy|]. rewrite val_cons, IHk. ring.
Qed.

(** ** extended gcd *)
Lemma egcd_bezout n a b : let '(u, v, g) := egcd n a b in u * a + v * b = g.
Proof.
  revert a b; induction n as [|n IH]; intros a b; cbn [egcd]; [ring|].
  destruct (Z.eqb_spec b 0); [ring|].
  specialize (IH b (a mod b)). destruct (egcd n b (a mod b)) as [[u v] g].
  rewrite <- IH. pose proof (Z.div_mod a b). nia.
Qed.

Lemma egcd_gcd_ord n a b : 0 <= b <= a -> a * b < 2 ^ Z.of_nat n ->
  snd (egcd n a b) = Z.gcd a b.
Proof.
  revert a b; induction n as [|n IH]; intros a b Hab Hf; cbn [egcd].
  - cbn in Hf. assert (b = 0) by nia. subst. cbn. rewrite Z.gcd_0_r. lia.
  - destruct (Z.eqb_spec b 0) as [->|Hb]; [cbn; rewrite Z.gcd_0_r; lia|].
    specialize (IH b (a mod b)).
    pose proof (Z.mod_pos_bound a b ltac:(lia)).
    assert (1 <= a / b) by (apply Z.div_le_lower_bound; lia).
    pose proof (Z.div_mod a b ltac:(lia)).
    rewrite Nat2Z.inj_succ, Z.pow_succ_r in Hf by lia.
    destruct (egcd n b (a mod b)) as [[u v] g] eqn:E. cbn [snd] in IH |- *.
    assert (2 * (a mod b) <= a) by nia.
    assert (b * (2 * (a mod b)) <= b * a) by (apply Z.mul_le_mono_nonneg_l; lia).
    rewrite IH; [|lia|lia]. rewrite Z.gcd_comm, Z.gcd_mod by lia. apply Z.gcd_comm.
Qed.

Lemma egcd_gcd n a b : 0 <= a -> 0 <= b -> a * b < 2 ^ Z.of_nat n ->
  snd (egcd (S n) a b) = Z.gcd a b.
Proof.
  intros Ha Hb Hf. cbn [egcd]. destruct (Z.eqb_spec b 0) as [->|Hb0]; [cbn; rewrite Z.gcd_0_r; lia|].
  pose proof (Z.mod_pos_bound a b ltac:(lia)).
  assert (a mod b <= a) by (apply Z.mod_le; lia).
  pose proof (egcd_gcd_ord n b (a mod b) ltac:(lia) ltac:(nia)) as E.
  destruct (egcd n b (a mod b)) as [[u v] g]. cbn [snd] in *. rewrite E.
  rewrite Z.gcd_comm, Z.gcd_mod by lia. apply Z.gcd_comm.
Qed.

Lemma ModInverse_gcd g m : 1 < m ->
  snd (egcd (S (Z.to_nat (2 * Z.log2 m + 2))) (g mod m) m) = Z.gcd g m.
Proof.
  intros Hm. pose proof (Z.mod_pos_bound g m ltac:(lia)).
  rewrite egcd_gcd; try lia.
  - rewrite Z.gcd_comm, <- Z.gcd_mod by lia. rewrite Z.mod_mod by lia.
    rewrite Z.gcd_mod, Z.gcd_comm by lia. easy.
  - pose proof (Z.log2_nonneg m). rewrite Z2Nat.id by lia.
    replace (2 * Z.log2 m + 2) with ((Z.log2 m + 1) + (Z.log2 m + 1)) by lia.
    rewrite Z.pow_add_r by lia. pose proof (Z.log2_spec m ltac:(lia)).
    replace (Z.succ (Z.log2 m)) with (Z.log2 m + 1) in * by lia. nia.
Qed.

Lemma ModInverse_Some g m : 1 < m -> Z.gcd g m = 1 ->
  exists i, ModInverse g m = Some i /\ 0 <= i < m /\ (i * g) mod m = 1.
Proof.
  intros Hm Hg. unfold ModInverse. pose proof (ModInverse_gcd g m Hm) as E.
  pose proof (egcd_bezout (S (Z.to_nat (2 * Z.log2 m + 2))) (g mod m) m) as Bz.
  destruct (egcd _ _ _) as [[u v] d]. cbn in E. rewrite Hg in E. subst d. cbn.
  exists (u mod m). split; [easy|]. split; [apply Z.mod_pos_bound; lia|].
  rewrite Z.mul_mod_idemp_l by lia. rewrite <- Z.mul_mod_idemp_r by lia.
  replace (u * (g mod m)) with (1 + (-v) * m) by lia. rewrite Z.mod_add by lia.
  apply Z.mod_1_l. lia.
Qed.

Lemma ModInverse_None g m : 1 < m -> Z.gcd g m <> 1 -> ModInverse g m = None.
Proof.
  intros Hm Hg. unfold ModInverse. pose proof (ModInverse_gcd g m Hm) as E.
  destruct (egcd _ _ _) as [[u v] d]. cbn in E. subst d.
  destruct (Z.eqb_spec (Z.gcd g m) 1); easy.
Qed.

Lemma ModInverse_inv g m i : 1 < m -> ModInverse g m = Some i ->
  0 <= i < m /\ (i * g) mod m = 1.
Proof.
  intros Hm H. destruct (Z.eq_dec (Z.gcd g m) 1) as [E|E].
  - destruct (ModInverse_Some g m Hm E) as (j & Ej & P). rewrite Ej in H. injection H as <-. easy.
  - rewrite ModInverse_None in H; easy.
Qed.

Lemma prime_gcd g m : prime m -> g mod m <> 0 -> Z.gcd g m = 1.
Proof.
  intros Hp Hg. pose proof (prime_ge_2 m Hp).
  apply Zgcd_1_rel_prime. apply rel_prime_sym. apply prime_rel_prime; auto.
  intros D. apply Hg. apply Z.mod_divide; [lia|]. easy.
Qed.

Lemma prime_gcd_0 g m : prime m -> g mod m = 0 -> Z.gcd g m <> 1.
Proof.
  intros Hp Hg E. pose proof (prime_ge_2 m Hp). apply Z.mod_divide in Hg; [|lia].
  pose proof (Z.gcd_greatest g m m Hg (Z.divide_refl m)) as D. rewrite E in D.
  apply Z.divide_1_r_nonneg in D; lia.
Qed.

(** ** sign bit of a byte and complement *)
Lemma byte_high b : byte_ok b -> negb (Z.land b 128 =? 0) = (128 <=? b).
Proof.
  intros Hb. unfold byte_ok in Hb.
  assert (E : forall n : nat, (n < 256)%nat ->
     negb (Z.land (Z.of_nat n) 128 =? 0) = (128 <=? Z.of_nat n)).
  { intros n Hn. 
    assert (F : forallb (fun n => Bool.eqb (negb (Z.land (Z.of_nat n) 128 =? 0)) (128 <=? Z.of_nat n)) (seq 0 256) = true) by (vm_compute; reflexivity).
    rewrite forallb_forall in F. apply Bool.eqb_prop. apply F. apply in_seq. lia. }
  specialize (E (Z.to_nat b)). rewrite Z2Nat.id in E by lia. apply E. lia.
Qed.

Lemma byte_flip b : byte_ok b -> Z.lxor b 255 = 255 - b.
Proof.
  intros Hb. unfold byte_ok in Hb.
  assert (E : forall n : nat, (n < 256)%nat ->
     Z.lxor (Z.of_nat n) 255 = 255 - (Z.of_nat n)).
  { intros n Hn. 
    assert (F : forallb (fun n => (Z.lxor (Z.of_nat n) 255 =? 255 - Z.of_nat n)) (seq 0 256) = true) by (vm_compute; reflexivity).
    rewrite forallb_forall in F. apply Z.eqb_eq. apply F. apply in_seq. lia. }
  specialize (E (Z.to_nat b)). rewrite Z2Nat.id in E by lia. apply E. lia.
Qed.

(** ** decimal strings *)
Lemma map_ascii_inv l : map (fun c => c - 48) (map ascii_digit l) = l.
Proof. rewrite map_map. unfold ascii_digit. rewrite <- (map_id l) at 2. apply map_ext. intros; lia. Qed.

Lemma digit_is_digit l : digits_ok 10 l -> forallb is_digit (map ascii_digit l) = true.
Proof.
  induction 1; cbn; [easy|]. rewrite IHForall, andb_true_r. unfold is_digit, ascii_digit.
  apply andb_true_iff. split; apply Z.leb_le; lia.
Qed.

Lemma SetString10_String x : SetString10 (big_String x) = Some x.
Proof.
  unfold big_String. destruct (Z.eqb_spec x 0) as [->|H0]; [reflexivity|].
  destruct (Z.ltb_spec x 0) as [Hn|Hp].
  - destruct (digits_head 10 (- x)) as (d & l & E & Hd); try lia.
    pose proof (digits_digits_ok 10 (-x) ltac:(lia) ltac:(lia)) as O.
    pose proof (digits_val 10 (-x) ltac:(lia) ltac:(lia)) as V. rewrite E in *.
    unfold SetString10. cbn [Z.eqb Pos.eqb].
    destruct (map ascii_digit (d :: l)) eqn:M; [discriminate|]. rewrite <- M.
    rewrite digit_is_digit, map_ascii_inv, V by easy. cbn. f_equal. lia.
  - destruct (digits_head 10 x) as (d & l & E & Hd); try lia.
    pose proof (digits_digits_ok 10 x ltac:(lia) ltac:(lia)) as O.
    pose proof (digits_val 10 x ltac:(lia) ltac:(lia)) as V. rewrite E in *.
    pose proof (Forall_inv O) as O1; cbn beta in O1.
    pose proof (digit_is_digit _ O) as D. pose proof (map_ascii_inv (d :: l)) as M.
    cbn [map] in *. unfold SetString10.
    destruct (Z.eqb_spec (ascii_digit d) 45); [unfold ascii_digit in *; lia|].
    destruct (Z.eqb_spec (ascii_digit d) 43); [unfold ascii_digit in *; lia|].
    rewrite D. cbn [map]. rewrite M, V. reflexivity.
Qed.

Lemma big_String_inj x y : big_String x = big_String y -> x = y.
Proof.
  intros H. assert (Some x = Some y) as E by (rewrite <- !SetString10_String, H; easy).
  congruence.
Qed.
