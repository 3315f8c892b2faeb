From Coq Require Import ZArith Zpow_facts Znumtheory List Lia Bool.
From Verif Require Import Base BaseFacts ByteConv Util SpecCodec.
Import ListNotations.
Open Scope Z_scope.

Lemma val_be l : val 256 l = be_value l.
Proof. induction l; [easy|]. rewrite val_cons, IHl. easy. Qed.

Lemma be_bound l : Forall byte l -> 0 <= be_value l < 256 ^ Z.of_nat (length l).
Proof. intros H. rewrite <- val_be. apply val_bound; [lia|easy]. Qed.

Lemma pow256_pos n : 0 < 256 ^ Z.of_nat n.
Proof. apply Z.pow_pos_nonneg; lia. Qed.

Lemma flip_length l : length (FlipBytes l) = length l.
Proof. apply map_length. Qed.

Lemma flip_value l : Forall byte l -> be_value (FlipBytes l) = 256 ^ Z.of_nat (length l) - 1 - be_value l.
Proof.
  induction 1 as [|b l Hb Hl IH]; [easy|]. cbn [FlipBytes map be_value length].
  change (map (fun b => Z.lxor b 255) l) with (FlipBytes l).
  rewrite IH, flip_length, byte_flip, Nat2Z.inj_succ, Z.pow_succ_r by (easy || lia). lia.
Qed.

Lemma flip_bytes l : Forall byte l -> Forall byte (FlipBytes l).
Proof.
  induction 1 as [|b l Hb Hl IH]; [constructor|]. cbn. constructor; [|easy].
  rewrite byte_flip by easy. unfold byte in *. lia.
Qed.

Lemma Bytes_ok x : Forall byte (Bytes x).
Proof. apply (digits_digits_ok 256); lia. Qed.
Lemma Bytes_val x : be_value (Bytes x) = Z.abs x.
Proof. rewrite <- val_be. apply digits_val; lia. Qed.

(** length and leading byte of the minimal encoding *)
Lemma Bytes_shape x : 0 < x -> exists b l, Bytes x = b :: l /\ 0 < b < 256 /\ Forall byte l /\
  x = b * 256 ^ Z.of_nat (length l) + be_value l.
Proof.
  intros Hx. unfold Bytes. rewrite Z.abs_eq by lia.
  destruct (digits_head 256 x) as (d & l & E & Hd); try lia.
  pose proof (digits_digits_ok 256 x ltac:(lia) ltac:(lia)) as O. rewrite E in O.
  exists d, l. pose proof (Forall_inv O); pose proof (Forall_inv_tail O). cbn beta in *.
  split; [easy|]. split; [lia|]. split; [easy|].
  rewrite <- (digits_val 256 x) at 1 by lia. rewrite E, val_be. easy.
Qed.

Lemma Bytes_length x n : 256 ^ Z.of_nat n <= x < 256 ^ Z.of_nat (S n) -> length (Bytes x) = S n.
Proof.
  intros H. unfold Bytes. pose proof (pow256_pos n). rewrite Z.abs_eq by lia.
  apply digits_length; [lia|]. replace (Z.of_nat n + 1) with (Z.of_nat (S n)) by lia. easy.
Qed.

(** C02 *)
Lemma FromByteArray_spec l : Forall byte l ->
  FromByteArray l = match l with [] => Err | _ => Ok (twos_value l) end.
Proof.
  intros Hl. destruct l as [|b l]; [easy|].
  pose proof (Forall_inv Hl) as Hb; pose proof (Forall_inv_tail Hl) as Ht.
  unfold FromByteArray. rewrite byte_high by easy. unfold twos_value.
  destruct (Z.leb_spec 128 b) as [H|H]; [|unfold SetBytes; rewrite val_be; easy].
  pose proof (be_bound l Ht) as Bl. pose proof (pow256_pos (length l)) as Wp.
  set (n := length l) in *. set (W := 256 ^ Z.of_nat n) in *.
  assert (EV : SetBytes (b :: l) = b * W + be_value l) by (unfold SetBytes; rewrite val_be; easy).
  rewrite EV. set (V := b * W + be_value l) in *. unfold byte in Hb.
  assert (HV : 128 * W <= V < 256 * W) by nia.
  destruct (Bytes_shape (V - 1)) as (t0 & tl0 & ET & Ht0 & Otl & EVt); [nia|].
  assert (L : length (Bytes (V - 1)) = S n).
  { apply Bytes_length. rewrite Nat2Z.inj_succ, Z.pow_succ_r by lia. fold W. nia. }
  pose proof (Bytes_ok (V-1)) as O. rewrite ET in *. cbn [length] in L. injection L as L.
  rewrite L in EVt. fold W in EVt.
  assert (P : 256 ^ Z.of_nat (length (b :: l)) = 256 * W)
    by (cbn [length]; rewrite Nat2Z.inj_succ, Z.pow_succ_r by lia; easy).
  rewrite P. cbn [be_value length]. fold n. fold W.
  f_equal. unfold SetBytes. rewrite val_be.
  destruct (Z.eqb_spec t0 255) as [->|Hne].
  - cbn [FlipBytes map tl]. change (map (fun b0 => Z.lxor b0 255) tl0) with (FlipBytes tl0).
    rewrite flip_value, L by easy. fold W. fold V. nia.
  - rewrite flip_value by easy. cbn [length be_value]. rewrite L, Nat2Z.inj_succ, Z.pow_succ_r by lia.
    fold W. fold V. nia.
Qed.

(** what ToByteArray returns *)
Lemma ToByteArray_nonneg x : 0 <= x -> represents (ToByteArray x) x /\
  (x = 0 -> length (ToByteArray x) = 1%nat) /\
  (forall n, 0 < x -> 128 * 256 ^ Z.of_nat n <= x < 128 * 256 ^ Z.of_nat (S n) ->
      length (ToByteArray x) = S (S n)) /\
  (0 < x < 128 -> length (ToByteArray x) = 1%nat).
Proof.
  intros Hx. destruct (Z.eq_dec x 0) as [->|Hne].
  { split; [|split; [easy|split; [lia|lia]]]. repeat split; try easy. constructor; [|constructor].
    unfold byte; lia. }
  destruct (Bytes_shape x) as (b & l & E & Hb & Ol & V); [lia|].
  pose proof (be_bound l Ol) as Bl. pose proof (pow256_pos (length l)) as Wp.
  assert (Ob : Forall byte (b :: l)) by (constructor; unfold byte; [lia|easy]).
  unfold ToByteArray. rewrite E. destruct (Z.ltb_spec x 0); [lia|]. cbn [negb].
  rewrite byte_high by (unfold byte_ok; lia).
  destruct (Z.leb_spec 128 b) as [H1|H1].
  - split; [|split; [lia|split]].
    + repeat split; [constructor; [unfold byte; lia|easy]|easy|].
      unfold twos_value. cbn [Z.leb Z.compare be_value]. lia.
    + intros n _ Hn. cbn [length]. do 2 f_equal.
      rewrite Nat2Z.inj_succ, Z.pow_succ_r in Hn by lia.
      destruct (Nat.lt_trichotomy (length l) n) as [L|[L|L]]; auto; exfalso.
      * assert (256 ^ (Z.of_nat (length l) + 1) <= 256 ^ Z.of_nat n) by (apply Z.pow_le_mono_r; lia).
        rewrite Z.pow_add_r, Z.pow_1_r in H0 by lia. nia.
      * assert (256 ^ (Z.of_nat n + 1) <= 256 ^ Z.of_nat (length l)) by (apply Z.pow_le_mono_r; lia).
        rewrite Z.pow_add_r, Z.pow_1_r in H0 by lia. nia.
    + intros. exfalso. nia.
  - split; [|split; [lia|split]].
    + repeat split; [easy|easy|]. unfold twos_value. destruct (Z.leb_spec 128 b); [lia|]. cbn [be_value]. lia.
    + intros n _ Hn. cbn [length]. f_equal.
      rewrite Nat2Z.inj_succ, Z.pow_succ_r in Hn by lia.
      destruct (Nat.lt_trichotomy (length l) (S n)) as [L|[L|L]]; auto; exfalso.
      * assert (256 ^ (Z.of_nat (length l)) <= 256 ^ Z.of_nat n) by (apply Z.pow_le_mono_r; lia). nia.
      * assert (256 ^ (Z.of_nat n + 1 + 1) <= 256 ^ Z.of_nat (length l)) by (apply Z.pow_le_mono_r; lia).
        rewrite !Z.pow_add_r, !Z.pow_1_r in H0 by lia. nia.
    + intros Hs. cbn [length]. f_equal. destruct l as [|c l]; [easy|].
      exfalso. cbn [length] in V. rewrite Nat2Z.inj_succ, Z.pow_succ_r in V by lia.
      pose proof (pow256_pos (length l)). cbn [length] in Bl. nia.
Qed.

Lemma ToByteArray_neg m : 0 < m -> represents (ToByteArray (- m)) (- m) /\
  (forall n, 128 * 256 ^ Z.of_nat n <= m < 128 * 256 ^ Z.of_nat (S n) ->
      length (ToByteArray (- m)) = S (S n)) /\
  (m < 128 -> length (ToByteArray (-m)) = 1%nat).
Proof.
  intros Hm.
  destruct (Bytes_shape m) as (b & l & E & Hb & Ol & V); [lia|].
  pose proof (be_bound l Ol) as Bl. pose proof (pow256_pos (length l)) as Wp.
  assert (Ob : Forall byte (b :: l)) by (constructor; unfold byte; [lia|easy]).
  assert (E' : Bytes (- m) = b :: l) by (rewrite <- E; unfold Bytes; rewrite Z.abs_opp; easy).
  unfold ToByteArray. rewrite E'. destruct (Z.ltb_spec (-m) 0); [|lia]. cbn [negb].
  rewrite byte_high by (unfold byte_ok; lia).
  set (n0 := length l) in *. set (W := 256 ^ Z.of_nat n0) in *.
  assert (WS : 256 ^ Z.of_nat (S n0) = 256 * W) by (rewrite Nat2Z.inj_succ, Z.pow_succ_r by lia; easy).
  assert (WSS : 256 ^ Z.of_nat (S (S n0)) = 256 * (256 * W)) by (rewrite Nat2Z.inj_succ, Z.pow_succ_r, WS by lia; easy).
  assert (FV : be_value (FlipBytes (b :: l)) = 256 * W - 1 - m).
  { rewrite flip_value by easy. cbn [length be_value]. fold n0. rewrite WS. fold W. lia. }
  destruct (Z.leb_spec 128 b) as [H1|H1].
  - assert (SV : SetBytes (255 :: FlipBytes (b :: l)) + 1 = 256 * (256 * W) - m).
    { unfold SetBytes. rewrite val_be. cbn [be_value]. rewrite flip_length. cbn [length]. fold n0.
      rewrite WS. change (be_value (FlipBytes (b :: l))) with (be_value (FlipBytes (b :: l))). rewrite FV. lia. }
    rewrite SV.
    assert (L : length (Bytes (256 * (256 * W) - m)) = S (S n0)) by (apply Bytes_length; rewrite WS, WSS; nia).
    destruct (Bytes_shape (256 * (256 * W) - m)) as (c & k & EC & Hc & Ok' & VC); [nia|].
    pose proof (be_bound k Ok') as Bk. rewrite EC in *. cbn [length] in L. injection L as L.
    rewrite L, WS in *.
    split; [|split].
    + repeat split; [constructor; [unfold byte; lia|easy]|easy|].
      unfold twos_value. assert (c = 255) by nia. subst c. cbn [Z.leb Z.compare Pos.compare Pos.compare_cont].
      cbn [be_value length]. rewrite L, WSS, WS. lia.
    + intros n Hn. cbn [length]. rewrite L. do 2 f_equal.
      rewrite Nat2Z.inj_succ, Z.pow_succ_r in Hn by lia.
      destruct (Nat.lt_trichotomy n0 n) as [Q|[Q|Q]]; auto; exfalso.
      * assert (256 ^ (Z.of_nat n0 + 1) <= 256 ^ Z.of_nat n) by (apply Z.pow_le_mono_r; lia).
        rewrite Z.pow_add_r, Z.pow_1_r in H0 by lia. fold W in H0. nia.
      * assert (256 ^ (Z.of_nat n + 1) <= 256 ^ Z.of_nat n0) by (apply Z.pow_le_mono_r; lia).
        rewrite Z.pow_add_r, Z.pow_1_r in H0 by lia. fold W in H0. nia.
    + nia.
  - assert (SV : SetBytes (FlipBytes (b :: l)) + 1 = 256 * W - m).
    { unfold SetBytes. rewrite val_be, FV. lia. }
    rewrite SV.
    assert (L : length (Bytes (256 * W - m)) = S n0) by (apply Bytes_length; rewrite WS; nia).
    destruct (Bytes_shape (256 * W - m)) as (c & k & EC & Hc & Ok' & VC); [nia|].
    pose proof (be_bound k Ok') as Bk. rewrite EC in *. cbn [length] in L. injection L as L.
    rewrite L in *. fold W in VC, Bk.
    split; [|split].
    + repeat split; [constructor; [unfold byte; lia|easy]|easy|].
      unfold twos_value. assert (128 <= c) by nia. destruct (Z.leb_spec 128 c); [|lia].
      cbn [be_value length]. rewrite L, WS. fold W. lia.
    + intros n Hn. cbn [length]. rewrite L. f_equal.
      rewrite Nat2Z.inj_succ, Z.pow_succ_r in Hn by lia.
      destruct (Nat.lt_trichotomy n0 (S n)) as [Q|[Q|Q]]; auto; exfalso.
      * assert (256 ^ (Z.of_nat n0) <= 256 ^ Z.of_nat n) by (apply Z.pow_le_mono_r; lia). fold W in H0. nia.
      * assert (256 ^ (Z.of_nat n + 1 + 1) <= 256 ^ Z.of_nat n0) by (apply Z.pow_le_mono_r; lia).
        rewrite !Z.pow_add_r, !Z.pow_1_r in H0 by lia. fold W in H0. nia.
    + intros Hs. cbn [length]. rewrite L. f_equal.
      destruct n0 as [|n1]; [easy|]. exfalso. unfold W in V.
      rewrite Nat2Z.inj_succ, Z.pow_succ_r in V by lia. pose proof (pow256_pos n1). nia.
Qed.

Lemma ToByteArray_represents x : represents (ToByteArray x) x.
Proof.
  destruct (Z.le_gt_cases 0 x).
  - apply ToByteArray_nonneg; easy.
  - replace x with (- - x) by lia. apply ToByteArray_neg. lia.
Qed.

(** C01 *)
Lemma byte_codec_roundtrip x : FromByteArray (ToByteArray x) = Ok x.
Proof.
  destruct (ToByteArray_represents x) as (O & N & V). rewrite FromByteArray_spec by easy.
  destruct (ToByteArray x); [easy|]. rewrite V. easy.
Qed.

(** bounds of an n-byte two's-complement number *)
Lemma twos_range l : Forall byte l -> l <> [] ->
  - (128 * 256 ^ Z.of_nat (pred (length l))) <= twos_value l < 128 * 256 ^ Z.of_nat (pred (length l)).
Proof.
  destruct l as [|b l]; [easy|]. intros O _. pose proof (Forall_inv O) as Hb.
  pose proof (be_bound l (Forall_inv_tail O)). pose proof (pow256_pos (length l)). unfold byte in Hb.
  unfold twos_value. cbn [length pred be_value]. rewrite Nat2Z.inj_succ, Z.pow_succ_r by lia.
  destruct (Z.leb_spec 128 b); nia.
Qed.

Lemma magnitude m : 128 <= m -> exists n, 128 * 256 ^ Z.of_nat n <= m < 128 * 256 ^ Z.of_nat (S n).
Proof.
  intros Hm. assert (1 <= m / 128) by (apply Z.div_le_lower_bound; lia).
  destruct (digits_length_inv 256 (m / 128)) as (n & _ & Hn); [lia|lia|].
  exists n. rewrite Nat2Z.inj_succ. pose proof (Z.div_mod m 128 ltac:(lia)).
  pose proof (Z.mod_pos_bound m 128 ltac:(lia)). unfold Z.succ. lia.
Qed.

Lemma pow2_256 k : 2 ^ (8 * Z.of_nat k + 7) = 128 * 256 ^ Z.of_nat k.
Proof.
  rewrite Z.pow_add_r, Z.pow_mul_r by lia. change (2 ^ 8) with 256. change (2 ^ 7) with 128. lia.
Qed.

Lemma represents_len_lower l x n : represents l x -> 128 * 256 ^ Z.of_nat n <= x \/ x < - (128 * 256 ^ Z.of_nat n) ->
  (S (S n) <= length l)%nat.
Proof.
  intros (O & N & V) H. pose proof (twos_range l O N) as R. rewrite V in R.
  destruct (le_lt_dec (S (S n)) (length l)) as [|L]; [easy|]. exfalso.
  assert (256 ^ Z.of_nat (pred (length l)) <= 256 ^ Z.of_nat n) by (apply Z.pow_le_mono_r; lia). lia.
Qed.

Lemma power_case_short k : represents (128 :: repeat 0 k) (- (128 * 256 ^ Z.of_nat k)).
Proof.
  repeat split; [|easy|].
  - constructor; [unfold byte; lia|]. apply Forall_forall. intros y Hy. apply repeat_spec in Hy. subst. unfold byte; lia.
  - unfold twos_value. cbn [Z.leb Z.compare Pos.compare Pos.compare_cont be_value length].
    rewrite repeat_length, Nat2Z.inj_succ, Z.pow_succ_r by lia.
    rewrite <- val_be. rewrite <- (app_nil_r (repeat 0 k)), digits_zeros, val_nil. lia.
Qed.

(** C03 *)
Lemma ToByteArray_length_power k :
  length (ToByteArray (- 2 ^ (8 * Z.of_nat k + 7))) = S (S k).
Proof.
  rewrite pow2_256. pose proof (pow256_pos k). apply ToByteArray_neg; [lia|].
  rewrite Nat2Z.inj_succ, Z.pow_succ_r by lia. lia.
Qed.

Lemma minimal_iff x : shortest (ToByteArray x) x <-> ~ exists k : nat, x = - 2 ^ (8 * Z.of_nat k + 7).
Proof.
  split.
  - intros [_ S] [k ->]. pose proof (ToByteArray_length_power k) as L.
    specialize (S (128 :: repeat 0 k)). rewrite pow2_256 in *. specialize (S (power_case_short k)).
    rewrite L in S. cbn [length] in S. rewrite repeat_length in S. lia.
  - intros NP. split; [apply ToByteArray_represents|]. intros l' R.
    assert (L1 : (1 <= length l')%nat) by (destruct R as (_ & N & _); destruct l'; [easy|cbn; lia]).
    destruct (Z.le_gt_cases 0 x) as [Hx|Hx].
    + destruct (ToByteArray_nonneg x Hx) as (_ & A & B & C).
      destruct (Z.eq_dec x 0) as [->|Hx0]; [rewrite A; easy|].
      destruct (Z.lt_ge_cases x 128); [rewrite C; [easy|lia]|].
      destruct (magnitude x) as [n Hn]; [lia|]. rewrite (B n) by lia.
      apply (represents_len_lower l' x n R). lia.
    + destruct (ToByteArray_neg (- x)) as (_ & B & C); [lia|]. rewrite Z.opp_involutive in *.
      destruct (Z.lt_ge_cases (-x) 128); [rewrite C; [easy|lia]|].
      destruct (magnitude (-x)) as [n Hn]; [lia|]. rewrite (B n) by lia.
      apply (represents_len_lower l' x n R). right.
      assert (- x <> 128 * 256 ^ Z.of_nat n).
      { intros E. apply NP. exists n. rewrite pow2_256. lia. }
      lia.
Qed.

Lemma superfluous_byte k :
  length (ToByteArray (- 2 ^ (8 * Z.of_nat k + 7))) = S (S k) /\
  represents (128 :: repeat 0 k) (- 2 ^ (8 * Z.of_nat k + 7)) /\
  length (128 :: repeat 0 k) = S k.
Proof.
  split; [apply ToByteArray_length_power|]. rewrite pow2_256. split; [apply power_case_short|].
  cbn. rewrite repeat_length. easy.
Qed.

(** ** C04: decimal parsing *)
Lemma is_digit_spec c : is_digit c = true <-> 48 <= c <= 57.
Proof. unfold is_digit. rewrite andb_true_iff, !Z.leb_le. lia. Qed.

Lemma forallb_digits l : forallb is_digit l = true <-> ascii_digits l.
Proof.
  unfold ascii_digits. rewrite Forall_forall, forallb_forall. split; intros H c Hc; apply is_digit_spec, H; easy.
Qed.

Lemma valid_from_S n l : valid_from (S n) l = forallb is_digit l.
Proof. revert n; induction l; intros n; cbn; [easy|]. rewrite IHl, orb_false_r. easy. Qed.

Lemma valid_field l : valid_from 0 l = true <-> field_ok l.
Proof.
  unfold field_ok. destruct l as [|c l]; cbn [valid_from].
  - split; [|easy]. intros _. left. constructor.
  - rewrite valid_from_S, andb_true_iff, orb_true_iff, forallb_digits. cbn [Nat.eqb andb].
    rewrite is_digit_spec, Z.eqb_eq. split.
    + intros [[D|E] F]; [left; constructor; auto|right]. subst. eauto.
    + intros [D|(t & E & F)].
      * split; [left; apply (Forall_inv D)|apply (Forall_inv_tail D)].
      * injection E as -> ->. auto.
Qed.

Lemma dec_val l : val 10 (map (fun c => c - 48) l) = dec_value l.
Proof. induction l; [easy|]. cbn [map dec_value]. rewrite val_cons, IHl, map_length. easy. Qed.

Lemma Convert_digits l : ascii_digits l -> ConvertToBigInt l = Ok (dec_value l).
Proof.
  intros D. unfold ConvertToBigInt. assert (V : valid_from 0 l = true) by (apply valid_field; left; easy).
  rewrite V. destruct l as [|c l]; [easy|]. unfold SetString10.
  pose proof (Forall_inv D) as Hc. cbn beta in Hc.
  destruct (Z.eqb_spec c 45); [lia|]. destruct (Z.eqb_spec c 43); [lia|].
  apply forallb_digits in D. rewrite D. cbv zeta iota. rewrite dec_val. easy.
Qed.

Lemma Convert_minus l : ascii_digits l -> ConvertToBigInt (45 :: l) = Ok (- dec_value l).
Proof.
  intros D. unfold ConvertToBigInt. assert (V : valid_from 0 (45 :: l) = true) by (apply valid_field; right; eauto).
  rewrite V. unfold SetString10. cbn [Z.eqb Pos.eqb]. destruct l as [|c l]; [easy|].
  apply forallb_digits in D. rewrite D. cbv iota. rewrite dec_val. easy.
Qed.

Lemma Convert_err l : ConvertToBigInt l = Err <-> ~ field_ok l.
Proof.
  rewrite <- valid_field. unfold ConvertToBigInt. destruct (valid_from 0 l).
  - split; [|easy]. destruct (SetString10 l); easy.
  - split; easy.
Qed.

(** fields of a byte string *)
Lemma parse_loop_field f rest cur out : ~ In 44 f ->
  parse_loop (f ++ rest) cur out = parse_loop rest (rev f ++ cur) out.
Proof.
  revert cur. induction f as [|c f IH]; intros cur Hn; [easy|]. cbn [app parse_loop].
  destruct (Z.eqb_spec c 44); [exfalso; apply Hn; left; easy|].
  rewrite IH by (intros H; apply Hn; right; easy). cbn [rev]. rewrite <- app_assoc. easy.
Qed.

Fixpoint convert_all (fs : list (list Z)) : res (list Z) :=
  match fs with
  | [] => Ok []
  | f :: r => bind (ConvertToBigInt f) (fun v => bind (convert_all r) (fun vs => Ok (v :: vs)))
  end.

Lemma convert_not_panic f : ConvertToBigInt f <> Panic.
Proof. unfold ConvertToBigInt. destruct (valid_from 0 f); [destruct (SetString10 f)|]; easy. Qed.

Lemma ParseInput_join_aux fs out : fs <> [] -> Forall (fun f => ~ In 44 f) fs ->
  parse_loop (join fs) [] out = bind (convert_all fs) (fun vs => Ok (out ++ vs)).
Proof.
  revert out. induction fs as [|f fs IH]; intros out Hne Hf; [easy|].
  pose proof (Forall_inv Hf) as H1. pose proof (Forall_inv_tail Hf) as H2. cbn beta in H1.
  destruct fs as [|g fs].
  - cbn [join]. rewrite <- (app_nil_r f) at 1. rewrite parse_loop_field by easy.
    rewrite app_nil_r. cbn [parse_loop convert_all]. rewrite rev_involutive.
    destruct (ConvertToBigInt f); easy.
  - change (join (f :: g :: fs)) with (f ++ 44 :: join (g :: fs)).
    rewrite parse_loop_field by easy. cbn [parse_loop]. rewrite Z.eqb_refl, app_nil_r, rev_involutive.
    cbn [convert_all]. destruct (ConvertToBigInt f); cbn [bind]; try easy.
    rewrite IH by easy. cbn [convert_all].
    destruct (ConvertToBigInt g); cbn [bind]; try easy. destruct (convert_all fs); cbn [bind]; try easy.
    rewrite <- app_assoc. easy.
Qed.

Lemma ParseInput_join fs : fs <> [] -> Forall (fun f => ~ In 44 f) fs ->
  ParseInput (join fs) = convert_all fs.
Proof.
  intros. unfold ParseInput. rewrite ParseInput_join_aux by easy.
  destruct (convert_all fs); easy.
Qed.

(** every byte string is a comma-separated list of fields, in one way *)
Lemma join_split l : exists fs, fs <> [] /\ Forall (fun f => ~ In 44 f) fs /\ join fs = l.
Proof.
  induction l as [|c l (fs & N & F & E)].
  - exists [[]]. repeat split; try easy. constructor; [intros []|constructor].
  - destruct fs as [|f fs]; [easy|]. pose proof (Forall_inv F) as F1. pose proof (Forall_inv_tail F) as F2.
    destruct (Z.eq_dec c 44) as [->|Hc].
    + exists ([] :: f :: fs). split; [easy|]. split; [constructor; [intros []|easy]|].
      change (44 :: join (f :: fs) = 44 :: l). congruence.
    + exists ((c :: f) :: fs). split; [easy|]. split.
      * constructor; [|easy]. intros [->|H]; [easy|]. apply F1. easy.
      * rewrite <- E. destruct fs; reflexivity.
Qed.

Lemma convert_all_ok fs : (exists vs, convert_all fs = Ok vs) <-> Forall field_ok fs.
Proof.
  induction fs as [|f fs IH]; cbn [convert_all].
  - split; [constructor|eauto].
  - split.
    + intros [vs H]. destruct (ConvertToBigInt f) eqn:E; cbn [bind] in H; try easy.
      destruct (convert_all fs) eqn:E2; cbn [bind] in H; try easy.
      constructor; [|apply IH; eauto].
      apply valid_field. unfold ConvertToBigInt in E. destruct (valid_from 0 f); easy.
    + intros H. pose proof (Forall_inv H) as H1. apply Forall_inv_tail in H. apply IH in H as [vs ->].
      apply valid_field in H1. unfold ConvertToBigInt. rewrite H1.
      destruct (SetString10 f); cbn; eauto.
Qed.

Lemma convert_all_not_panic fs : convert_all fs <> Panic.
Proof.
  induction fs as [|f fs IH]; cbn [convert_all]; [easy|].
  pose proof (convert_not_panic f). destruct (ConvertToBigInt f); cbn [bind]; try easy.
  destruct (convert_all fs); easy.
Qed.

Lemma ParseInput_err fs : fs <> [] -> Forall (fun f => ~ In 44 f) fs ->
  (ParseInput (join fs) = Err <-> Exists (fun f => ~ field_ok f) fs).
Proof.
  intros N F. rewrite ParseInput_join by easy.
  rewrite Exists_exists. split.
  - intros E. destruct (Forall_Exists_dec field_ok) with (l := fs) as [A|A].
    + intros f. destruct (valid_from 0 f) eqn:V; [left; apply valid_field; easy|right; rewrite <- valid_field, V; easy].
    + apply convert_all_ok in A as [vs A]. congruence.
    + apply Exists_exists in A. easy.
  - intros (f & I & B). pose proof (convert_all_not_panic fs).
    destruct (convert_all fs) eqn:E; try easy. exfalso. apply B.
    assert (A : Forall field_ok fs) by (apply convert_all_ok; eauto).
    rewrite Forall_forall in A. auto.
Qed.

Lemma big_String_no_comma x : ~ In 44 (big_String x).
Proof.
  assert (A : forall l, digits_ok 10 l -> ~ In 44 (map ascii_digit l)).
  { induction 1; [intros []|]. cbn. intros [E|E]; [unfold ascii_digit in E; lia|easy]. }
  unfold big_String. destruct (Z.eqb_spec x 0); [cbn; lia|].
  destruct (Z.ltb_spec x 0).
  - intros [E|E]; [lia|]. revert E. apply A. apply digits_digits_ok; lia.
  - apply A. apply digits_digits_ok; lia.
Qed.

Lemma Convert_String x : ConvertToBigInt (big_String x) = Ok x.
Proof.
  unfold ConvertToBigInt. rewrite SetString10_String.
  assert (V : valid_from 0 (big_String x) = true); [|rewrite V; easy].
  apply valid_field. unfold big_String. destruct (Z.eqb_spec x 0); [left; repeat constructor; lia|].
  destruct (Z.ltb_spec x 0).
  - right. eexists. split; [reflexivity|]. apply forallb_digits, digit_is_digit, digits_digits_ok; lia.
  - left. apply forallb_digits, digit_is_digit, digits_digits_ok; lia.
Qed.

Lemma ParseInput_roundtrip xs : xs <> [] -> ParseInput (join (map big_String xs)) = Ok xs.
Proof.
  intros H. rewrite ParseInput_join.
  - clear H. induction xs as [|x xs IH]; [easy|]. cbn [map convert_all].
    rewrite Convert_String, IH. easy.
  - destruct xs; easy.
  - apply Forall_forall. intros f I. apply in_map_iff in I as (x & <- & _). apply big_String_no_comma.
Qed.

(** ** C05 *)
Lemma Decompose_length x u l : length (Decompose x u l) = l.
Proof. unfold Decompose. revert x; induction l; intros; cbn; [easy|]. rewrite IHl. easy. Qed.

Lemma Decompose_digits x u l : 0 < u -> Forall (fun d => 0 <= d < u) (Decompose x u l).
Proof.
  intros Hu. unfold Decompose. revert x; induction l; intros; cbn; constructor; auto.
  apply Z.mod_pos_bound. lia.
Qed.

Lemma Decompose_value x u l : 0 < u -> le_value u (Decompose x u l) = x mod u ^ Z.of_nat l.
Proof.
  intros Hu. unfold Decompose. revert x; induction l as [|l IH]; intros x; cbn [Decompose_loop le_value].
  - cbn. rewrite Z.mod_1_r. easy.
  - rewrite IH, Nat2Z.inj_succ, Z.pow_succ_r by lia. unfold bmod, bdiv.
    rewrite Z.rem_mul_r; [easy|lia|]. apply Z.pow_pos_nonneg; lia.
Qed.

Lemma Decompose_exact x u l : 0 < u ->
  (le_value u (Decompose x u l) = x <-> 0 <= x < u ^ Z.of_nat l).
Proof.
  intros Hu. rewrite Decompose_value by easy. pose proof (Z.pow_pos_nonneg u (Z.of_nat l) Hu ltac:(lia)).
  split; intros E.
  - rewrite <- E. apply Z.mod_pos_bound. easy.
  - apply Z.mod_small. easy.
Qed.

(** ** C06 *)
Lemma ModPow_nonneg b e m : 1 <= m -> 0 <= e -> ModPow b e m = Some (b ^ e mod m).
Proof.
  intros Hm He. unfold ModPow. destruct (Z.leb_spec 0 e); [|lia]. f_equal.
  apply Zpow_mod_correct. lia.
Qed.

Lemma ModPow_neg b e m : 1 < m -> e < 0 -> Z.gcd b m = 1 ->
  exists r, ModPow b e m = Some r /\ 0 <= r < m /\ (r * b ^ (- e)) mod m = 1.
Proof.
  intros Hm He Hg. unfold ModPow. destruct (Z.leb_spec 0 e); [lia|].
  unfold Exp. rewrite Zpow_mod_correct by lia. rewrite Z.abs_neq by lia.
  assert (G : Z.gcd (b ^ (- e) mod m) m = 1).
  { rewrite Z.gcd_mod by lia. rewrite Z.gcd_comm. apply Zgcd_1_rel_prime. apply rel_prime_sym. 
    apply rel_prime_Zpower_r; [lia|]. apply rel_prime_sym. apply Zgcd_1_rel_prime. easy. }
  destruct (ModInverse_Some _ m Hm G) as (r & E & R & I). exists r. split; [easy|]. split; [easy|].
  rewrite Z.mul_mod_idemp_r in I by lia. easy.
Qed.

Lemma ModPow_nil b e m : 1 < m -> e < 0 -> Z.gcd b m <> 1 -> ModPow b e m = None.
Proof.
  intros Hm He Hg. unfold ModPow. destruct (Z.leb_spec 0 e); [lia|].
  unfold Exp. rewrite Zpow_mod_correct by lia. rewrite Z.abs_neq by lia.
  apply ModInverse_None; [easy|]. rewrite Z.gcd_mod by lia. intros G. apply Hg.
  rewrite Z.gcd_comm in G. 
  pose proof (Z.gcd_divide_l b m) as D1. pose proof (Z.gcd_divide_r b m) as D2.
  assert (D3 : (Z.gcd b m | b ^ (- e))).
  { replace (- e) with (1 + (- e - 1)) by lia. rewrite Z.pow_add_r, Z.pow_1_r by lia.
    apply Z.divide_mul_l. easy. }
  pose proof (Z.gcd_greatest _ _ _ D3 D2) as D. rewrite G in D.
  apply Z.divide_1_r_nonneg in D; [easy|]. apply Z.gcd_nonneg.
Qed.

(** ** C07 *)
Lemma ToByteArray_inj x y : ToByteArray x = ToByteArray y -> x = y.
Proof.
  intros H. pose proof (byte_codec_roundtrip x) as A. rewrite H, byte_codec_roundtrip in A. congruence.
Qed.

Lemma hash_single_inj x y : CalculateHash_input x None = CalculateHash_input y None -> x = y.
Proof. unfold CalculateHash_input. rewrite !app_nil_r. apply ToByteArray_inj. Qed.
