(** * Proofs of C18-C22, C29, C30 *)
From Coq Require Import ZArith Znumtheory List Bool Lia.
From Verif Require Import Base BaseFacts ByteConv Util SpecCodec CodecProofs SpecCurve P256 Pedersen SpecSecp SecpMain SecpLaws Vector Bulletproofs SpecBP VecProofs BpLaws BpMore.
Import ListNotations.
Open Scope Z_scope.
Local Opaque secp_P secp_N secp_Gx secp_Gy ORDER value valid Multiply ScalarMult ScalarBaseMult Add Neg CommitG1 ModInverse HashBP IsZero gadd gmul gen MapToGroup.

(** ** C19 *)
Lemma wrap64_small x : int64 x -> wrap64 x = x.
Proof. unfold int64, wrap64. intros H. rewrite Z.mod_small by lia. lia. Qed.
Lemma land_pow2 x : 0 < x -> (Z.land x (x - 1) = 0 <-> exists k, 0 <= k /\ x = 2 ^ k).
Proof.
  intros Hx. split.
  - intros H. exists (Z.log2 x). pose proof (Z.log2_nonneg x). split; [easy|].
    pose proof (Z.log2_spec x Hx) as [L1 L2].
    destruct (Z.eq_dec x (2 ^ Z.log2 x)) as [E|E]; [easy|exfalso].
    assert (B : Z.testbit (Z.land x (x - 1)) (Z.log2 x) = true).
    { rewrite Z.land_spec, Z.bit_log2 by easy.
      assert (L : Z.log2 (x - 1) = Z.log2 x) by (apply Z.log2_unique; [easy|lia]).
      rewrite <- L at 1. cbn [andb]. apply Z.bit_log2.
      pose proof (Z.pow_pos_nonneg 2 (Z.log2 x) ltac:(lia) ltac:(easy)). lia. }
    rewrite H, Z.testbit_0_l in B. easy.
  - intros (k & Hk & ->). replace (2 ^ k - 1) with (Z.ones k) by (rewrite Z.ones_equiv; lia).
    rewrite Z.land_ones by easy. apply Z_mod_same_full.
Qed.
Lemma pow2_bound k : 0 <= k -> 2 ^ k < 2 ^ 63 -> k <= 62.
Proof. intros Hk H. destruct (Z.le_gt_cases k 62); [easy|]. pose proof (Z.pow_le_mono_r 2 63 k ltac:(lia) ltac:(lia)). lia. Qed.
Lemma IsPowerOfTwo_iff x : int64 x ->
  (IsPowerOfTwo x = true <-> (exists k, 0 <= k <= 62 /\ x = 2 ^ k) \/ x = - 2 ^ 63).
Proof.
  intros Hx. unfold IsPowerOfTwo. destruct (Z.eqb_spec x 0) as [->|H0].
  { cbn. split; [easy|]. intros [(k & Hk & E)|E]; [|lia]. pose proof (Z.pow_pos_nonneg 2 k). lia. }
  cbn [negb andb]. rewrite Z.eqb_eq. destruct (Z.eq_dec x (- 2 ^ 63)) as [->|Hm].
  { split; [now right|intros _; reflexivity]. }
  rewrite wrap64_small by (unfold int64 in *; lia). destruct (Z.lt_ge_cases 0 x) as [Hp|Hn].
  - rewrite land_pow2 by easy. split.
    + intros (k & Hk & ->). left. exists k. split; [|easy]. split; [easy|]. apply pow2_bound; [easy|]. unfold int64 in Hx. lia.
    + intros [(k & Hk & ->)|E]; [|easy]. exists k. split; [lia|easy].
  - split.
    + intros H. assert (N : Z.land x (x - 1) < 0) by (apply Z.land_neg; lia). lia.
    + intros [(k & Hk & ->)|E]; [|easy]. pose proof (Z.pow_pos_nonneg 2 k). lia.
Qed.

(** ** C20 *)
Definition range_ends : list Z := [2; 4; 16; 256; 65536; 4294967296].
Lemma generators_ok sha tag n : h2p_ok sha -> forall i, exists l, generators sha tag n i = Ok l /\ length l = n /\ all_valid l.
Proof.
  intros H. induction n as [|n IH]; intros i; cbn [generators]; [exists []; repeat split; constructor|].
  destruct (H (SEEDH ++ tag ++ string_of i)) as (p & E). rewrite E. cbn [must ign_ptr bind deref].
  destruct (IH (i + 1)) as (l & E2 & L & V). rewrite E2. cbn [bind]. exists (p :: l). repeat split; [cbn; now rewrite L|].
  constructor; [|easy]. now destruct (MapToGroup_valid E) as (x & y & _ & _ & V').
Qed.
Lemma gen_params sha E b N : h2p_ok sha -> IsPowerOfTwo b = true -> log2_int64 b = N -> IsPowerOfTwo N = true ->
  0 <= N <= 32 -> exists ps, Setup E sha b = Ok ps /\ params_wf ps (Z.to_nat N) /\ sp_G ps = ScalarBaseMult E 1 /\
    value (sp_H ps) <> None /\ MapToGroup sha SEEDH = Ok (sp_H ps) /\
    generators sha tag_g (Z.to_nat N) 0 = Ok (sp_Gg ps) /\ generators sha tag_h (Z.to_nat N) 0 = Ok (sp_Hh ps).
Proof.
  intros H Pb EN PN R. unfold Setup. rewrite Pb, EN. cbn [negb]. destruct (H SEEDH) as (pH & EH). rewrite EH. cbn [must ign_ptr bind deref].
  rewrite PN. cbn [negb]. destruct (Z.ltb_spec 32 N); [lia|]. destruct (Z.ltb_spec N 0); [lia|].
  destruct (generators_ok sha tag_g (Z.to_nat N) H 0) as (g & Eg & Lg & Vg).
  destruct (generators_ok sha tag_h (Z.to_nat N) H 0) as (h & Eh & Lh & Vh). rewrite Eg. cbn [bind]. rewrite Eh. cbn [bind].
  eexists. split; [reflexivity|]. destruct (MapToGroup_valid EH) as (x & y & Ex & Ev & V').
  split; [|cbn; split; [easy|]; split; [|easy]].
  - repeat split; cbn; try easy. rewrite Z2Nat.id; lia.
  - rewrite Ev, Ex. easy.
Qed.
Lemma Setup_ok E sha b : h2p_ok sha -> In b range_ends ->
  exists ps, Setup E sha b = Ok ps /\ params_wf ps (Z.to_nat (Z.log2 b)) /\ sp_G ps = ScalarBaseMult E 1 /\
    value (sp_H ps) <> None /\ MapToGroup sha SEEDH = Ok (sp_H ps) /\
    generators sha tag_g (Z.to_nat (Z.log2 b)) 0 = Ok (sp_Gg ps) /\ generators sha tag_h (Z.to_nat (Z.log2 b)) 0 = Ok (sp_Hh ps).
Proof.
  intros H I. cbn [range_ends In] in I. apply gen_params; [easy|..];
  repeat (destruct I as [<-|I]; [vm_compute; try split; easy|]); easy.
Qed.
Lemma Setup_min E sha : h2p_ok sha -> Setup E sha (- 2 ^ 63) = Panic.
Proof.
  intros H. unfold Setup. destruct (H SEEDH) as (pH & EH). rewrite EH. reflexivity.
Qed.
Lemma small_pow2 k : 0 <= k <= 62 -> IsPowerOfTwo k = true -> k <= 32 -> In (2 ^ k) range_ends.
Proof.
  intros Hk P L. apply IsPowerOfTwo_iff in P; [|unfold int64; lia]. destruct P as [(j & Hj & E)|E]; [|lia].
  assert (j <= 5). { destruct (Z.le_gt_cases j 5); [easy|]. pose proof (Z.pow_le_mono_r 2 6 j ltac:(lia) ltac:(lia)). cbn in H0. lia. }
  assert (j = 0 \/ j = 1 \/ j = 2 \/ j = 3 \/ j = 4 \/ j = 5) as C by lia.
  repeat (destruct C as [->|C]; [subst k; vm_compute; tauto|]). subst j k. vm_compute. tauto.
Qed.
Lemma Setup_err E sha b : h2p_ok sha -> int64 b -> ~ In b range_ends -> b <> - 2 ^ 63 -> Setup E sha b = Err.
Proof.
  intros H Hb NI Nm. unfold Setup. destruct (IsPowerOfTwo b) eqn:P; [|easy]. cbn [negb].
  apply IsPowerOfTwo_iff in P; [|easy]. destruct P as [(k & Hk & ->)|E']; [|easy].
  destruct (H SEEDH) as (pH & EH). rewrite EH. cbn [must ign_ptr bind deref].
  unfold log2_int64. pose proof (Z.pow_pos_nonneg 2 k ltac:(lia) ltac:(lia)). destruct (Z.ltb_spec (2 ^ k) 0); [lia|].
  rewrite Z.log2_pow2 by lia. destruct (IsPowerOfTwo k) eqn:Pk; [|easy]. cbn [negb].
  destruct (Z.ltb_spec 32 k); [easy|]. exfalso. apply NI. now apply small_pow2.
Qed.
Lemma Setup_iff E sha b : h2p_ok sha -> int64 b -> ((exists ps, Setup E sha b = Ok ps) <-> In b range_ends).
Proof.
  intros H Hb. split.
  - intros (ps & Eq). destruct (in_dec Z.eq_dec b range_ends); [easy|]. destruct (Z.eq_dec b (- 2 ^ 63)) as [->|n0].
    + rewrite Setup_min in Eq by easy. easy.
    + rewrite Setup_err in Eq; easy.
  - intros I. destruct (Setup_ok E sha b H I) as (ps & Eq & _). now exists ps.
Qed.

(** ** C22 *)
Lemma big_String_chars x c : In c (big_String x) -> c = 45 \/ 48 <= c <= 57.
Proof.
  assert (A : forall l, digits_ok 10 l -> In c (map ascii_digit l) -> c = 45 \/ 48 <= c <= 57).
  { induction 1; [intros []|]. cbn. intros [E|E]; [unfold ascii_digit in E; lia|auto]. }
  unfold big_String. destruct (Z.eqb_spec x 0); [cbn; lia|]. destruct (Z.ltb_spec x 0).
  - intros [E|E]; [lia|]. revert E. apply A. apply digits_digits_ok; lia.
  - apply A. apply digits_digits_ok; lia.
Qed.
Lemma split_at (c : Z) a : forall b r s, ~ In c a -> ~ In c b -> a ++ c :: r = b ++ c :: s -> a = b /\ r = s.
Proof.
  induction a as [|x a IH]; intros [|y b] r s Na Nb H; cbn in H.
  - injection H as ->. easy.
  - injection H as -> _. exfalso. apply Nb. now left.
  - injection H as -> _. exfalso. apply Na. now left.
  - injection H as -> H. destruct (IH b r s (fun I => Na (or_intror I)) (fun I => Nb (or_intror I)) H) as [-> ->]. easy.
Qed.
Lemma X_String_chars p c : In c (X_String p) -> c <> 44 /\ c <> 41.
Proof. destruct p as [[x y]|]; cbn [X_String]; [intros H; apply big_String_chars in H; lia|cbn; lia]. Qed.
Lemma Y_String_chars p c : In c (Y_String p) -> c <> 44 /\ c <> 41.
Proof. destruct p as [[x y]|]; cbn [Y_String]; [intros H; apply big_String_chars in H; lia|cbn; lia]. Qed.
Lemma nil_neq x : big_String x <> nil_String.
Proof. intros E. assert (H : In 60 (big_String x)) by (rewrite E; cbn; lia). apply big_String_chars in H. lia. Qed.
Lemma P256_String_inj p q r s : P256_String p ++ r = P256_String q ++ s -> p = q /\ r = s.
Proof.
  unfold P256_String. rewrite <- !app_assoc. intros H. apply app_inv_head in H.
  change ([44] ++ ?l) with (44 :: l) in H. change ([41] ++ ?l) with (41 :: l) in H.
  apply split_at in H as [EX H]; [|intros I; apply X_String_chars in I; lia..].
  apply split_at in H as [EY H]; [|intros I; apply Y_String_chars in I; lia..].
  split; [|easy]. destruct p as [[x1 y1]|], q as [[x2 y2]|]; cbn [X_String Y_String] in EX, EY.
  - apply big_String_inj in EX, EY. now subst.
  - now apply nil_neq in EX.
  - symmetry in EX. now apply nil_neq in EX.
  - easy.
Qed.
Local Opaque P256_String.
Lemma hashIP_gens_inj n : forall g h g' h' l l' r s,
  length g = n -> length h = n -> length g' = n -> length h' = n ->
  hashIP_gens g h n = Ok l -> hashIP_gens g' h' n = Ok l' -> l ++ r = l' ++ s -> g = g' /\ h = h' /\ r = s.
Proof.
  induction n as [|n IH]; intros [|x g] [|y h] [|x' g'] [|y' h'] l l' r s; try discriminate; cbn [hashIP_gens].
  - intros _ _ _ _ [= <-] [= <-]. cbn. easy.
  - intros [= L1] [= L2] [= L3] [= L4]. destruct (hashIP_gens g h n) as [m| |] eqn:E1; [|easy..].
    destruct (hashIP_gens g' h' n) as [m'| |] eqn:E2; [|easy..]. cbn [bind]. intros H1 H2 H. assert (El : l = P256_String x ++ P256_String y ++ m) by congruence.
    assert (El' : l' = P256_String x' ++ P256_String y' ++ m') by congruence. subst l l'.
    rewrite <- !app_assoc in H. apply P256_String_inj in H as [-> H]. apply P256_String_inj in H as [-> H].
    destruct (IH _ _ _ _ _ _ _ _ L1 L2 L3 L4 E1 E2 H) as (-> & -> & ->). easy.
Qed.
Lemma hashIP_input_inj g h P c g' h' P' c' n i :
  length g = n -> length h = n -> length g' = n -> length h' = n ->
  hashIP_input g h P c (Z.of_nat n) = Ok i -> hashIP_input g' h' P' c' (Z.of_nat n) = Ok i ->
  g = g' /\ h = h' /\ P = P' /\ c = c'.
Proof.
  intros L1 L2 L3 L4. unfold hashIP_input. rewrite Nat2Z.id.
  destruct (hashIP_gens g h n) as [m| |] eqn:E1; [|easy..].
  destruct (hashIP_gens g' h' n) as [m'| |] eqn:E2; [|easy..]. cbn [bind]. intros H1 H2.
  assert (H : P256_String P ++ m ++ big_String c = P256_String P' ++ m' ++ big_String c') by congruence.
  apply P256_String_inj in H as [-> H].
  destruct (hashIP_gens_inj _ _ _ _ _ _ _ _ _ L1 L2 L3 L4 E1 E2 H) as (-> & -> & E). apply big_String_inj in E. now subst.
Qed.
Lemma HashBP_ambiguous : exists A S A' S', (A, S) <> (A', S') /\ forall sha, HashBP sha A S = HashBP sha A' S'.
Proof.
  exists (Some (1, 23)), (Some (4, 5)), (Some (12, 3)), (Some (4, 5)). split; [easy|]. intros sha.
  Local Transparent HashBP. unfold HashBP. assert (E : HashBP_buffer (Some (1, 23)) (Some (4, 5)) = HashBP_buffer (Some (12, 3)) (Some (4, 5))) by reflexivity.
  now rewrite E.
Qed.
Local Opaque HashBP.

(** ** C29, C30 *)
Section G.
Variable E : ext.
Hypothesis hE : ext_ok E.
Variable sha : list Z -> list Z.

Lemma params32 : h2p_ok sha -> forall ps, Setup E sha MAX_RANGE_END = Ok ps -> params_wf ps (Nat.pow 2 5).
Proof.
  intros H ps Eq. destruct (Setup_ok E sha MAX_RANGE_END H ltac:(cbn; tauto)) as (ps' & E' & W & _). rewrite Eq in E'.
  injection E' as <-. exact W.
Qed.
Lemma Z32 : 2 ^ Z.of_nat (Nat.pow 2 5) = 2 ^ 32. Proof. reflexivity. Qed.
Lemma N_big : 2 ^ 255 < secp_N. Proof. Local Transparent secp_N. reflexivity. Qed.
Local Opaque secp_N.

Lemma generic_exact A B secret t1 t2 params pr : h2p_ok sha -> SetupGeneric E sha A B = Ok params ->
  tape_ok t1 32 -> tape_ok t2 32 ->
  ProveGeneric E sha secret params t1 t2 = Ok pr ->
  nondegenerate sha (gpr_P1 pr) -> nondegenerate sha (gpr_P2 pr) ->
  fst (HashBP sha (bp_A (gpr_P1 pr)) (bp_S (gpr_P1 pr))) mod secp_N <> 0 ->
  fst (HashBP sha (bp_A (gpr_P2 pr)) (bp_S (gpr_P2 pr))) mod secp_N <> 0 ->
  int64 A -> int64 B -> - 2 ^ 254 <= secret <= 2 ^ 254 ->
  exists b pr', VerifyGeneric E sha pr = Ok (b, pr') /\
   (b = true <-> (B - 2 ^ 32 <= secret < B /\ A <= secret < A + 2 ^ 32)).
Proof.
  intros H. unfold SetupGeneric. destruct (Setup E sha MAX_RANGE_END) as [ps| |] eqn:ES; cbn [bind]; [|easy..].
  intros [= <-] K1 K2. unfold ProveGeneric. cbn [gp_A gp_B gp_BP1 gp_BP2].
  destruct (Prove E sha (secret - B + MAX_RANGE_END) ps t1) as [P1| |] eqn:E1; cbn [bind]; [|easy..].
  destruct (Prove E sha (secret - A) ps t2) as [P2| |] eqn:E2; cbn [bind]; [|easy..].
  intros [= <-]. cbn [gpr_P1 gpr_P2]. intros D1 D2 Z1 Z2 IA IB IS. pose proof (params32 H ps ES) as W.
  pose proof N_big as NB. unfold int64 in *. unfold MAX_RANGE_END in E1.
  assert (K : 2 ^ 64 < 2 ^ 253 /\ 2 ^ 253 * 4 = 2 ^ 255 /\ 2 ^ 254 = 2 * 2 ^ 253 /\ 2 ^ 63 * 2 = 2 ^ 64 /\ 2 ^ 32 < 2 ^ 63 /\ 2 ^ 32 = 4294967296)
    by (repeat split; reflexivity).
  destruct (@honest_window E hE sha 5 ps (secret - B + 4294967296) t1 P1 W K1 E1 D1 Z1) as (b1 & pr1 & V1 & Eb1); [rewrite Z32; lia|].
  destruct (@honest_window E hE sha 5 ps (secret - A) t2 P2 W K2 E2 D2 Z2) as (b2 & pr2 & V2 & Eb2); [rewrite Z32; lia|].
  rewrite Z32 in Eb1, Eb2. unfold VerifyGeneric. cbn [gpr_P1 gpr_P2]. rewrite V1. cbn [bind].
  destruct b1; cbn [negb].
  - rewrite V2. cbn [bind]. do 2 eexists. split; [reflexivity|]. cbn [andb]. rewrite Eb2.
    destruct Eb1 as [Eb1 _]. specialize (Eb1 eq_refl). lia.
  - do 2 eexists. split; [reflexivity|]. split; [easy|]. intros X. apply Eb1. lia.
Qed.
Lemma generic_interval A B secret t1 t2 params pr : h2p_ok sha -> SetupGeneric E sha A B = Ok params ->
  tape_ok t1 32 -> tape_ok t2 32 ->
  ProveGeneric E sha secret params t1 t2 = Ok pr ->
  nondegenerate sha (gpr_P1 pr) -> nondegenerate sha (gpr_P2 pr) ->
  fst (HashBP sha (bp_A (gpr_P1 pr)) (bp_S (gpr_P1 pr))) mod secp_N <> 0 ->
  fst (HashBP sha (bp_A (gpr_P2 pr)) (bp_S (gpr_P2 pr))) mod secp_N <> 0 ->
  int64 A -> int64 B -> - 2 ^ 254 <= secret <= 2 ^ 254 -> B - A <= 2 ^ 32 ->
  exists b pr', VerifyGeneric E sha pr = Ok (b, pr') /\ (b = true <-> A <= secret < B).
Proof.
  intros H1 H2 H3 H4 H5 H6 H7 H8 H9 HA HB Hs Hd.
  destruct (generic_exact A B secret t1 t2 params pr H1 H2 H3 H4 H5 H6 H7 H8 H9 HA HB Hs) as (b & pr' & V & Eb).
  exists b, pr'. split; [exact V|]. rewrite Eb. lia.
Qed.
Lemma generic_wide A B t1 t2 params pr : h2p_ok sha -> SetupGeneric E sha A B = Ok params ->
  tape_ok t1 32 -> tape_ok t2 32 ->
  ProveGeneric E sha A params t1 t2 = Ok pr ->
  nondegenerate sha (gpr_P1 pr) -> nondegenerate sha (gpr_P2 pr) ->
  fst (HashBP sha (bp_A (gpr_P1 pr)) (bp_S (gpr_P1 pr))) mod secp_N <> 0 ->
  fst (HashBP sha (bp_A (gpr_P2 pr)) (bp_S (gpr_P2 pr))) mod secp_N <> 0 ->
  int64 A -> int64 B -> 2 ^ 32 < B - A ->
  exists pr', VerifyGeneric E sha pr = Ok (false, pr').
Proof.
  intros H1 H2 H3 H4 H5 H6 H7 H8 H9 HA HB Hd.
  assert (Hs : - 2 ^ 254 <= A <= 2 ^ 254) by (clear -HA; unfold int64 in HA; lia).
  destruct (generic_exact A B A t1 t2 params pr H1 H2 H3 H4 H5 H6 H7 H8 H9 HA HB Hs) as (b & pr' & V & Eb).
  exists pr'. rewrite V. destruct b; [|easy]. destruct Eb as [Eb _]. specialize (Eb eq_refl). lia.
Qed.
Lemma generic_unbound pr1 pr2 pr1' pr2' :
  Verify E sha pr1 = Ok (true, pr1') -> Verify E sha pr2 = Ok (true, pr2') ->
  VerifyGeneric E sha (GProof pr1 pr2) = Ok (true, GProof pr1' pr2').
Proof. intros H1 H2. unfold VerifyGeneric. cbn [gpr_P1 gpr_P2]. rewrite H1. cbn. rewrite H2. easy. Qed.
End G.

Lemma SetupGeneric_ok E sha A B : h2p_ok sha -> exists params, SetupGeneric E sha A B = Ok params.
Proof.
  intros H. destruct (Setup_ok E sha MAX_RANGE_END H ltac:(cbn; tauto)) as (ps & Es & _).
  unfold SetupGeneric. rewrite Es. cbn [bind]. eexists. reflexivity.
Qed.
Lemma generators_nth sha tag n : forall j l, generators sha tag n j = Ok l ->
  forall i, (i < n)%nat -> MapToGroup sha (SEEDH ++ tag ++ [j + Z.of_nat i]) = Ok (nth i l None).
Proof.
  induction n as [|n IH]; intros j l H i Hi; [lia|]. cbn [generators] in H. unfold string_of in H.
  destruct (MapToGroup sha (SEEDH ++ tag ++ [j])) as [p| |] eqn:Ep; cbn [must ign_ptr bind deref] in H; [|easy..].
  destruct (generators sha tag n (j + 1)) as [r| |] eqn:Er; cbn [bind] in H; [|easy..].
  assert (l = p :: r) by congruence. subst l. destruct i as [|i]; cbn [nth].
  - rewrite Z.add_0_r. exact Ep.
  - rewrite <- (IH _ _ Er i) by lia. do 3 f_equal. f_equal. lia.
Qed.
Lemma Setup_params E sha b : h2p_ok sha -> In b range_ends ->
  exists ps, Setup E sha b = Ok ps /\ params_wf ps (Z.to_nat (Z.log2 b)) /\ sp_G ps = ScalarBaseMult E 1 /\
    value (sp_H ps) <> None /\ MapToGroup sha SEEDH = Ok (sp_H ps) /\
    (forall i, (i < Z.to_nat (Z.log2 b))%nat ->
       MapToGroup sha (SEEDH ++ [103] ++ [Z.of_nat i]) = Ok (nth i (sp_Gg ps) None) /\
       MapToGroup sha (SEEDH ++ [104] ++ [Z.of_nat i]) = Ok (nth i (sp_Hh ps) None)).
Proof.
  intros H I. destruct (Setup_ok E sha b H I) as (ps & H1 & H2 & H3 & H4 & H5 & H6 & H7).
  exists ps. do 5 (split; [assumption|]). intros i Hi.
  split; [exact (generators_nth _ _ _ _ _ H6 i Hi)|exact (generators_nth _ _ _ _ _ H7 i Hi)].
Qed.
