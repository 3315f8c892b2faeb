(** * The interval proofs of ccs08 *)
From Coq Require Import ZArith Znumtheory Lia List Bool.
From mathcomp Require Import all_ssreflect all_algebra.
From Verif Require Import Base BaseFacts ByteConv Util CodecProofs SpecCodec PrimesBN ZField MCRing BB CCS08 SpecCCS CCSProofs CCSRange CCSLaws.
Set Implicit Arguments.
Unset Strict Implicit.
Unset Printing Implicit Defensive.
Local Open Scope Z_scope.
Delimit Scope Z_scope with Z.
Local Arguments Z.mul : simpl never.
Local Arguments Z.add : simpl never.
Local Arguments Z.sub : simpl never.
Local Arguments Z.modulo : simpl never.
Local Arguments Z.opp : simpl never.
Local Arguments Z.pow : simpl never.
Local Arguments Z.of_nat : simpl never.
Local Arguments Z.quot : simpl never.
Local Opaque bnOrder hExp ModInverse.

Lemma order_big : 2 ^ 253 < bnOrder.
Proof. Local Transparent bnOrder. rewrite /bnOrder. lia. Qed.
Local Opaque bnOrder.

(** c (x - (x mod M)) is 0 mod the order exactly when 0 <= x < M, in the window *)
Lemma trunc_iff c x M : 0 < M -> - (bnOrder - M) < x < bnOrder -> ~ eqm c 0 ->
  (eqm (c * (x - x mod M)) 0 <-> 0 <= x < M).
Proof.
move=> M0 Hx c0. have R := order_big. have MB := Z.mod_pos_bound x M M0.
split; last by move=> H; rewrite Z.mod_small // Z.sub_diag Z.mul_0_r.
move/eqm0P. rewrite zph_mul => /eqP. rewrite GRing.mulf_eq0 (negbTE (neqm0 c0)) /= => /eqP /zph_eq0 H.
have D : x - x mod M = 0.
  case: (Z.lt_trichotomy (x - x mod M) 0) => [L|[//|L]].
  - have /Z.mod_divide : (x - x mod M) mod bnOrder = 0 by []. case; first by lia. move=> q Hq.
    have : q <= -1 \/ 0 <= q by lia. case=> ?; nia.
  - rewrite Z.mod_small in H; lia.
have E : x = x mod M by lia. rewrite E. exact: MB.
Qed.

Section Interval.
Variable B : bops.
Variable sha : list Z -> list Z.
Variable W : bilinear B.
Hypothesis hash : hash_bytes sha.

Lemma SetupUL_iff k u l : (exists p, SetupUL B k u l = Ok p) <-> no_clash k u.
Proof.
split; last by move=> /(SetupUL_ok W l) [p [E _]]; exists p.
move=> [p E] m Hm Em. move: E. rewrite /SetupUL. have [pub [-> _]] := Keygen_spec W k.
have Hin : List.In m (upto u). { apply/in_map_iff. exists (Z.to_nat m). split; first by lia. apply/in_seq. lia. }
by rewrite /= (sign_all_panic [::] Hin Em).
Qed.
Lemma SetupUL_inv k u l p : SetupUL B k u l = Ok p ->
   pu_H B p = setupH B /\ pu_u B p = u /\ pu_l B p = l /\
    (exists pub, pu_kp B p = Keypair B (Some pub) k /\ R1 W pub k) /\
    forall x, (0 <= x < u) -> good_sig W k x (lookup B (pu_signatures B p) (big_String x)).
Proof.
move=> E. have N := proj1 (SetupUL_iff k u l) (ex_intro _ p E).
have [p' [E' H]] := SetupUL_ok W l N. have ? : p' = p by congruence. by subst p'.
Qed.

Lemma ul_never_fails k u l p tp x r : SetupUL B k u l = Ok p -> 0 < u -> 0 <= l -> tapeUL_ok tp l ->
  exists pr, ProveUL B sha tp x r p = Ok pr.
Proof.
move=> S u0 l0 Ht. have [EH [Eu [El [[pub [Ek Rp]] H]]]] := SetupUL_inv S.
have [||||pr [E _]] := @ProveUL_ok B sha W hash tp x r p k (Z.to_nat l); try by rewrite ?El ?Eu ?Z2Nat.id.
by exists pr.
Qed.
Lemma ul_exact_eqm k u l p tp x r pr : SetupUL B k u l = Ok p -> 0 < u -> 0 <= l -> tapeUL_ok tp l -> tape_range tp ->
  ProveUL B sha tp x r p = Ok pr -> ul_nondegenerate W u hExp x r pr ->
  exists b, VerifyUL B pr p = Ok b /\ (b = true <-> eqm (up_c B pr * (x - x mod u ^ l)) 0).
Proof.
move=> S u0 l0 Ht Hs E N. have [EH [Eu [El [[pub [Ek Rp]] H]]]] := SetupUL_inv S.
have RH : R2 W (pu_H B p) hExp by rewrite EH; apply: setupH_spec.
have [||||||b Hb] := @VerifyUL_honest B sha W hash tp x r p pub k hExp (Z.to_nat l) pr _ _ _ _ Rp RH _ Hs E _.
- by rewrite El Z2Nat.id.
- by rewrite El.
- by rewrite Eu.
- by rewrite Ek.
- by rewrite Eu.
- by rewrite Eu.
rewrite El Eu in Hb. by exists b.
Qed.
Lemma ul_exact k u l p tp x r pr : SetupUL B k u l = Ok p -> 0 < u -> 0 <= l -> tapeUL_ok tp l -> tape_range tp ->
  ProveUL B sha tp x r p = Ok pr -> ul_nondegenerate W u hExp x r pr -> ~ eqm (up_c B pr) 0 ->
  - (bnOrder - u ^ l) < x < bnOrder ->
  exists b, VerifyUL B pr p = Ok b /\ (b = true <-> 0 <= x < u ^ l).
Proof.
move=> S u0 l0 Ht Hs E N c0 Hx. have [b [Eb Hb]] := ul_exact_eqm S u0 l0 Ht Hs E N. exists b. split=> //.
rewrite Hb. apply: trunc_iff => //. exact: Z.pow_pos_nonneg.
Qed.

(** ** Setup *)
Lemma count_digits_spec fuel i : 0 < i < 2 ^ Z.of_nat fuel ->
  1 <= count_digits fuel i 57 /\ 57 ^ (count_digits fuel i 57 - 1) <= i < 57 ^ count_digits fuel i 57.
Proof.
elim: fuel i => [|f IH] i Hi; first by move: Hi; rewrite /=; lia.
rewrite /=. have -> : (i >? 0) = true by rewrite Z.gtb_ltb; apply/Z.ltb_lt; lia.
rewrite Z.quot_div_nonneg; [|lia|lia].
have [L|L] := Z_lt_le_dec i 57.
  have -> : i / 57 = 0 by apply: Z.div_small; lia.
  have -> : count_digits f 0 57 = 0 by case: f {IH Hi}.
  rewrite Z.add_0_r /=. lia.
have Hd := Z.div_mod i 57 ltac:(lia). have Hm := Z.mod_pos_bound i 57 ltac:(lia).
have [|H1 [H2 H3]] := IH (i / 57).
  split; first by lia. apply: Z.div_lt_upper_bound; first by lia.
  move: Hi. rewrite Nat2Z.inj_succ Z.pow_succ_r; last by lia. have := Z.pow_pos_nonneg 2 (Z.of_nat f). lia.
move: H1 H2 H3. set l := count_digits _ _ _ => H1 H2 H3. split; first by lia.
have -> : 1 + l - 1 = Z.succ (l - 1) by lia. have E1 : 1 + l = Z.succ l by lia.
rewrite E1 !Z.pow_succ_r; try lia.
Qed.

Lemma count_digits_neg fuel i : i <= 0 -> count_digits fuel i 57 = 0.
Proof. case: fuel => [//|f] H /=. by have -> : (i >? 0) = false by rewrite Z.gtb_ltb; apply/Z.ltb_ge. Qed.

Lemma Setup_err k a b : a > b \/ b = 1 -> Setup B k a b = Err.
Proof.
rewrite /Setup. case: (Z.gtb_spec a b) => // H [|->] //; lia.
Qed.
Lemma Setup_ok k a b : a <= b -> b <> 1 -> no_clash k 57 ->
  exists z, Setup B k a b = Ok z /\ pa_a B z = a /\ pa_b B z = b /\ pu_u B (pa_p B z) = 57 /\
    (b <= 0 -> pu_l B (pa_p B z) = 0) /\
    (0 < b -> 1 <= pu_l B (pa_p B z) /\ 57 ^ (pu_l B (pa_p B z) - 1) <= b < 57 ^ pu_l B (pa_p B z)).
Proof.
move=> ab b1 N. rewrite /Setup. have -> : (a >? b) = false by rewrite Z.gtb_ltb; apply/Z.ltb_ge.
have -> : (b =? 1) = false by apply/Z.eqb_neq. rewrite [negb _]/=.
move: (count_digits_neg (Z.to_nat (Z.log2 b)).+1 (i := b)) (count_digits_spec (fuel := (Z.to_nat (Z.log2 b)).+1) (i := b)).
set l := count_digits _ _ _ => H1 H2.
have [p E] := proj2 (SetupUL_iff k 57 l) N. rewrite E. have [_ [Eu [El _]]] := SetupUL_inv E.
eexists. split; first by []. rewrite /=. rewrite Eu El. do 4 (split=> //).
move=> b0. apply: H2. split=> //. have := Z.log2_spec b. rewrite Nat2Z.inj_succ Z2Nat.id; [lia|exact: Z.log2_nonneg].
Qed.
Lemma Setup_inv k a b z : Setup B k a b = Ok z ->
  [/\ a <= b, b <> 1, no_clash k 57 & pa_a B z = a /\ pa_b B z = b /\ pu_u B (pa_p B z) = 57 /\
    0 <= pu_l B (pa_p B z) /\ SetupUL B k 57 (pu_l B (pa_p B z)) = Ok (pa_p B z) /\
    (b <= 0 -> pu_l B (pa_p B z) = 0) /\
    (0 < b -> 57 ^ (pu_l B (pa_p B z) - 1) <= b < 57 ^ pu_l B (pa_p B z))].
Proof.
move=> E. have ab : a <= b by case: (Z_le_gt_dec a b) => // H; rewrite Setup_err in E => //; left.
have b1 : b <> 1 by move=> H; rewrite Setup_err in E => //; right.
have N : no_clash k 57.
  move: E. rewrite /Setup. case: (_ >? _) => //. case: (negb _) => //.
  case E: (SetupUL _ _ _ _) => [p||] // _. exact: (proj1 (SetupUL_iff _ _ _) (ex_intro _ p E)).
have [z' [E' [H1 [H2 [H3 [H4 H5]]]]]] := Setup_ok ab b1 N. have ? : z' = z by congruence. subst z'.
split=> //. do 3 (split=> //). split; first by case: (Z_le_gt_dec b 0) => H; [rewrite H4|have := H5 ltac:(lia); lia].
split; last by split=> // b0; exact: (proj2 (H5 b0)).
move: E. rewrite /Setup. case: (_ >? _) => //. case: (negb _) => //.
case E: (SetupUL _ _ _ _) => [p||] //= [Ez]. subst z. rewrite /= in H3 *.
have [_ [_ [El _]]] := SetupUL_inv E. by rewrite El.
Qed.

Lemma ExpNil_nonneg u l : 0 <= l -> ExpNil u l = u ^ l.
Proof. move=> l0. by rewrite -(Z2Nat.id l) // ExpNil_nat. Qed.

Lemma Prove_ok k a b z tp1 tp2 x r : Setup B k a b = Ok z ->
  tapeUL_ok tp1 (pu_l B (pa_p B z)) -> tapeUL_ok tp2 (pu_l B (pa_p B z)) ->
  exists pr, Prove B sha tp1 tp2 x r z = Ok pr.
Proof.
move=> S T1 T2. have [_ _ _ [Ea [Eb [Eu [l0 [SU _]]]]]] := Setup_inv S.
rewrite /Prove. have [f1 ->] := @ul_never_fails _ _ _ _ tp1 (x - pa_b B z + ExpNil (pu_u B (pa_p B z)) (pu_l B (pa_p B z))) r SU (erefl _) l0 T1.
rewrite [bind (Ok _) _]/=. have [f2 ->] := @ul_never_fails _ _ _ _ tp2 (x - pa_a B z) r SU (erefl _) l0 T2. by eexists.
Qed.

Lemma interval_exact k a b z tp1 tp2 x r pr : Setup B k a b = Ok z ->
  tapeUL_ok tp1 (pu_l B (pa_p B z)) -> tapeUL_ok tp2 (pu_l B (pa_p B z)) -> tape_range tp1 -> tape_range tp2 ->
  - 2 ^ 63 <= a -> b < 2 ^ 63 -> - 2 ^ 250 < x < 2 ^ 250 ->
  Prove B sha tp1 tp2 x r z = Ok pr ->
  let ul := 57 ^ pu_l B (pa_p B z) in
  ul_nondegenerate W 57 hExp (x - b + ul) r (pf_p1 B pr) ->
  ul_nondegenerate W 57 hExp (x - a) r (pf_p2 B pr) ->
  ~ eqm (up_c B (pf_p1 B pr)) 0 -> ~ eqm (up_c B (pf_p2 B pr)) 0 ->
  exists v, Verify B pr z = Ok v /\ (v = true <-> b - ul <= x < b /\ a <= x < a + ul).
Proof.
move=> S T1 T2 G1 G2 a63 b63 Hx. have [ab _ _ [Ea [Eb [Eu [l0 [SU [H0 H1]]]]]]] := Setup_inv S.
rewrite /Prove Ea Eb Eu ExpNil_nonneg //.
set ul := 57 ^ _. have Hul : 1 <= ul <= 57 * 2 ^ 63.
  rewrite /ul. case: (Z_le_gt_dec b 0) => Hb; first by rewrite H0.
  have [L1 L2] := H1 ltac:(lia). split; first by have := Z.pow_pos_nonneg 57 (pu_l B (pa_p B z)); lia.
  case: (Z.eq_dec (pu_l B (pa_p B z)) 0) => [->|Hl]; first by lia.
  have -> : pu_l B (pa_p B z) = Z.succ (pu_l B (pa_p B z) - 1) by lia. rewrite Z.pow_succ_r; lia.
case E1: (ProveUL _ _ tp1 _ _ _) => [f1||] //. case E2: (ProveUL _ _ tp2 _ _ _) => [f2||] //. case=> <- /= N1 N2 c1 c2.
have R := order_big.
have [|v1 [V1 I1]] := ul_exact SU (erefl _) l0 T1 G1 E1 N1 c1; first by rewrite -/ul; lia.
have [|v2 [V2 I2]] := ul_exact SU (erefl _) l0 T2 G2 E2 N2 c2; first by rewrite -/ul; lia.
rewrite /Verify /= V1 /= V2 /=. eexists. split; first by []. rewrite andb_true_iff I1 I2 -/ul. lia.
Qed.

Lemma interval_nonneg k a b z tp1 tp2 x r pr : Setup B k a b = Ok z ->
  tapeUL_ok tp1 (pu_l B (pa_p B z)) -> tapeUL_ok tp2 (pu_l B (pa_p B z)) -> tape_range tp1 -> tape_range tp2 ->
  0 <= a -> b < 2 ^ 63 -> - 2 ^ 250 < x < 2 ^ 250 ->
  Prove B sha tp1 tp2 x r z = Ok pr ->
  let ul := 57 ^ pu_l B (pa_p B z) in
  ul_nondegenerate W 57 hExp (x - b + ul) r (pf_p1 B pr) ->
  ul_nondegenerate W 57 hExp (x - a) r (pf_p2 B pr) ->
  ~ eqm (up_c B (pf_p1 B pr)) 0 -> ~ eqm (up_c B (pf_p2 B pr)) 0 ->
  exists v, Verify B pr z = Ok v /\ (v = true <-> a <= x < b).
Proof.
move=> S T1 T2 G1 G2 a0 b63 Hx E ul N1 N2 c1 c2.
have [v [Ev Hv]] := interval_exact S T1 T2 G1 G2 ltac:(lia) b63 Hx E N1 N2 c1 c2.
exists v. split=> //. rewrite Hv -/ul.
have [ab _ _ [_ [_ [_ [l0 [_ [H0 H1]]]]]]] := Setup_inv S.
case: (Z_le_gt_dec b 0) => Hb; last by have [_] := H1 ltac:(lia); rewrite -/ul; lia.
have : ul = 1 by rewrite /ul H0. lia.
Qed.
Lemma interval_wide k a b z tp1 tp2 r pr : Setup B k a b = Ok z ->
  tapeUL_ok tp1 (pu_l B (pa_p B z)) -> tapeUL_ok tp2 (pu_l B (pa_p B z)) -> tape_range tp1 -> tape_range tp2 ->
  - 2 ^ 63 <= a -> b < 2 ^ 63 ->
  let ul := 57 ^ pu_l B (pa_p B z) in
  a < b - ul ->
  Prove B sha tp1 tp2 a r z = Ok pr ->
  ul_nondegenerate W 57 hExp (a - b + ul) r (pf_p1 B pr) ->
  ul_nondegenerate W 57 hExp (a - a) r (pf_p2 B pr) ->
  ~ eqm (up_c B (pf_p1 B pr)) 0 -> ~ eqm (up_c B (pf_p2 B pr)) 0 ->
  Verify B pr z = Ok false.
Proof.
move=> S T1 T2 G1 G2 a0 b63 ul Hw E N1 N2 c1 c2.
have [ab _ _ _] := Setup_inv S.
have Ha : - 2 ^ 250 < a < 2 ^ 250 by lia.
have [v [-> Hv]] := interval_exact S T1 T2 G1 G2 a0 b63 Ha E N1 N2 c1 c2.
move: Hv. rewrite -/ul. case: v => // Hv. have := proj1 Hv erefl. lia.
Qed.
End Interval.
