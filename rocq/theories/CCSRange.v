(** * Proofs for the range proofs of ccs08 *)
From Coq Require Import ZArith Znumtheory Lia List Bool.
From mathcomp Require Import all_ssreflect all_algebra.
From Verif Require Import Base BaseFacts ByteConv Util CodecProofs SpecCodec PrimesBN ZField MCRing BB CCS08 SpecCCS CCSProofs.
Set Implicit Arguments.
Unset Strict Implicit.
Unset Printing Implicit Defensive.
Import GRing.Theory.
Local Open Scope ring_scope.
Delimit Scope Z_scope with Z.
Local Arguments Z.mul : simpl never.
Local Arguments Z.add : simpl never.
Local Arguments Z.sub : simpl never.
Local Arguments Z.modulo : simpl never.
Local Arguments Z.opp : simpl never.
Local Arguments Z.pow : simpl never.
Local Arguments Z.of_nat : simpl never.
Local Opaque bnOrder hExp ModInverse.
Local Notation ph := (zph zfR).

Definition sumZ (l : seq Z) : Z := List.fold_right Z.add 0%Z l.

Lemma ExpNil_nat u i : ExpNil u (Z.of_nat i) = (u ^ Z.of_nat i)%Z.
Proof.
rewrite /ExpNil. case: i => [|i]; first by [].
by case: Z.leb_spec => // H; lia.
Qed.

Lemma sum_weighted u i l : sumZ (weighted u i l) = (u ^ Z.of_nat i * le_value u l)%Z.
Proof.
elim: l i => [|d l IH] i; first by rewrite Z.mul_0_r.
rewrite [weighted _ _ _]/= [le_value _ _]/= [sumZ _]/= -/(sumZ _) IH Nat2Z.inj_succ Z.pow_succ_r; last by lia. ring.
Qed.

Section Range.
Variable B : bops.
Variable sha : list Z -> list Z.
Variable W : bilinear B.
Hypothesis hash : hash_bytes sha.
Local Notation R1 := (R1 W).
Local Notation R2 := (R2 W).
Local Notation RT := (RT W).
Local Notation pairable := (pairable W).

Lemma R2_bmod z : R2 (G2_ScalarBaseMult B (bmod z bnOrder)) z.
Proof. apply: (R2_eqm _ (eqm_bmod z)). apply: R2_base. exact: (scalar_nonneg (@bmod_ge0 z)). Qed.

Lemma VerifyUL_D_ok u (i n : nat) zsig D d : length zsig = n ->
  R2 D d -> chain d (weighted u i zsig) ->
  exists D', VerifyUL_D B u (Z.of_nat i) n zsig D = Ok D' /\ R2 D' (d + u ^ Z.of_nat i * le_value u zsig).
Proof.
elim: n i zsig D d => [|n IH] i [|z zsig] D d //=.
  move=> _ RD _. exists D. split=> //. by rewrite Z.mul_0_r Z.add_0_r.
move=> [Ln] RD [A C]. rewrite ExpNil_nat Z.add_1_r -Nat2Z.inj_succ.
have [|D' [-> RD']] := IH i.+1 zsig _ _ Ln (R2_add RD (R2_bmod (z * u ^ Z.of_nat i)) A).
  exact: C.
exists D'. split=> //. apply: R2_sub RD' _. congr (zph zfR _).
rewrite Nat2Z.inj_succ Z.pow_succ_r; last by lia. ring.
Qed.

Lemma VerifyUL_a_ok pub k c n V zsig zv a w al r2 :
  R1 pub k -> (0 <= c)%Z -> length V = n -> length zsig = n -> length zv = n -> length a = n ->
  Forall2 R2 V w -> Forall2 RT a al -> Forall pairable V ->
  Forall (fun z => 0 <= z)%Z zsig -> Forall (fun z => 0 <= z)%Z zv ->
  exists b, VerifyUL_a B pub c n V zsig zv a r2 = Ok b /\
    (b = true <-> r2 = true /\ pair_eqs k c w zsig zv al).
Proof.
move=> Rp c0. elim: n V zsig zv a w al r2 => [|n IH] [|V0 V] [|s zsig] [|z zv] [|a0 a] w al r2 //=.
  move=> _ _ _ _ HV Ha _ _ _. inversion HV; inversion Ha. exists r2. split=> //=. by split=> // [[]].
move=> [LV] [Ls] [Lz] [La] HV Ha HP Hs Hz.
inversion HV as [|? w0 ? w' RV HV' ]; subst. inversion Ha as [|? al0 ? al' Ra Ha']; subst.
inversion HP as [|? ? PV HP']; subst.
inversion Hs as [|? ? s0 Hs']; subst. inversion Hz as [|? ? z0 Hz']; subst.
have HT := RT_add (RT_add (RT_mul (pair_law Rp RV PV) c0) (RT_inv (RT_mul (pair_law (R1_base W 1) RV PV) s0)))
                  (RT_mul (uE_spec W) z0).
have I2 := RT_bytes HT Ra.
set e := (X in r2 && X).
have [b [-> Hb]] := IH V zsig zv a w' al' (r2 && e) erefl Ls Lz La HV' Ha' HP' Hs' Hz'.
exists b. split=> //. rewrite Hb [pair_eqs _ _ (_ :: _) _ _ _]/=.
have -> : eqm (w0 * (k * c - s) + z) al0 <-> eqm (k * w0 * c + - (1 * w0 * s) + 1 * z) al0.
  have -> : (k * w0 * c + - (1 * w0 * s) + 1 * z = w0 * (k * c - s) + z)%Z by ring. by [].
rewrite -I2 /e. case: list_eq_dec => E /=; rewrite ?andbT ?andbF; first by tauto.
by split=> [[]|[_ []]].
Qed.

(** The verification equations *)
Lemma VerifyUL_iff (pr : proofUL B) (p : paramsUL B) pub k h y d w al (n : nat) :
  pu_l B p = Z.of_nat n ->
  kp_Pubk B (pu_kp B p) = Some pub -> R1 pub k -> R2 (pu_H B p) h ->
  length (up_V B pr) = n -> length (up_zsig B pr) = n -> length (up_zv B pr) = n -> length (up_a B pr) = n ->
  R2 (up_C B pr) y -> R2 (up_D B pr) d -> Forall2 R2 (up_V B pr) w -> Forall2 RT (up_a B pr) al ->
  Forall pairable (up_V B pr) -> (0 <= up_c B pr)%Z -> (0 <= up_zr B pr)%Z ->
  Forall (fun z => 0 <= z)%Z (up_zsig B pr) -> Forall (fun z => 0 <= z)%Z (up_zv B pr) ->
  chain (y * up_c B pr) (h * up_zr B pr :: weighted (pu_u B p) 0 (up_zsig B pr))%Z ->
  exists b, VerifyUL B pr p = Ok b /\
    (b = true <-> eqm (y * up_c B pr + h * up_zr B pr + le_value (pu_u B p) (up_zsig B pr)) d /\
                  pair_eqs k (up_c B pr) w (up_zsig B pr) (up_zv B pr) al).
Proof.
move=> El Ep Rp RH LV Ls Lz La RC RD HV Ha HP c0 zr0 Hs Hz [A1 A2].
rewrite /VerifyUL El Nat2Z.id Ep.
have H0 := R2_add (R2_mul RC (scalar_nonneg c0)) (R2_mul RH (scalar_nonneg zr0)) A1.
have [D' [/= -> RD']] := VerifyUL_D_ok Ls H0 A2.
have [b [/= -> Hb]] := VerifyUL_a_ok true Rp c0 LV Ls Lz La HV Ha HP Hs Hz.
eexists. split; first by []. rewrite Z.mul_1_l in RD'. have I1 := R2_bytes RD' RD. rewrite -I1.
case: list_eq_dec => E1 /=; last by split=> // [[]]. rewrite Hb. tauto.
Qed.

(** the prover *)
Definition tape_of (tp : seq (Z * Z * Z)) := tp.
Fixpoint prover_digits (k : Z) (decx : seq Z) (tp : seq (Z * Z * Z)) (V : seq (tG2 B)) (a : seq (tGT B))
    (w al : seq Z) : Prop :=
  match decx, tp, V, a, w, al with
  | d :: decx', (v, s, t) :: tp', V0 :: V', a0 :: a', w0 :: w', al0 :: al' =>
      [/\ R2 V0 w0, (pairable V0 -> (0 <= s)%Z -> (0 <= t)%Z -> RT a0 al0),
          ph w0 * (ph d + ph k) = ph v /\ ph al0 = ph t - ph w0 * ph s & prover_digits k decx' tp' V' a' w' al']
  | [::], [::], [::], [::], [::], [::] => True
  | _, _, _, _, _, _ => False
  end.

Lemma ProveUL_loop_ok sigs u k i decx tp D :
  Forall (fun d => good_sig W k d (lookup B sigs (big_String d))) decx ->
  length tp = length decx ->
  exists V a D', ProveUL_loop B sigs u (Z.of_nat i) decx tp D = Ok (V, a, D') /\
    (digits_range tp -> exists w al, prover_digits k decx tp V a w al) /\
    forall d, R2 D d -> chain d (weighted u i (List.map tape_s tp)) ->
      R2 D' (d + u ^ Z.of_nat i * le_value u (List.map tape_s tp)).
Proof.
elim: decx tp i D => [|d decx IH] [|[[v s] t] tp] i D Hg //.
  move=> _. exists [::], [::], D. split=> //. split; first by exists [::], [::].
  move=> d RD _. by rewrite /= Z.mul_0_r Z.add_0_r.
move=> [Ln]. inversion Hg as [|? ? [A [L [j [RA Ej n0 PA]]]] Hg']; subst. rewrite [ProveUL_loop _ _ _ _ _ _ _]/= L.
rewrite ExpNil_nat Z.add_1_r -Nat2Z.inj_succ.
have [V [a [D' [-> [Hd0 HD]]]]] := IH tp i.+1 (G2_AddTo B D (G2_ScalarBaseMult B (bmod (s * u ^ Z.of_nat i) bnOrder))) Hg' Ln.
do 3 eexists. split; first by []. split.
  move=> Ht. have [[v0 [s0 t0]] Ht'] := conj (Forall_inv Ht) (Forall_inv_tail Ht).
  have [w [al Hd]] := Hd0 Ht'.
  exists (j * v :: w)%Z, (t - j * v * s :: al)%Z. split=> //.
  - exact: R2_mul RA (scalar_nonneg v0).
  - move=> P _ _. exact: (prover_a (R2_mul RA (scalar_nonneg v0)) P s0 t0).
  - rewrite !phE Ej. split=> //. by rewrite mulrAC mulVf // mul1r.
move=> x RD [A1 A2]. apply: R2_sub.
  apply: HD. apply: R2_add RD (R2_bmod _) A1. exact: A2.
congr (zph zfR _). rewrite /= /tape_s /=.
rewrite Nat2Z.inj_succ Z.pow_succ_r; last by lia. ring.
Qed.

Lemma responses_length c decx tp : length tp = length decx ->
  length (fst (responses c decx tp)) = length decx /\ length (snd (responses c decx tp)) = length decx.
Proof.
elim: decx tp => [|d decx IH] [|[[v s] t] tp] //= [/IH].
case: (responses c decx tp) => zs zv /=. by move=> [-> ->].
Qed.
Lemma responses_ge0 c decx tp :
  Forall (fun z => 0 <= z)%Z (fst (responses c decx tp)) /\ Forall (fun z => 0 <= z)%Z (snd (responses c decx tp)).
Proof.
elim: decx tp => [|d decx IH] [|[[v s] t] tp] //=.
have := IH tp. case: (responses c decx tp) => zs zv /= [H1 H2].
by split; constructor=> //; apply: bmod_ge0.
Qed.
Lemma responses_sum c u decx tp : length tp = length decx ->
  ph (le_value u (fst (responses c decx tp))) = ph (le_value u (List.map tape_s tp)) - ph c * ph (le_value u decx).
Proof.
elim: decx tp => [|d decx IH] [|[[v s] t] tp] //=; first by move=> _; rewrite !phE mulr0 subr0.
move=> [/IH]. case: (responses c decx tp) => zs zv /= E. rewrite /tape_s /= !phE E. exact: alg3.
Qed.
Lemma responses_eqs k c decx tp V a w al : prover_digits k decx tp V a w al ->
  pair_eqs k c w (fst (responses c decx tp)) (snd (responses c decx tp)) al.
Proof.
elim: decx tp V a w al => [|d decx IH] [|[[v s] t] tp] [|V0 V] [|a0 a] [|w0 w] [|al0 al] //=.
move=> [_ _ [Ew Ea] H]. have := IH _ _ _ _ _ H. case: (responses c decx tp) => zs zv /= E.
split=> //. apply/eqmP. rewrite !phE Ea -Ew. exact: alg4.
Qed.
Lemma prover_digits_Forall k decx tp V a w al : prover_digits k decx tp V a w al ->
  [/\ length V = length decx, length a = length decx, Forall2 R2 V w &
      (Forall pairable V -> digits_range tp -> Forall2 RT a al)].
Proof.
elim: decx tp V a w al => [|d decx IH] [|[[v s] t] tp] [|V0 V] [|a0 a] [|w0 w] [|al0 al] //=.
move=> [RV Ra _ H]. have [<- <- H1 H2] := IH _ _ _ _ _ H. split=> //; first by constructor.
move=> HP Ht. inversion HP; inversion Ht as [|? ? [v0 [s0 t0]] Ht']; subst.
constructor; [exact: Ra|exact: H2].
Qed.

Definition trunc (x u l : Z) : Z := (x mod u ^ l)%Z.

Lemma ProveUL_ok tp x r (p : paramsUL B) k (n : nat) :
  pu_l B p = Z.of_nat n -> tapeUL_ok tp (pu_l B p) -> (0 < pu_u B p)%Z ->
  (forall d, (0 <= d < pu_u B p)%Z -> good_sig W k d (lookup B (pu_signatures B p) (big_String d))) ->
  exists pr, ProveUL B sha tp x r p = Ok pr /\
    [/\ up_m B pr = tu_m tp, up_s B pr = List.map tape_s (tu_digits tp), up_t B pr = List.map tape_t (tu_digits tp),
        up_C B pr = Commit B x r (pu_H B p) &
    (exists t c, FromByteArray (sha t) = Ok c /\ up_c B pr = bmod c bnOrder) /\
    [/\ (0 <= up_c B pr < bnOrder)%Z, up_zr B pr = bmod (tu_m tp - r * up_c B pr) bnOrder,
       (up_zsig B pr, up_zv B pr) = responses (up_c B pr) (Decompose x (pu_u B p) n) (tu_digits tp),
       (digits_range (tu_digits tp) -> exists w al, prover_digits k (Decompose x (pu_u B p) n) (tu_digits tp) (up_V B pr) (up_a B pr) w al) &
       forall h, R2 (pu_H B p) h -> (0 <= tu_m tp)%Z -> chain (h * tu_m tp) (weighted (pu_u B p) 0 (List.map tape_s (tu_digits tp))) ->
         R2 (up_D B pr) (0 + (h * tu_m tp + le_value (pu_u B p) (List.map tape_s (tu_digits tp))))]].
Proof.
move=> El Ht u0 Hg. rewrite /ProveUL. rewrite /tapeUL_ok El in Ht. have {}Ht : length (tu_digits tp) = n by lia.
rewrite El. have -> : (Z.of_nat n <? 0)%Z = false by case: Z.ltb_spec => // H; lia. rewrite Nat2Z.id.
set dec := Decompose _ _ _.
have Hdig : Forall (fun d => good_sig W k d (lookup B (pu_signatures B p) (big_String d))) dec.
  apply: Forall_impl (Decompose_digits x (pu_u B p) n u0). exact: Hg.
have Ld : length dec = n by apply: Decompose_length.
have Lt : length (tu_digits tp) = length dec by rewrite Ld.
have [V [a [D [/= -> [Hd HD]]]]] := ProveUL_loop_ok (pu_u B p) 0 (G2_ScalarMult B (pu_H B p) (tu_m tp)) Hdig Lt.
rewrite /bind -/bind /Hash.
have [c Ec] := hash_ok_FBA hash (List.concat (List.map (GT_String B) a) ++ G2_String B (G2_AddTo B (G2_SetInfinity B) D))%list.
rewrite Ec. case Er: (responses _ _ _) => [zs zv].
eexists. split; first by []. rewrite [up_m _ _]/= [up_s _ _]/= [up_t _ _]/= Ld.
have L1 : length (List.map tape_s (tu_digits tp)) = n by rewrite map_length.
have L2 : length (List.map tape_t (tu_digits tp)) = n by rewrite map_length.
split=> //=; [by rewrite -{1}L1 firstn_all|by rewrite -{1}L2 firstn_all|].
split; first by eexists; exists c; split; first exact: Ec.
split=> //=.
- split; first exact: bmod_ge0. apply: (proj2 (Z.mod_pos_bound _ _ _)). have := @zf_P1 _ bnOrder_prime; lia.
- move=> h RH m0 C. apply: R2_add; [exact: R2_inf| |by []]. rewrite -[le_value _ _]Z.mul_1_l. exact: (HD _ (R2_mul RH (scalar_nonneg m0)) C).
Qed.

Lemma VerifyUL_honest tp x r (p : paramsUL B) pub k h (n : nat) pr :
  pu_l B p = Z.of_nat n -> tapeUL_ok tp (pu_l B p) -> (0 < pu_u B p)%Z ->
  kp_Pubk B (pu_kp B p) = Some pub -> R1 pub k -> R2 (pu_H B p) h ->
  (forall d, (0 <= d < pu_u B p)%Z -> good_sig W k d (lookup B (pu_signatures B p) (big_String d))) ->
  tape_range tp ->
  ProveUL B sha tp x r p = Ok pr -> ul_nondegenerate W (pu_u B p) h x r pr ->
  exists b, VerifyUL B pr p = Ok b /\
    (b = true <-> eqm (up_c B pr * (x - x mod (pu_u B p) ^ (pu_l B p))) 0).
Proof.
move=> El Ht u0 Ep Rp RH Hg Hs E [HP [x0 [r0 [A1 [A2 A3]]]]].
have [pr' [E' [Em Es Et EC [_ [[c0 _] Ezr Ez Hd0 HD]]]]] := ProveUL_ok x r El Ht u0 Hg.
have [w [al Hd]] := Hd0 (proj2 Hs).
have ? : pr' = pr by congruence. subst pr'. rewrite Em Es in A1.
have Lt : length (tu_digits tp) = length (Decompose x (pu_u B p) n).
  rewrite Decompose_length. rewrite /tapeUL_ok El in Ht. lia.
have Ezs : up_zsig B pr = fst (responses (up_c B pr) (Decompose x (pu_u B p) n) (tu_digits tp)) by rewrite -Ez.
have Ezv : up_zv B pr = snd (responses (up_c B pr) (Decompose x (pu_u B p) n) (tu_digits tp)) by rewrite -Ez.
have [l1 l2] := responses_length (up_c B pr) Lt.
have [g1 g2] := responses_ge0 (up_c B pr) (Decompose x (pu_u B p) n) (tu_digits tp).
have [v1 v2 v3 v4] := prover_digits_Forall Hd.
have RC : R2 (up_C B pr) (x + h * r) by rewrite EC; apply: Commit_spec; [exact: RH|exact: x0|exact: r0|exact: (proj1 A2)].
have [|||||||b [Eb Hb]] := VerifyUL_iff El Ep Rp RH _ _ _ _ RC (HD h RH (proj1 Hs) A1) v3 (v4 HP (proj2 Hs)) HP c0 _ _ _ A3.
- by rewrite v1 Decompose_length.
- by rewrite Ezs l1 Decompose_length.
- by rewrite Ezv l2 Decompose_length.
- by rewrite v2 Decompose_length.
- by rewrite Ezr; apply: bmod_ge0.
- by rewrite Ezs.
- by rewrite Ezv.
exists b. split=> //. rewrite Hb. rewrite {1}Ezs Ezs Ezv.
have Hp := responses_eqs (up_c B pr) Hd.
rewrite !eqmP Ezr !phE responses_sum // Decompose_value // El.
split=> [[E1 _]|E1]; [apply: alg5 E1|split=> //; exact: alg6].
Qed.
End Range.
