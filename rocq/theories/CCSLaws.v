(** * The laws of the signatures and of ccs08 *)
From Coq Require Import ZArith Znumtheory Lia List Bool.
From mathcomp Require Import all_ssreflect all_algebra.
From Verif Require Import Base BaseFacts ByteConv Util CodecProofs SpecCodec PrimesBN ZField MCRing BB CCS08 SpecCCS CCSProofs CCSRange.
Set Implicit Arguments.
Unset Strict Implicit.
Unset Printing Implicit Defensive.
Import GRing.Theory.
Local Open Scope ring_scope.
Delimit Scope Z_scope with Z.
Local Arguments Z.mul : simpl never.
Local Arguments Z.add : simpl never.
Local Arguments Z.sub : simpl never.
Local Arguments Z.modulo : simpl never.
Local Arguments Z.opp : simpl never.
Local Arguments Z.pow : simpl never.
Local Arguments Z.of_nat : simpl never.
Local Opaque bnOrder hExp ModInverse.
Local Notation ph := (zph zfR).

Lemma order_pos : (0 < bnOrder)%Z.
Proof. have := @zf_P1 _ bnOrder_prime. lia. Qed.
Lemma ph_invm x : ph (invm x) = (ph x)^-1.
Proof.
rewrite /invm. case: (Z.eq_dec (x mod bnOrder) 0) => E.
  rewrite ModInverse_None; [|exact: (@zf_P1 _ bnOrder_prime)|exact: (prime_gcd_0 _ _ bnOrder_prime)].
  by rewrite (proj2 (zph_eq0 zfR x) E) invr0 zph_0.
by have [i -> ->] := zph_ModInverse bnOrder_prime zfR E.
Qed.
Lemma ph_mod x : ph (x mod bnOrder)%Z = ph x.
Proof. exact: zph_mod. Qed.
Lemma ph_modeq x y : ph x = ph y -> (x mod bnOrder = y mod bnOrder)%Z.
Proof. by move/zph_eq. Qed.
Lemma neqm0 x : ~ eqm x 0 -> ph x != 0.
Proof. by move=> H; apply/eqP => /eqm0P. Qed.
Lemma mod_mod x : ((x mod bnOrder) mod bnOrder = x mod bnOrder)%Z.
Proof. exact: Zmod_mod. Qed.

Section AlgL.
Variable F : fieldType.
Add Field FfieldL : (mc_field F).
Lemma alg_recover (x y c : F) : c != 0 -> (y - (y - x * c)) * c^-1 = x.
Proof. move=> c0. have -> : y - (y - x * c) = x * c by mcfr F. by rewrite mulfK. Qed.
Lemma alg_extract (y h c1 c2 r1 r2 s1 s2 d : F) : c1 - c2 != 0 ->
  y * c1 + h * r1 + s1 = d -> y * c2 + h * r2 + s2 = d ->
  y = (s2 - s1) * (c1 - c2)^-1 + h * ((r2 - r1) * (c1 - c2)^-1).
Proof.
move=> n0 E1 E2. apply: (mulIf n0). rewrite mulrDl mulfVK // -mulrA mulfVK //.
have : y * c1 + h * r1 + s1 - (y * c2 + h * r2 + s2) = 0 by rewrite E1 E2 subrr.
have -> : y * c1 + h * r1 + s1 - (y * c2 + h * r2 + s2) =
  y * (c1 - c2) - (s2 - s1 + h * (r2 - r1)) by mcfr F.
by move/eqP; rewrite subr_eq0 => /eqP.
Qed.
Lemma alg_extract2 (w k c1 c2 s1 s2 z1 z2 a : F) : c1 - c2 != 0 ->
  w * (k * c1 - s1) + z1 = a -> w * (k * c2 - s2) + z2 = a ->
  w * ((s2 - s1) * (c1 - c2)^-1 + k) = (z2 - z1) * (c1 - c2)^-1.
Proof.
move=> n0 E1 E2. apply: (mulIf n0). rewrite -mulrA mulrDl !mulfVK //.
have : w * (k * c1 - s1) + z1 - (w * (k * c2 - s2) + z2) = 0 by rewrite E1 E2 subrr.
have -> : w * (k * c1 - s1) + z1 - (w * (k * c2 - s2) + z2) = w * (s2 - s1 + k * (c1 - c2)) - (z2 - z1) by mcfr F.
by move/eqP; rewrite subr_eq0 => /eqP.
Qed.
Lemma alg_sim1 (x h r c zr zs : F) : h * (zr + r * c) + (zs + x * c) = (x + h * r) * c + h * zr + zs.
Proof. by mcfr F. Qed.
Lemma alg_sim2 (x k c w zs zv : F) : (zv + w * (x + k) * c) - w * (zs + x * c) = k * w * c - 1 * w * zs + 1 * zv.
Proof. by mcfr F. Qed.
Lemma alg_bind (x x' h r i : F) : h * i = 1 -> x + h * r = x' + h * (r + (x - x') * i).
Proof.
move=> E. have -> : x' + h * (r + (x - x') * i) = x' + h * r + (h * i) * (x - x') by mcfr F.
rewrite E. by mcfr F.
Qed.
End AlgL.

Section Laws.
Variable B : bops.
Variable sha : list Z -> list Z.

(** ** C35: forgery; no hypothesis on the group at all *)
Lemma forge_set_accepted (p : paramsSet B) pub C V c zr zsig zv :
  kp_Pubk B (ps_kp B p) = Some pub ->
  VerifySet B (forgeSet B (ps_H B p) pub C V c zr zsig zv) p = Ok true.
Proof.
rewrite /VerifySet => -> /=. by do 2 case: list_eq_dec => //.
Qed.

Lemma VerifyUL_D_forge u i zsig D : VerifyUL_D B u i (length zsig) zsig D = Ok (forgeD B u i D zsig).
Proof. by elim: zsig i D => [//|z zsig IH] i D; rewrite /= IH. Qed.
Lemma VerifyUL_a_forge pub c l :
  VerifyUL_a B pub c (length l) (List.map (fun e : tG2 B * Z * Z => fst (fst e)) l) (List.map (fun e => snd (fst e)) l)
    (List.map snd l) (List.map (fun e => let '(V0, zs, z) := e in
       GT_Add B (GT_Add B (GT_ScalarMult B (Pair B pub V0) c)
                          (GT_Invert B (GT_ScalarMult B (Pair B (uG1 B) V0) zs)))
                (GT_ScalarMult B (uE B) z)) l) true = Ok true.
Proof.
elim: l => [//|[[V0 zs] z] l IH] /=. by case: list_eq_dec.
Qed.
Lemma forge_ul_accepted (p : paramsUL B) pub C c zr digits :
  kp_Pubk B (pu_kp B p) = Some pub -> pu_l B p = Z.of_nat (length digits) ->
  VerifyUL B (forgeUL B (pu_H B p) pub (pu_u B p) C c zr digits) p = Ok true.
Proof.
move=> Ep El. rewrite /VerifyUL El Nat2Z.id Ep [up_zsig _ _]/=.
have L : length digits = length (List.map (fun e : tG2 B * Z * Z => snd (fst e)) digits) by rewrite map_length.
rewrite {1}L VerifyUL_D_forge [bind _ _]/= VerifyUL_a_forge /=. by case: list_eq_dec.
Qed.

(** ** C36: leakage *)
Lemma recover_ok x y c : ~ eqm c 0 -> recover y (bmod (y - x * c) bnOrder) c = (x mod bnOrder)%Z.
Proof.
move=> c0. rewrite /recover. apply: ph_modeq. rewrite !phE ph_invm. exact: alg_recover (neqm0 c0).
Qed.
Lemma ProveSet_fields tp x r p pr : ProveSet B sha tp x r p = Ok pr ->
  [/\ sp_zr B pr = bmod (sp_m B pr - r * sp_c B pr) bnOrder,
      sp_zsig B pr = bmod (sp_s B pr - x * sp_c B pr) bnOrder &
      sp_zv B pr = bmod (sp_t B pr - ts_v tp * sp_c B pr) bnOrder].
Proof.
rewrite /ProveSet. case: (lookup _ _ _) => [[A|]|] //.
case: (HashSet _ _ _ _) => // c. by case=> <-.
Qed.
Lemma leak_set tp x r p pr : ProveSet B sha tp x r p = Ok pr -> ~ eqm (sp_c B pr) 0 ->
  recover (sp_s B pr) (sp_zsig B pr) (sp_c B pr) = (x mod bnOrder)%Z /\
  recover (sp_m B pr) (sp_zr B pr) (sp_c B pr) = (r mod bnOrder)%Z.
Proof. move=> /ProveSet_fields [-> -> _] c0. by rewrite !recover_ok. Qed.

Lemma ProveUL_loop_length sigs u i decx tp D w : ProveUL_loop B sigs u i decx tp D = Ok w ->
  (length decx <= length tp)%coq_nat.
Proof.
elim: decx tp i D w => [|d decx IH] [|[[v s] t] tp] i D w //=; try by move=> _; lia.
case: (lookup _ _ _) => [[A|]|] //.
case E: (ProveUL_loop _ _ _ _ _ _ _) => [[[Vs aa] D']||] // _.
have := IH _ _ _ _ E. lia.
Qed.
Lemma responses_recover c decx tp : ~ eqm c 0 -> (length decx <= length tp)%coq_nat ->
  List.map (fun e => recover (fst e) (snd e) c)
    (List.combine (List.firstn (length decx) (List.map tape_s tp)) (fst (responses c decx tp))) =
  List.map (fun d => d mod bnOrder)%Z decx.
Proof.
move=> c0. elim: decx tp => [|d decx IH] [|[[v s] t] tp] //=; first by lia.
move=> H. have := IH tp ltac:(lia). case: (responses c decx tp) => zs zv /= ->.
by rewrite recover_ok.
Qed.
Lemma leak_ul tp x r p pr : ProveUL B sha tp x r p = Ok pr -> ~ eqm (up_c B pr) 0 ->
  List.map (fun e => recover (fst e) (snd e) (up_c B pr)) (List.combine (up_s B pr) (up_zsig B pr)) =
    List.map (fun d => d mod bnOrder)%Z (Decompose x (pu_u B p) (Z.to_nat (pu_l B p))) /\
  recover (up_m B pr) (up_zr B pr) (up_c B pr) = (r mod bnOrder)%Z.
Proof.
rewrite /ProveUL. case: Z.ltb_spec => // l0.
case E: (ProveUL_loop _ _ _ _ _ _ _) => [[[Vs aa] D]||] //. rewrite [bind (Ok _) _]/=.
case: (Hash _ _ _ _) => // c. rewrite [bind (Ok _) _]/=.
case Er: (responses _ _ _) => [zs zv]. case=> <-. rewrite [up_s _ _]/= [up_zsig _ _]/= [up_c _ _]/= [up_m _ _]/= [up_zr _ _]/= => c0.
split; last by rewrite recover_ok. rewrite -(responses_recover c0 (ProveUL_loop_length E)). by rewrite Er.
Qed.
Lemma leak_ul_value tp x r p pr : ProveUL B sha tp x r p = Ok pr -> ~ eqm (up_c B pr) 0 ->
  (0 < pu_u B p <= bnOrder)%Z -> (0 <= pu_l B p)%Z -> (0 <= x < pu_u B p ^ pu_l B p)%Z ->
  x = le_value (pu_u B p) (List.map (fun e => recover (fst e) (snd e) (up_c B pr)) (List.combine (up_s B pr) (up_zsig B pr))).
Proof.
move=> E c0 Hu Hl Hx. rewrite (proj1 (leak_ul E c0)).
have H : List.map (fun d => d mod bnOrder)%Z (Decompose x (pu_u B p) (Z.to_nat (pu_l B p))) = Decompose x (pu_u B p) (Z.to_nat (pu_l B p)).
  have := Decompose_digits x (pu_u B p) (Z.to_nat (pu_l B p)) ltac:(lia).
  elim: (Decompose _ _ _) => [//|d l IH] Hf. inversion Hf; subst. rewrite /= IH // Z.mod_small //. lia.
rewrite H. apply: Logic.eq_sym. apply/Decompose_exact; first by lia. by rewrite Z2Nat.id.
Qed.

Variable W : bilinear B.
Hypothesis hash : hash_bytes sha.
Local Notation R1 := (R1 W).
Local Notation R2 := (R2 W).
Local Notation RT := (RT W).
Local Notation pairable := (pairable W).

(** ** C31 *)
Lemma sig_verifies m k pub s : R1 pub k -> addable m k -> Sign B m k = Ok s -> verify B s m pub = Ok true.
Proof.
move=> Rp A E. have N : ~ eqm (m + k) 0 by move=> /Sign_panic H; move: E; rewrite H.
have [s' [E' [i [Ri Ei n0 Ps]]]] := Sign_spec W N. have ? : s' = s by congruence. subst s'.
have [b [-> Hb]] := verify_spec Ri Ps Rp A. congr Ok. apply/Hb. apply/eqmP. rewrite !phE Ei. by rewrite mulVf.
Qed.
Lemma verify_unique m k pub s w : R1 pub k -> addable m k -> R2 s w -> pairable s -> verify B s m pub = Ok true ->
  exists s', Sign B m k = Ok s' /\ G2_Marshal B s' = G2_Marshal B s.
Proof.
move=> Rp A Rs Ps. have [b [-> Hb]] := verify_spec Rs Ps Rp A. case=> Eb.
have /eqmP := proj1 Hb Eb. rewrite !phE => E.
have N : ~ eqm (m + k) 0.
  move=> /eqm0P. rewrite zph_add => H. move: E. rewrite H mulr0 => /eqP. by rewrite eq_sym oner_eq0.
have [s' [E' [i [Ri Ei n0 _]]]] := Sign_spec W N. exists s'. split=> //.
apply/(R2_bytes Ri Rs)/eqmP. rewrite Ei. apply: (mulIf n0). by rewrite mulVf.
Qed.
Lemma Sign_panic_iff m k : Sign B m k = Panic <-> eqm (m + k) 0.
Proof.
split; last exact: Sign_panic. move=> E.
case: (Z.eq_dec ((m + k) mod bnOrder) (0 mod bnOrder)) => // N.
have [s [E' _]] := Sign_spec W N. by rewrite E' in E.
Qed.

(** ** C33 *)
Lemma SetupSet_iff k s : (exists p, SetupSet B k s = Ok p) <-> (forall m, List.In m s -> ~ eqm (m + k) 0).
Proof.
split; last by move=> /(SetupSet_ok W) [p [E _]]; exists p.
move=> [p E] m Hin Em. move: E. rewrite /SetupSet. have [pub [-> _]] := Keygen_spec W k.
by rewrite /= (sign_all_panic [::] Hin Em).
Qed.
Lemma SetupSet_inv k s p : SetupSet B k s = Ok p ->
   ps_H B p = setupH B /\
    (exists pub, ps_kp B p = Keypair B (Some pub) k /\ R1 pub k) /\
    forall x, (List.In x s -> good_sig W k x (lookup B (ps_signatures B p) (big_String x))) /\
              (~ List.In x s -> lookup B (ps_signatures B p) (big_String x) = None).
Proof.
move=> E. have N := proj1 (SetupSet_iff k s) (ex_intro _ p E).
have [p' [E' H]] := SetupSet_ok W N. have ? : p' = p by congruence. by subst p'.
Qed.
Lemma set_fails k s p tp x r : SetupSet B k s = Ok p ->
  (ProveSet B sha tp x r p = Err <-> ~ List.In x s) /\ (List.In x s -> exists pr, ProveSet B sha tp x r p = Ok pr).
Proof.
move=> /SetupSet_inv [_ [_ H]]. have [H1 H2] := H x.
have G : List.In x s -> exists pr, ProveSet B sha tp x r p = Ok pr.
  move=> /H1 [A [L _]]. have [pr [E _ _ _ _]] := ProveSet_ok hash tp r L. by exists pr.
split=> //. split; last by move=> /H2; apply: ProveSet_err.
move=> E Hin. have [pr E'] := G Hin. congruence.
Qed.
Lemma set_complete k s p tp x r pr : SetupSet B k s = Ok p ->
  tapeSet_range tp ->
  ProveSet B sha tp x r p = Ok pr -> set_nondegenerate W hExp x r pr -> VerifySet B pr p = Ok true.
Proof.
move=> S s0 E N. have [EH [[pub [Ek Rp]] H]] := SetupSet_inv S.
have [D|D] := in_dec Z.eq_dec x s; last by rewrite (proj2 (proj1 (set_fails tp x r S)) D) in E.
have [A [L [i [Ri Ei n0 _]]]] := proj1 (H x) D.
apply: (VerifySet_honest hash (pub := pub) (k := k) (h := hExp) _ Rp _ L Ri _ s0 E N).
- by rewrite Ek.
- rewrite EH. exact: setupH_spec.
- by rewrite Ei mulVf // mul1r.
Qed.

(** VerifySet reads only the public key and H *)
Lemma VerifySet_ext pr p p' : ps_H B p' = ps_H B p -> kp_Pubk B (ps_kp B p') = kp_Pubk B (ps_kp B p) ->
  VerifySet B pr p' = VerifySet B pr p.
Proof. by rewrite /VerifySet => -> ->. Qed.

(** C57: the identity as V *)
Lemma identity_attack k s p m sv t x r : SetupSet B k s = Ok p -> (0 <= m)%Z -> (0 <= sv)%Z -> (0 <= t)%Z -> (0 <= x)%Z -> (0 <= r)%Z ->
  exists pr, ProveSet B sha (TapeSet m 0 sv t) x r
      (ParamsSet B [:: (big_String x, Some (G2_SetInfinity B))] (ps_H B p) (ps_kp B p)) = Ok pr /\
    sp_C B pr = Commit B x r (ps_H B p) /\
    (chain (hExp * m) [:: sv] -> chain x [:: hExp * r]%Z ->
     chain ((x + hExp * r) * sp_c B pr) [:: hExp * sp_zr B pr; sp_zsig B pr]%Z ->
     VerifySet B pr p = Ok true).
Proof.
move=> S m0 s0 t0 x0 r0. have [EH [[pub [Ek Rp]] _]] := SetupSet_inv S.
set p' := ParamsSet _ _ _ _.
have L : lookup B (ps_signatures B p') (big_String x) = Some (Some (G2_SetInfinity B)) by apply: lookup_cons_eq.
have [pr [E [Es [Em Et]] [EV EC] _ _]] := ProveSet_ok hash (TapeSet m 0 sv t) r L.
exists pr. split=> //. split=> // A1 A2 A3.
have RV : R2 (sp_V B pr) (0 * 0) by rewrite EV; apply: R2_mul (R2_inf W) (scalar_nonneg (Z.le_refl 0)).
rewrite -(@VerifySet_ext pr p p' erefl erefl).
apply: (VerifySet_honest hash (W := W) (pub := pub) (k := k) (h := hExp) (w := 0%Z) _ Rp _ L _ _ _ E _) => //.
- by rewrite Ek.
- rewrite EH. exact: setupH_spec.
- exact: R2_inf.
- by rewrite /= !phE mulr0.
- split; first by apply: pairable_id; exact: RV.
  do 2 (split; first exact: scalar_nonneg). by rewrite Em Es.
Qed.

(** C55: the parameters contain the signing key *)
Lemma signing_key_attack k s p tp x r : SetupSet B k s = Ok p -> ~ eqm (x + k) 0 -> tapeSet_range tp ->
  exists sig pr, Sign B x (kp_Privk B (ps_kp B p)) = Ok sig /\
    ProveSet B sha tp x r (ParamsSet B [:: (big_String x, Some sig)] (ps_H B p) (ps_kp B p)) = Ok pr /\
    sp_C B pr = Commit B x r (ps_H B p) /\
    (set_nondegenerate W hExp x r pr -> VerifySet B pr p = Ok true).
Proof.
move=> S N s0. have [EH [[pub [Ek Rp]] _]] := SetupSet_inv S.
rewrite Ek [kp_Privk _ _]/=. have [sig [E1 [i [Ri Ei n0 _]]]] := Sign_spec W N. exists sig.
set p' := ParamsSet _ _ _ _.
have L : lookup B (ps_signatures B p') (big_String x) = Some (Some sig) by apply: lookup_cons_eq.
have [pr [E _ [EV EC] _ _]] := ProveSet_ok hash tp r L.
exists pr. split=> //. split=> //. split=> // Nd.
rewrite -(@VerifySet_ext pr p p' erefl); last by rewrite Ek.
apply: (VerifySet_honest hash (W := W) (pub := pub) (k := k) (h := hExp) (w := i) _ Rp _ L Ri _ s0 E Nd) => //.
- rewrite EH. exact: setupH_spec.
- by rewrite Ei mulVf // mul1r.
Qed.

(** ** C56: special soundness *)
Lemma special_soundness (p : paramsSet B) pub k h (p1 p2 : proofSet B) y w d a :
  kp_Pubk B (ps_kp B p) = Some pub -> R1 pub k -> R2 (ps_H B p) h ->
  sp_C B p2 = sp_C B p1 -> sp_V B p2 = sp_V B p1 -> sp_D B p2 = sp_D B p1 -> sp_a B p2 = sp_a B p1 ->
  R2 (sp_C B p1) y -> R2 (sp_V B p1) w -> pairable (sp_V B p1) -> R2 (sp_D B p1) d -> RT (sp_a B p1) a ->
  (forall q, q = p1 \/ q = p2 -> (0 <= sp_c B q /\ 0 <= sp_zr B q /\ 0 <= sp_zsig B q /\ 0 <= sp_zv B q)%Z /\
     chain (y * sp_c B q) [:: h * sp_zr B q; sp_zsig B q]%Z /\ VerifySet B q p = Ok true) ->
  ~ eqm (sp_c B p1 - sp_c B p2) 0 ->
  let x := extract (sp_zsig B p1) (sp_zsig B p2) (sp_c B p1) (sp_c B p2) in
  let r := extract (sp_zr B p1) (sp_zr B p2) (sp_c B p1) (sp_c B p2) in
  let v := extract (sp_zv B p1) (sp_zv B p2) (sp_c B p1) (sp_c B p2) in
  eqm y (x + h * r) /\ eqm (w * (x + k)) v.
Proof.
move=> Ep Rp RH C2 V2 D2 a2 RC RV PV RD Ra Hq n0.
have [[c1 [z1 [s1 v1]]] [A1 E1]] := Hq p1 (or_introl erefl).
have [[c2 [z2 [s2 v2]]] [A2 E2]] := Hq p2 (or_intror erefl).
have [b1 [F1 H1]] := VerifySet_iff Ep Rp RH RC RV PV RD Ra c1 z1 s1 v1 A1.
rewrite -C2 in RC. rewrite -V2 in RV PV. rewrite -D2 in RD. rewrite -a2 in Ra.
have [b2 [F2 H2]] := VerifySet_iff Ep Rp RH RC RV PV RD Ra c2 z2 s2 v2 A2.
have B1 : b1 = true by congruence. have B2 : b2 = true by congruence.
have [/eqmP G1 /eqmP G1'] := proj1 H1 B1. have [/eqmP G2 /eqmP G2'] := proj1 H2 B2.
move: G1 G1' G2 G2' (neqm0 n0). rewrite !phE => G1 G1' G2 G2' n1.
cbv zeta. rewrite !eqmP /extract !phE ?ph_mod ?phE !ph_invm ?phE.
split; [exact: (alg_extract n1 G1 G2)|exact: (alg_extract2 n1 G1' G2')].
Qed.

(** ** C54: the logarithm of H is public *)
Lemma hExp_unit : ~ eqm hExp 0.
Proof. Local Transparent hExp bnOrder. rewrite /eqm => H. vm_compute in H. discriminate. Qed.
Local Opaque hExp bnOrder.
Lemma equivocate_alg h x r x' : ~ eqm h 0 ->
  eqm (x + h * r) (x' + h * ((r + (x - x') * invm h) mod bnOrder)).
Proof.
move=> h0. apply/eqmP. rewrite !zph_add !zph_mul ph_mod zph_add zph_mul zph_sub ph_invm.
apply: alg_bind. exact: mulfV (neqm0 h0).
Qed.
Lemma equivocate x r x' : let r' := ((r + (x - x') * invm hExp) mod bnOrder)%Z in
  (0 <= x)%Z -> (0 <= r)%Z -> (0 <= x')%Z -> chain x [:: hExp * r]%Z -> chain x' [:: hExp * r']%Z ->
  G2_Marshal B (Commit B x r (setupH B)) = G2_Marshal B (Commit B x' r' (setupH B)).
Proof.
move=> r' x0 r0 x1 [A1 _] [A2 _]. have r1 : (0 <= r')%Z := proj1 (Z.mod_pos_bound _ _ order_pos).
apply/(R2_bytes (Commit_spec (setupH_spec W) (scalar_nonneg x0) (scalar_nonneg r0) A1)
                (Commit_spec (setupH_spec W) (scalar_nonneg x1) (scalar_nonneg r1) A2)).
exact: (equivocate_alg x r x' hExp_unit).
Qed.

(** ** C58: simulation *)
Lemma simulate (p : paramsSet B) pub k h x r A i c zr zsig zv om tp pr :
  kp_Pubk B (ps_kp B p) = Some pub -> R1 pub k -> R2 (ps_H B p) h ->
  lookup B (ps_signatures B p) (big_String x) = Some (Some A) -> R2 A i -> eqm (i * (x + k)) 1 ->
  (0 <= c < bnOrder)%Z -> (0 <= zr < bnOrder)%Z -> (0 <= zsig < bnOrder)%Z -> (0 <= zv < bnOrder)%Z -> (0 <= om)%Z -> pairable (G2_ScalarBaseMult B om) ->
  tp = TapeSet ((zr + r * c) mod bnOrder) ((om * (x + k)) mod bnOrder) ((zsig + x * c) mod bnOrder)
               ((zv + om * (x + k) * c) mod bnOrder) ->
  ProveSet B sha tp x r p = Ok pr -> sp_c B pr = c -> set_nondegenerate W h x r pr ->
  let f := forgeSet B (ps_H B p) pub (Commit B x r (ps_H B p)) (G2_ScalarBaseMult B om) c zr zsig zv in
  [/\ sp_zr B pr = zr, sp_zsig B pr = zsig, sp_zv B pr = zv &
  [/\ G2_Marshal B (sp_V B pr) = G2_Marshal B (sp_V B f), G2_Marshal B (sp_D B pr) = G2_Marshal B (sp_D B f),
      GT_Marshal B (sp_a B pr) = GT_Marshal B (sp_a B f) & sp_C B pr = sp_C B f]].
Proof.
move=> Ep Rp RH L RA /eqmP Si Hc Hzr Hzs Hzv om0 Po Etp E Ec [PV [x0 [r0 [[A1 _] [[A2 _] [A3 [A4 _]]]]]]].
have [pr' [E' [Es [Em Et]] [EV EC] [_ [c0 Ezr Ezs Ezv]] [ED Ea]]] := ProveSet_ok hash tp r L.
have ? : pr' = pr by congruence. subst pr'.
rewrite Ec in Ezr Ezs Ezv A3 A4.
have Qr : sp_zr B pr = zr.
  rewrite Ezr Etp /=. apply: (zph_small (f := zfR)); [apply: Z.mod_pos_bound; exact: order_pos|by []|].
  by rewrite !phE ?ph_mod ?phE addrK.
have Qs : sp_zsig B pr = zsig.
  rewrite Ezs Etp /=. apply: (zph_small (f := zfR)); [apply: Z.mod_pos_bound; exact: order_pos|by []|].
  by rewrite !phE ?ph_mod ?phE addrK.
have Qv : sp_zv B pr = zv.
  rewrite Ezv Etp /=. apply: (zph_small (f := zfR)); [apply: Z.mod_pos_bound; exact: order_pos|by []|].
  by rewrite !phE ?ph_mod ?phE addrK.
rewrite Es Em in A1. rewrite Qr in A3 A4. rewrite Qs in A4.
move: Si. rewrite !phE => Si.
have m0 : (0 <= ts_m tp)%Z by rewrite Etp; apply: (proj1 (Z.mod_pos_bound _ _ order_pos)).
have v0 : (0 <= ts_v tp)%Z by rewrite Etp; apply: (proj1 (Z.mod_pos_bound _ _ order_pos)).
have s0 : (0 <= ts_s tp)%Z by rewrite Etp; apply: (proj1 (Z.mod_pos_bound _ _ order_pos)).
have t0 : (0 <= ts_t tp)%Z by rewrite Etp; apply: (proj1 (Z.mod_pos_bound _ _ order_pos)).
have RV : R2 (sp_V B pr) (i * ts_v tp) by rewrite EV; apply: R2_mul RA (scalar_nonneg v0).
have RD : R2 (sp_D B pr) (0 + (h * ts_m tp + ts_s tp)).
  rewrite ED. apply: R2_add; [exact: R2_inf| |by []].
  apply: R2_add; [exact: R2_mul RH (scalar_nonneg m0)|exact: R2_base (scalar_nonneg s0)|exact: A1].
have Ra := prover_a RV PV s0 t0. rewrite -Ea in Ra.
have RC := Commit_spec RH x0 r0 A2.
have RV' := R2_base (scalar_nonneg om0 : scalar W om).
have zr0 : (0 <= zr)%Z by lia.
have zs0 : (0 <= zsig)%Z by lia. have zv0 : (0 <= zv)%Z by lia. have c00 : (0 <= c)%Z by lia.
have HD := R2_add (R2_add (R2_mul RC (scalar_nonneg c00)) (R2_mul RH (scalar_nonneg zr0)) A3) (R2_base (scalar_nonneg zs0)) A4.
have HT := RT_add (RT_add (RT_mul (pair_law Rp RV' Po) c00) (RT_inv (RT_mul (pair_law (R1_base W 1) RV' Po) zs0)))
                  (RT_mul (uE_spec W) zv0).
have Ev : ph (i * ts_v tp)%Z = ph om.
  rewrite Etp !phE ?ph_mod ?phE mulrCA Si mulr1. by [].
split=> //. split=> //.
- apply/(R2_bytes RV RV')/eqmP. exact: Ev.
- apply/(R2_bytes RD HD)/eqmP. rewrite Etp !phE ?ph_mod ?phE add0r. exact: alg_sim1.
- apply/(RT_bytes Ra HT)/eqmP. rewrite !phE -zph_mul Ev Etp !ph_mod !phE.
  exact: alg_sim2.
Qed.
End Laws.

(** ** The toy instance *)
Definition toy_bilinear : bilinear toy.
Proof.
refine (@Bilinear toy (fun p x => eqm p x) (fun p x => eqm p x) (fun p x => eqm p x) (fun _ => True) (fun _ => True)
  _ _ _ _ _ _ _ _ _ _ _ _ _ _ _ _ _ _ _ _ _).
- move=> p x y H E. exact: eqm_trans H E.
- move=> p x y H E. exact: eqm_trans H E.
- by [].
- move=> a b x y /eqmP H /eqmP H' _. apply/eqmP. by rewrite !phE H H'.
- move=> a x H. exists (a mod bnOrder)%Z. split=> //. apply: eqm_trans (eqm_bmod a) H.
- by [].
- by [].
- by [].
- move=> a x k /eqmP H _. apply/eqmP. by rewrite !phE H.
- move=> a b x y /eqmP H /eqmP H' _. apply/eqmP. by rewrite !phE H H'.
- move=> a x H. exists (a mod bnOrder)%Z. split=> //. split=> //. apply: eqm_trans (eqm_bmod a) H.
- move=> a b x y H H' /=. split.
    case=> E. apply: eqm_trans (eqm_sym H) _. by apply: eqm_trans H'.
  move=> E. congr [:: _]. have : eqm a b by apply: eqm_trans H _; apply: eqm_trans E _; apply: eqm_sym. by [].
- move=> a x k /eqmP H _. apply/eqmP. by rewrite !phE H.
- move=> a x /eqmP H. apply/eqmP. by rewrite !phE H.
- move=> a x /eqmP H. apply/eqmP. by rewrite !phE H.
- move=> a b x y /eqmP H /eqmP H'. apply/eqmP. by rewrite !phE H H'.
- move=> a x H /=. rewrite Z.eqb_eq. have -> : (a mod bnOrder = x mod bnOrder)%Z by []. by rewrite /eqm Zmod_0_l.
- move=> a b x y H H' /=. split.
    case=> E. apply: eqm_trans (eqm_sym H) _. by apply: eqm_trans H'.
  move=> E. congr [:: _]. have : eqm a b by apply: eqm_trans H _; apply: eqm_trans E _; apply: eqm_sym. by [].
- by [].
- by [].
- move=> a b x y /eqmP H /eqmP H' _. apply/eqmP. by rewrite !phE H H'.
Defined.
