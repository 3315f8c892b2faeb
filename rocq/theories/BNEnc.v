(** * Encodings of G1, G2 and GT *)
From Coq Require Import ZArith Znumtheory Lia Bool List.
From mathcomp Require Import all_ssreflect all_algebra.
From Verif Require Import Base BaseFacts Fp ZMod SpecCurve ZField MCRing EC ECGroup PtGroup Jac FieldExt BB BN256 BNTower BNField ZExp BNFrob SpecBN BNG1 BNG2 BNBytes.
Set Implicit Arguments.
Unset Strict Implicit.
Unset Printing Implicit Defensive.
Import GRing.Theory.
Delimit Scope Z_scope with Z.
Local Open Scope ring_scope.
Local Infix "++" := List.app.
Local Arguments Z.mul : simpl never.
Local Arguments Z.add : simpl never.
Local Arguments Z.sub : simpl never.
Local Arguments Z.modulo : simpl never.
Local Arguments Z.pow : simpl never.
Lemma bnP_256 : (bn_P < 2 ^ 256)%Z. Proof. by vm_compute. Qed.
Local Opaque bn_P ModInverse mk2 mk6 mk12.

Lemma be32E v : be32 v = be 32 v. Proof. by []. Qed.
Local Opaque be32 be.
Lemma p256 x : (0 <= x < bn_P)%Z -> (0 <= x < 2 ^ 256)%Z. Proof. have := bnP_256. lia. Qed.
Lemma enc_mod z : block32 (Bytes (bmod z bn_P)) = be32 (z mod bn_P)%Z.
Proof. exact: (block32_be _ (p256 (mod_range z))). Qed.

(** ** G1 *)
Lemma ph_to x z : (0 <= x < bn_P)%Z -> ph x = ph z -> (z mod bn_P = x)%Z.
Proof. move=> R /ph_eq <-. exact: Z.mod_small. Qed.
Lemma g1_affine c : g1_ok c -> exists n, cp_MakeAffine c = Some n /\ g1_ok n /\ g1v n = g1v c /\
  g1_bytes (g1v c) = be32 (cpx n mod bn_P)%Z ++ be32 (cpy n mod bn_P)%Z.
Proof.
move=> /g1_okE [oc [z0 zc]].
have R := g1v_range c. have E := em_g1v c.
have A n : jv n = Aff (ph (cpx n)) (ph (cpy n)) -> jv n = jv c ->
    g1_bytes (g1v c) = be32 (cpx n mod bn_P)%Z ++ be32 (cpy n mod bn_P)%Z.
  move=> H1 H2. move: E R. rewrite -H2 H1. case: (g1v c) => [[x y]|] //= [Ex Ey] [Rx Ry].
  by rewrite (ph_to Rx Ex) (ph_to Ry Ey).
rewrite /cp_MakeAffine /big_IsOneWord. case: Z.eqb_spec => H.
  have zE : cpz c = 1%Z by lia.
  exists c. split=> //. split; first by apply/g1_okE.
  split=> //. apply: A => //. by rewrite /jv zE ph1 jpt1.
rewrite /cp_IsInfinity. case: Z.eqb_spec => H0.
  have N : g1v c = None by rewrite /g1v H0 Zmod_0_l.
  exists (CurvePoint 0 1 0 0). have J : jv (CurvePoint 0 1 0 0) = em None by rewrite /jv /= ph0 jpt0.
  have [||||O V] := @ok_of (CurvePoint 0 1 0 0) None => //.
  split=> //. split=> //. rewrite N. split; first exact: V. rewrite [cpx _]/= [cpy _]/= Zmod_0_l Z.mod_small; [by []|have := bnP_gt3; lia].
have zm : (cpz c mod bn_P <> 0)%Z by move=> X; apply: H0; apply: zc.
have P1 : (1 < bn_P)%Z by have := bnP_gt3; lia.
have [i [Ei [Ri Ii]]] := ModInverse_Some (cpz c) bn_P P1 (prime_gcd _ _ bnP_prime zm).
rewrite Ei. eexists. split; first reflexivity. set n := CurvePoint _ _ _ _.
have zi : ph i = (ph (cpz c))^-1.
  have z1 : ph (cpz c) != 0 by apply/eqP => /ph_eq0.
  apply: (mulIf z1). rewrite -phM mulVf // -ph1. apply/ph_eq. by rewrite Ii Z.mod_small.
have z1 : (ph (cpz c) == 0) = false by apply/eqP => /ph_eq0.
have Jn : jv n = jv c.
  rewrite /jv /n /= ph1 jpt1 !phE zi /jpt z1. congr Aff; rewrite !exprS expr0 mulr1 !invfM.
    by []. by rewrite !mulrA.
have [||||O V] := @ok_of n (g1v c) => //; try (by rewrite E); try (by rewrite Jn E).
split=> //. split=> //. apply: A => //. by rewrite {1}/jv /n /= ph1 jpt1.
Qed.
Lemma g1_marshal c : g1_ok c -> exists n, G1Marshal c = Some (g1_bytes (g1v c), n) /\ g1_ok n /\ g1v n = g1v c.
Proof.
move=> ok. have [n [E [O [V B]]]] := g1_affine ok. exists n. by rewrite /G1Marshal E !enc_mod B.
Qed.
Lemma zrange256 x y : zrange (Some (x, y)) -> (0 <= x < 2 ^ 256)%Z /\ (0 <= y < 2 ^ 256)%Z.
Proof. move=> [A B]. split; exact: p256. Qed.
Lemma app_inj_len (A : Type) (a b c d : list A) : length a = length c -> a ++ b = c ++ d -> a = c /\ b = d.
Proof.
elim: a c => [|x a IH] [|y c] //= [L] [-> E]. by have [-> ->] := IH _ L E.
Qed.
Lemma one256 : (0 <= 1 < 2 ^ 256)%Z. Proof. by []. Qed.
Lemma zero256 : (0 <= 0 < 2 ^ 256)%Z. Proof. by []. Qed.
Lemma not01 : ~ zon bn_P 3 (Some (0, 1)%Z).
Proof. move=> [_ [_]]. by vm_compute. Qed.
Lemma g1_bytes_inj q r : zon bn_P 3 q -> zon bn_P 3 r -> g1_bytes q = g1_bytes r -> q = r.
Proof.
have L v w : length (be32 v) = length (be32 w) by rewrite !be32E !be_length.
case: q => [[x y]|]; case: r => [[x' y']|] // oq or H; have [E1 E2] := app_inj_len (L _ _) H.
- have [A B] := zrange256 (zon_range oq). have [C D] := zrange256 (zon_range or).
  by rewrite (be32_inj _ _ A C E1) (be32_inj _ _ B D E2).
- have [A B] := zrange256 (zon_range oq). case: not01.
  by rewrite -(be32_inj _ _ A zero256 E1) -(be32_inj _ _ B one256 E2).
- have [C D] := zrange256 (zon_range or). case: not01.
  by rewrite (be32_inj _ _ zero256 C E1) (be32_inj _ _ one256 D E2).
Qed.
Lemma IsOnCurve_ok c : cp_IsOnCurve c = ((cpy c * cpy c) mod bn_P =? (cpx c * cpx c * cpx c + 3) mod bn_P)%Z.
Proof.
rewrite /cp_IsOnCurve /curveB /bmod. set d := (_ - _ - 3)%Z.
have P0 := bnP_pos.
have -> : ((if (d <? 0)%Z || (bn_P <=? d)%Z then (d mod bn_P)%Z else d) =? 0)%Z = (d mod bn_P =? 0)%Z.
  case: Z.ltb_spec => H1 //=. case: Z.leb_spec => H2 //. by rewrite [in RHS]Z.mod_small.
rewrite modZ_ph /d !phE. apply/idP/idP.
  move=> /eqP E. apply/Z.eqb_eq. apply/ph_eq. rewrite !phE. apply/eqP. by rewrite -subr_eq0 opprD addrA E.
move=> /Z.eqb_eq /ph_eq. rewrite !phE => E. rewrite E. apply/eqP. set A := _ * _. set B := ph 3. mcfr K1.
Qed.
(** what Unmarshal does with 64 bytes *)
Definition g1_inf_enc (x y : Z) : bool := ((x =? 0) && ((y =? 0) || (y =? 1)))%Z.
Lemma g1_unmarshal m : bytes_ok m ->
  match G1Unmarshal m with
  | None => length m <> 64%nat \/ (g1_inf_enc (SetBytes (slice32 0 m)) (SetBytes (slice32 1 m)) = false /\
      let x := SetBytes (slice32 0 m) in let y := SetBytes (slice32 1 m) in
      ((y * y) mod bn_P <> (x * x * x + 3) mod bn_P)%Z)
  | Some c => length m = 64%nat /\ g1_ok c /\
      let x := SetBytes (slice32 0 m) in let y := SetBytes (slice32 1 m) in
      if g1_inf_enc x y then g1v c = None
      else ((y * y) mod bn_P = (x * x * x + 3) mod bn_P)%Z /\ g1v c = Some (x mod bn_P, y mod bn_P)%Z
  end.
Proof.
move=> B. rewrite /G1Unmarshal. case: Nat.eqb_spec => [L|L] /=; last by left.
set x := SetBytes _. set y := SetBytes _.
have -> : ((x =? 0)%Z && (y =? 0)%Z || (x =? 0)%Z && (y =? 1)%Z) = g1_inf_enc x y by rewrite /g1_inf_enc andb_orr.
case I : g1_inf_enc => /=.
  have J : jv (CurvePoint x 1 0 0) = em None by rewrite /jv /= ph0 jpt0.
  have [||||O V] := @ok_of (CurvePoint x 1 0 0) None => //.
rewrite IsOnCurve_ok /=. case: Z.eqb_spec => H /=; last by right.
have J : jv (CurvePoint x y 1 1) = em (Some (x mod bn_P, y mod bn_P)%Z) by rewrite /jv /= ph1 jpt1 !phmodZ.
have Rg : zrange (Some (x mod bn_P, y mod bn_P)%Z) by split; exact: mod_range.
have P1 : (1 mod bn_P = 1)%Z by rewrite Z.mod_small //; have := bnP_gt3; lia.
have [|||O V] := @ok_of (CurvePoint x y 1 1) (Some (x mod bn_P, y mod bn_P)%Z) Rg; last by [].
- apply/(em_on Rg). case: Rg => Ra Rb. split=> //. split=> //.
  apply/ph_eq. rewrite !phE. move/ph_eq: H. by rewrite !phE.
- by [].
- split; [by []|by rewrite /zz /= P1].
Qed.
Lemma g1_roundtrip c : g1_ok c -> exists c', G1Unmarshal (g1_bytes (g1v c)) = Some c' /\ g1_ok c' /\ g1v c' = g1v c.
Proof.
move=> ok. have o : zon bn_P 3 (g1v c) by case: ok.
have S x y : (0 <= x < 2 ^ 256)%Z -> (0 <= y < 2 ^ 256)%Z ->
    let m := List.app (be32 x) (be32 y) in
    [/\ length m = 64%nat, bytes_ok m, SetBytes (slice32 0 m) = x & SetBytes (slice32 1 m) = y].
  move=> Rx Ry. have F : Forall (fun b : list Z => length b = 32%nat) [:: be 32 x; be 32 y].
    by do !constructor; rewrite be_length.
  move=> m.
  have C : m = concat [:: be 32 x; be 32 y] by rewrite /m !be32E /= List.app_nil_r.
  rewrite C. split; first by rewrite concat_len.
  - rewrite /= List.app_nil_r. apply/Forall_app; split; exact: be_ok.
  - rewrite slice_app; [exact: be32_val|exact: F|rewrite /=; lia].
  - rewrite slice_app; [exact: be32_val|exact: F|rewrite /=; lia].
case E : (g1v c) o => [[x y]|] o /=.
- have [Rx Ry] := zrange256 (zon_range o). have [L B X Y] := S x y Rx Ry.
  have := g1_unmarshal B. rewrite X Y /=. case: G1Unmarshal => [c'|]; last first.
    by case => [|[_]]; [rewrite L|case: o => _ [_]].
  move=> [_ [O V]]. exists c'. split=> //. split=> //. move: V => /=.
  case I : (g1_inf_enc x y); last first.
    move=> [_ ->]. case: o => [r1 [r2 _]]. by rewrite !Z.mod_small.
  exfalso. move: I o. rewrite /g1_inf_enc => /andP [/Z.eqb_eq -> /orP [] /Z.eqb_eq ->] [_ [_]]; by vm_compute.
- have [L B X Y] := S _ _ zero256 one256. move: (g1_unmarshal B). rewrite X Y. set U := G1Unmarshal _. case: U => [c'|]; last by case=> [|[]]; [rewrite L|by []].
  move=> [_ [O V]]. by exists c'.
Qed.

(** ** G2 *)
Lemma IsOne_v2 z : tok z -> gfP2_IsOne z -> z = gfP2_One.
Proof.
move=> [z0 _]. rewrite /gfP2_IsOne /big_IsOneWord. case: z z0 => x y /= z0. case: Z.eqb_spec => //= ->.
move/Z.eqb_eq => H. congr GfP2. lia.
Qed.
Lemma v2_mod a b : v2 (GfP2 (a mod bn_P)%Z (b mod bn_P)%Z) = v2 (GfP2 a b).
Proof. by rewrite !v2E /= !phmodZ. Qed.
Lemma One_tok : tok gfP2_One.
Proof. split=> // /eqP. by rewrite v2_One oner_eq0. Qed.
Lemma g2v_one x y t : g2v (TwistPoint x y gfP2_One t) = Aff (v2 x) (v2 y).
Proof. by rewrite g2vE /= v2_One jpt1. Qed.
Lemma g2_affine c : g2_ok c -> g2v c <> Inf ->
  g2_ok (tp_MakeAffine c) /\ g2v (tp_MakeAffine c) = g2v c /\ tpz (tp_MakeAffine c) = gfP2_One.
Proof.
move=> ok N. rewrite /tp_MakeAffine. case I : gfP2_IsOne.
  split=> //. split=> //. exact: IsOne_v2 (proj2 ok) I.
have z1 : (v2 (tpz c) == 0) = false by apply/eqP => E; apply: N; rewrite g2vE E jpt0.
set n := TwistPoint _ _ _ _.
have V : g2v n = g2v c.
  rewrite /n g2v_one g2vE /jpt z1 !v2ops v2_Invert. congr Aff; rewrite !exprS expr0 mulr1 !invfM.
    by []. by rewrite !mulrA.
split=> //. split; [by rewrite V; case: ok|exact: One_tok].
Qed.
Lemma b0 : bmod 0 bn_P = 0%Z. Proof. by rewrite /bmod Zmod_0_l. Qed.
Lemma Mul_Zero a : gfP2_Mul a (GfP2 0 0) = gfP2_Zero.
Proof. rewrite /gfP2_Mul /=. by rewrite !Z.mul_0_r !Z.add_0_l Z.sub_0_r b0. Qed.
Lemma Square_Zero : gfP2_Square (GfP2 0 0) = gfP2_Zero.
Proof. rewrite /gfP2_Square /=. by rewrite !Z.sub_0_r !Z.add_0_l !Z.mul_0_r b0. Qed.
Lemma Invert_Zero s : gfP2_InvertStale s (GfP2 0 0) = gfP2_Zero.
Proof. rewrite /gfP2_InvertStale /=. by rewrite !Z.mul_0_l b0. Qed.
Lemma g2_affine_inf c : g2_ok c -> g2v c = Inf -> tp_MakeAffine c = TwistPoint gfP2_Zero gfP2_Zero gfP2_One gfP2_One.
Proof.
move=> [_ [_ tz]]. rewrite g2vE /jpt. case: eqP => [/tz zE _|//].
rewrite /tp_MakeAffine zE. have -> : gfP2_IsOne (GfP2 0 0) = false by [].
by rewrite /gfP2_Invert Invert_Zero Square_Zero !Mul_Zero.
Qed.
Lemma g2_marshal c : g2_ok c -> g2v c <> Inf -> exists n xx xy yx yy,
  [/\ (0 <= xx < bn_P)%Z, (0 <= xy < bn_P)%Z, (0 <= yx < bn_P)%Z & (0 <= yy < bn_P)%Z] /\
  g2v c = Aff (v2 (GfP2 xx xy)) (v2 (GfP2 yx yy)) /\
  G2Marshal c = (g2_bytes_of xx xy yx yy, n) /\ g2_ok n /\ g2v n = g2v c.
Proof.
move=> ok N. have [O [V Z1]] := g2_affine ok N. set n := tp_MakeAffine c in O V Z1 *.
exists n, (c2x (tpx n) mod bn_P)%Z, (c2y (tpx n) mod bn_P)%Z, (c2x (tpy n) mod bn_P)%Z, (c2y (tpy n) mod bn_P)%Z.
split; first by split; exact: mod_range.
split. rewrite !v2_mod -V. case: (n) Z1 => -[a b] [a' b'] z t /= ->. exact: g2v_one.
split=> //. by rewrite /G2Marshal /g2_bytes_of -/n !enc_mod.
Qed.
Lemma g2_marshal_inf c : g2_ok c -> g2v c = Inf ->
  G2Marshal c = (g2_bytes_of 0 0 0 0, TwistPoint gfP2_Zero gfP2_Zero gfP2_One gfP2_One).
Proof. move=> ok N. by rewrite /G2Marshal (g2_affine_inf ok N) !enc_mod /= Zmod_0_l. Qed.
Lemma zero_not_on : ~ on_curve g2_b (g2v (TwistPoint gfP2_Zero gfP2_Zero gfP2_One gfP2_One)).
Proof.
rewrite g2v_one v2_Zero /on_curve. rewrite !expr0n /= add0r => /eqP E. have := g2b_neq0. by rewrite -E eqxx.
Qed.
Lemma tIsOnCurve_ok c : tp_IsOnCurve c = (v2 (tpy c) ^+ 2 == v2 (tpx c) ^+ 3 + g2_b).
Proof.
rewrite /tp_IsOnCurve. set yy := gfP2_Sub _ _.
have E : v2 yy = v2 (tpy c) ^+ 2 - v2 (tpx c) ^+ 3 - g2_b.
  by rewrite /yy !v2ops twistB_ok !exprS !expr0 !mulr1 !mulrA.
have T : tok0 (gfP2_Minimal yy).
  apply: tok_zz; apply: small_zz; have := big_Minimal_range (c2x yy); have := big_Minimal_range (c2y yy); rewrite /=; lia.
have -> : (c2x (gfP2_Minimal yy) =? 0)%Z && (c2y (gfP2_Minimal yy) =? 0)%Z = gfP2_IsZero (gfP2_Minimal yy) by [].
rewrite (tok_eq T) v2_Minimal E. by rewrite -addrA -opprD subr_eq0.
Qed.
Definition co (m : list Z) (i : nat) : Z := SetBytes (slice32 i m).
Definition zero4 (m : list Z) : bool := ((co m 0 =? 0) && (co m 1 =? 0) && (co m 2 =? 0) && (co m 3 =? 0))%Z.
Lemma g2_unmarshal m :
  let x := v2 (GfP2 (co m 0) (co m 1)) in let y := v2 (GfP2 (co m 2) (co m 3)) in
  match G2Unmarshal m with
  | None => length m <> 128%nat \/ (zero4 m = false /\ y ^+ 2 <> x ^+ 3 + g2_b)
  | Some c => length m = 128%nat /\ g2_ok c /\
      if zero4 m then g2v c = Inf else y ^+ 2 = x ^+ 3 + g2_b /\ g2v c = Aff x y
  end.
Proof.
move=> x y. rewrite /G2Unmarshal. case: Nat.eqb_spec => [L|L] /=; last by left.
rewrite -!/(co _ _) -/(zero4 m). case I : (zero4 m).
  split=> //. have [] := g2_inf_ok (TwistPoint (GfP2 (co m 0) (co m 1)) gfP2_One gfP2_Zero gfP2_Zero).
  by rewrite /tp_SetInfinity /=; move=> A B.
rewrite tIsOnCurve_ok /=. case: eqP => H /=; last by right.
split=> //. rewrite g2v_one. split=> //. split; last exact: One_tok. rewrite g2v_one. exact/eqP.
Qed.
Lemma g2_bytes_co a b c d : (0 <= a < 2 ^ 256)%Z -> (0 <= b < 2 ^ 256)%Z -> (0 <= c < 2 ^ 256)%Z -> (0 <= d < 2 ^ 256)%Z ->
  let m := g2_bytes_of a b c d in
  length m = 128%nat /\ [/\ co m 0 = a, co m 1 = b, co m 2 = c & co m 3 = d].
Proof.
move=> A B C D m. have F : Forall (fun b => length b = 32%nat) [:: be 32 a; be 32 b; be 32 c; be 32 d].
  by do !constructor; rewrite be_length.
have E : m = concat [:: be 32 a; be 32 b; be 32 c; be 32 d] by rewrite /m /g2_bytes_of !be32E /= List.app_nil_r.
split; first by rewrite E concat_len.
by split; rewrite /co E slice_app //=; try lia; rewrite be32_val.
Qed.
Lemma g2_roundtrip c : g2_ok c -> exists c', G2Unmarshal (fst (G2Marshal c)) = Some c' /\ g2_ok c' /\ g2v c' = g2v c.
Proof.
move=> ok. case E : (g2v c == Inf).
  move/eqP: E => E. rewrite (g2_marshal_inf ok E) /=.
  have [L [C0 C1 C2 C3]] := g2_bytes_co zero256 zero256 zero256 zero256.
  have := g2_unmarshal (g2_bytes_of 0 0 0 0). rewrite /zero4 C0 C1 C2 C3 /=.
  case: G2Unmarshal => [c'|]; last by case=> [|[]] //; rewrite L.
  move=> [_ [O V]]. exists c'. by rewrite V E.
move/eqP: E => E. have [n [xx [xy [yx [yy [[R0 R1 R2 R3] [V [M _]]]]]]]] := g2_marshal ok E. rewrite M /=.
have [L [C0 C1 C2 C3]] := g2_bytes_co (p256 R0) (p256 R1) (p256 R2) (p256 R3).
have := g2_unmarshal (g2_bytes_of xx xy yx yy). rewrite /zero4 C0 C1 C2 C3 /=.
have oc : v2 (GfP2 yx yy) ^+ 2 = v2 (GfP2 xx xy) ^+ 3 + g2_b by apply/eqP; move: (proj1 ok); rewrite V.
case: G2Unmarshal => [c'|]; last by case=> [|[_]] //; rewrite L.
move=> [_ [O H]]. exists c'. split=> //. split=> //. move: H. case I : (_ && _ && _ && _); last by rewrite V => -[].
exfalso. move/andP: I => [/andP [/andP [/Z.eqb_eq x0 /Z.eqb_eq x1] /Z.eqb_eq x2] /Z.eqb_eq x3].
apply: zero_not_on. rewrite g2v_one. by move: (proj1 ok); rewrite V x0 x1 x2 x3.
Qed.
Lemma g2_bytes_inj a b c d a' b' c' d' :
  [/\ (0 <= a < bn_P)%Z, (0 <= b < bn_P)%Z, (0 <= c < bn_P)%Z & (0 <= d < bn_P)%Z] ->
  [/\ (0 <= a' < bn_P)%Z, (0 <= b' < bn_P)%Z, (0 <= c' < bn_P)%Z & (0 <= d' < bn_P)%Z] ->
  g2_bytes_of a b c d = g2_bytes_of a' b' c' d' -> [/\ a = a', b = b', c = c' & d = d'].
Proof.
move=> [A B C D] [A' B' C' D'] E.
have [_ [X0 X1 X2 X3]] := g2_bytes_co (p256 A) (p256 B) (p256 C) (p256 D).
have [_ [Y0 Y1 Y2 Y3]] := g2_bytes_co (p256 A') (p256 B') (p256 C') (p256 D').
by split; [rewrite -Y0 -E X0|rewrite -Y1 -E X1|rewrite -Y2 -E X2|rewrite -Y3 -E X3].
Qed.
Lemma Aff_inj (F : fieldType) (x y x' y' : F) : Aff x y = Aff x' y' -> x = x' /\ y = y'. Proof. by case. Qed.
(** equal bytes iff equal points *)
Lemma g2_marshal_eq c d : g2_ok c -> g2_ok d -> (fst (G2Marshal c) = fst (G2Marshal d) <-> g2v c = g2v d).
Proof.
move=> oc od. split=> E.
  have [c' [U [_ V]]] := g2_roundtrip oc. have [d' [U' [_ V']]] := g2_roundtrip od.
  rewrite -V -V'. by move: U'; rewrite -E U => -[->].
case I : (g2v c == Inf).
  move/eqP: I => I. by rewrite (g2_marshal_inf oc I) g2_marshal_inf // -E.
move/eqP: I => I. have I' : g2v d <> Inf by rewrite -E.
have [n [a [b [a' [b' [[R0 R1 R2 R3] [V [M _]]]]]]]] := g2_marshal oc I.
have [n' [e [f [e' [f' [[S0 S1 S2 S3] [V' [M' _]]]]]]]] := g2_marshal od I'.
rewrite M M'. move: V'. rewrite -E V => /Aff_inj [/v2_inj [/= X0 X1] /v2_inj [/= X2 X3]].
move: X0 X1 X2 X3. by rewrite !Z.mod_small // => -> -> -> ->.
Qed.
Lemma g1_marshal_eq c d : g1_ok c -> g1_ok d -> (g1_bytes (g1v c) = g1_bytes (g1v d) <-> g1v c = g1v d).
Proof. move=> [oc _] [od _]. split=> [|->] //. exact: g1_bytes_inj. Qed.

(** ** GT *)
Lemma flat_concat A B (f : A -> list B) l : flat_map f l = concat (List.map f l).
Proof. by elim: l => //= a l ->. Qed.
Lemma gt_marshal n : GTMarshal n = concat (List.map (fun z => be32 (z mod bn_P)%Z) (coeffs12 n)).
Proof.
rewrite /GTMarshal flat_concat. congr concat. rewrite /coeffs12 /coeffs6 /=.
have E z : block32 (Bytes (big_Minimal z)) = be32 (z mod bn_P)%Z.
  have R := big_Minimal_range z. rewrite block32_be; last exact: p256. rewrite be32E. congr be.
  rewrite /big_Minimal in R *. rewrite /bmod in R *.
  case: Z.ltb_spec R => //= H; case: Z.leb_spec => // H1 _. by rewrite Z.mod_small.
by rewrite !E.
Qed.
Lemma gt_len n : length (GTMarshal n) = 384%nat.
Proof.
rewrite gt_marshal concat_len ?List.map_length //. by rewrite /coeffs12 /coeffs6 /=; do !constructor; rewrite be32E be_length.
Qed.
Lemma gt_co n i : (i < 12)%nat -> co (GTMarshal n) i = (List.nth i (coeffs12 n) 0 mod bn_P)%Z.
Proof.
move=> /ltP H. rewrite /co gt_marshal slice_app.
-
  rewrite (List.nth_indep _ _ (be32 (0 mod bn_P)%Z)); last by rewrite List.map_length.
  rewrite (List.map_nth (fun z => be32 (z mod bn_P)%Z)) be32E. exact: (be32_val _ (p256 (mod_range _))).
- by rewrite /coeffs12 /coeffs6 /=; do !constructor; rewrite be32E be_length.
- by rewrite List.map_length.
Qed.
Lemma gt_unmarshal m : GTUnmarshal m = if Nat.eqb (length m) 384 then
    Some (GfP12 (GfP6 (GfP2 (co m 0) (co m 1)) (GfP2 (co m 2) (co m 3)) (GfP2 (co m 4) (co m 5)))
              (GfP6 (GfP2 (co m 6) (co m 7)) (GfP2 (co m 8) (co m 9)) (GfP2 (co m 10) (co m 11)))) else None.
Proof. rewrite /GTUnmarshal. by case: Nat.eqb. Qed.
Lemma gt_roundtrip n : exists n', GTUnmarshal (GTMarshal n) = Some n' /\ v12 n' = v12 n.
Proof.
rewrite gt_unmarshal gt_len /=. eexists. split; first reflexivity.
rewrite !gt_co // !v12E !v6E /=. by rewrite !v2_mod; case: n => -[[? ?] [? ?] [? ?]] [[? ?] [? ?] [? ?]].
Qed.
Lemma gt_marshal_eq a b : GTMarshal a = GTMarshal b <-> v12 a = v12 b.
Proof.
split=> E.
  have [a' [U V]] := gt_roundtrip a. have [b' [U' V']] := gt_roundtrip b.
  rewrite -V -V'. by move: U'; rewrite -E U => -[->].
rewrite !gt_marshal. congr concat. rewrite /coeffs12 /coeffs6 /=.
move: E => /v12_inj [/v6_inj [/v2_inj [E0 E1] /v2_inj [E2 E3] /v2_inj [E4 E5]]
  /v6_inj [/v2_inj [E6 E7] /v2_inj [E8 E9] /v2_inj [E10 E11]]].
by rewrite E0 E1 E2 E3 E4 E5 E6 E7 E8 E9 E10 E11.
Qed.
(** IsZero and IsOne decide the value *)
Lemma min_zero z : (big_Minimal z =? 0)%Z = (ph z == 0).
Proof.
have R := big_Minimal_range z. rewrite -[ph z]phmodZ.
have -> : (z mod bn_P)%Z = big_Minimal z.
  rewrite /big_Minimal /bmod in R *. case: Z.ltb_spec R => //= H; case: Z.leb_spec => // H1 _. by rewrite Z.mod_small.
rewrite (eqZ_ph R) ?ph0 //.
Qed.
Lemma min_one z : big_IsOneWord (big_Minimal z) = (ph z == 1).
Proof.
have R := big_Minimal_range z. rewrite -[ph z]phmodZ.
have -> : (z mod bn_P)%Z = big_Minimal z.
  rewrite /big_Minimal /bmod in R *. case: Z.ltb_spec R => //= H; case: Z.leb_spec => // H1 _. by rewrite Z.mod_small.
rewrite /big_IsOneWord Z.abs_eq ?(eqZ_ph R) ?ph1 //; first last. lia.
Qed.
Lemma min2_zero a : gfP2_IsZero (gfP2_Minimal a) = (v2 a == 0).
Proof.
rewrite /gfP2_IsZero /= !min_zero. apply/andP/eqP => [[/eqP A /eqP B]|]; first by rewrite v2E A B mk2_0.
rewrite v2E -mk2_0 => /mk2_inj [-> ->]. by rewrite !eqxx.
Qed.
Lemma min2_one a : gfP2_IsOne (gfP2_Minimal a) = (v2 a == 1).
Proof.
rewrite /gfP2_IsOne /= min_zero min_one. case: eqP => A /=.
  apply/eqP/eqP => [B|]; first by rewrite v2E A B mk2_1. by rewrite v2E -mk2_1 => /mk2_inj [].
symmetry. apply/eqP. by rewrite v2E -mk2_1 => /mk2_inj [].
Qed.
Lemma min6_zero a : gfP6_IsZero (gfP6_Minimal a) = (v6 a == 0).
Proof.
rewrite /gfP6_IsZero /= !min2_zero. apply/andP/eqP => [[/andP [/eqP A /eqP B] /eqP C]|]; first by rewrite v6E A B C mk6_0.
rewrite v6E -mk6_0 => /mk6_inj [-> -> ->]. by rewrite !eqxx.
Qed.
Lemma min6_one a : gfP6_IsOne (gfP6_Minimal a) = (v6 a == 1).
Proof.
rewrite /gfP6_IsOne /= !min2_zero min2_one. apply/andP/eqP => [[/andP [/eqP A /eqP B] /eqP C]|]; first by rewrite v6E A B C mk6_1.
rewrite v6E -mk6_1 => /mk6_inj [-> -> ->]. by rewrite !eqxx.
Qed.
Lemma gt_iszero a : GTIsZero a = (v12 a == 0).
Proof.
rewrite /GTIsZero /gfP12_IsZero /= !min6_zero. apply/andP/eqP => [[/eqP A /eqP B]|]; first by rewrite v12E A B mk12_0.
rewrite v12E -mk12_0 => /mk12_inj [-> ->]. by rewrite !eqxx.
Qed.
Lemma gt_isone a : GTIsOne a = (v12 a == 1).
Proof.
rewrite /GTIsOne /gfP12_IsOne /= min6_zero min6_one. apply/andP/eqP => [[/eqP A /eqP B]|]; first by rewrite v12E A B mk12_1.
rewrite v12E -mk12_1 => /mk12_inj [-> ->]. by rewrite !eqxx.
Qed.
