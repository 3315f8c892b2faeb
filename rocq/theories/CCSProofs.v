(** * Proofs for the signatures and ccs08 *)
From Coq Require Import ZArith Znumtheory Lia List Bool.
From mathcomp Require Import all_ssreflect all_algebra.
From Verif Require Import Base BaseFacts ByteConv Util CodecProofs SpecCodec PrimesBN ZField MCRing BB CCS08 SpecCCS.
Set Implicit Arguments.
Unset Strict Implicit.
Unset Printing Implicit Defensive.
Import GRing.Theory.
Local Open Scope ring_scope.
Delimit Scope Z_scope with Z.
Local Arguments Z.mul : simpl never.
Local Arguments Z.add : simpl never.
Local Arguments Z.sub : simpl never.
Local Arguments Z.modulo : simpl never.
Local Arguments Z.opp : simpl never.
Local Arguments Z.of_nat : simpl never.
Local Opaque bnOrder hExp ModInverse.

Arguments R1_eqm {_} {_} {_} {_} {_}.
Arguments R2_eqm {_} {_} {_} {_} {_}.
Arguments R1_base {_}.
Arguments R1_add {_} {_} {_} {_} {_} {_}.
Arguments R1_code {_} {_} {_} {_}.
Arguments R2_inf {_}.
Arguments scalar_nonneg {_} {_} {_}.
Arguments R2_base {_} {_} {_}.
Arguments R2_mul {_} {_} {_} {_} {_}.
Arguments R2_add {_} {_} {_} {_} {_} {_}.
Arguments R2_code {_} {_} {_} {_}.
Arguments R2_bytes {_} {_} {_} {_} {_} {_}.
Arguments RT_mul {_} {_} {_} {_} {_}.
Arguments RT_inv {_} {_} {_} {_}.
Arguments RT_neg {_} {_} {_} {_}.
Arguments RT_add {_} {_} {_} {_} {_} {_}.
Arguments RT_one {_} {_} {_} {_}.
Arguments RT_bytes {_} {_} {_} {_} {_} {_}.
Arguments pairable_id {_} {_} {_}.
Arguments pairable_gen {_}.
Arguments pair_law {_} {_} {_} {_} {_} {_}.

Lemma bnOrder_prime : Znumtheory.prime bnOrder.
Proof. exact bn_r_prime. Qed.
Definition zfR : zfield bnOrder := zfield_of bnOrder_prime.
Local Notation ph := (zph zfR).
Local Notation F := (zK zfR).

Lemma eqmP x y : eqm x y <-> ph x = ph y.
Proof. by rewrite zph_eq. Qed.
Lemma eqm0P x : eqm x 0 <-> ph x = 0.
Proof. by rewrite eqmP zph_0. Qed.
Lemma addableP x y : addable x y <-> (ph x = ph y -> ph x = 0).
Proof. by rewrite /addable eqmP eqm0P. Qed.
Lemma addable_eqm x x' y y' : eqm x x' -> eqm y y' -> addable x y -> addable x' y'.
Proof. rewrite !eqmP !addableP => -> ->. by []. Qed.
Lemma eqm_refl x : eqm x x. Proof. by []. Qed.
Lemma eqm_sym x y : eqm x y -> eqm y x. Proof. by rewrite /eqm => ->. Qed.
Lemma eqm_trans x y z : eqm x y -> eqm y z -> eqm x z. Proof. by rewrite /eqm => -> ->. Qed.
Lemma eqm_bmod x : eqm (bmod x bnOrder) x.
Proof. rewrite /eqm /bmod. exact: Zmod_mod. Qed.
Lemma bmod_ge0 x : (0 <= bmod x bnOrder)%Z.
Proof. apply: (proj1 (Z.mod_pos_bound _ _ _)). have := prime_ge_2 _ bnOrder_prime. lia. Qed.

Lemma hExp_ge0 : (0 <= hExp)%Z.
Proof. by vm_compute. Qed.

Definition phE := (zph_add, zph_mul, zph_sub zfR, zph_opp zfR, zph_0 zfR, zph_1, zph_bmod zfR).

Lemma chain_eqm x x' l : eqm x x' -> chain x l -> chain x' l.
Proof.
elim: l x x' => [//|y l IH] x x' E [a c]. split; first exact: addable_eqm E (eqm_refl y) a.
apply: IH c. move/eqmP: E => E. apply/eqmP. by rewrite !phE E.
Qed.

Section Alg.
Variable F : fieldType.
Add Field Ffield : (mc_field F).
Lemma alg1 (x h r c m s : F) : (x + h * r) * c + h * (m - r * c) + (s - x * c) = 0 + (h * m + s).
Proof. by mcfr F. Qed.
Lemma alg2 (x k c s t v w : F) : w * v * (k * c - (s - x * c)) + (t - v * c) =
  (w * (x + k) * v - v) * c + (t - w * v * s).
Proof. by mcfr F. Qed.
Lemma alg3 (s d c u a b : F) : s - d * c + u * (a - c * b) = s + u * a - c * (d + u * b).
Proof. by mcfr F. Qed.
Lemma alg4 (w k c s d t : F) : w * (k * c - (s - d * c)) + (t - w * (d + k) * c) = t - w * s.
Proof. by mcfr F. Qed.
Lemma alg_D (x h r c m S T : F) : (x + h * r) * c + h * (m - r * c) + (S - c * T) - (0 + (h * m + S)) = c * (x - T).
Proof. by mcfr F. Qed.
Lemma alg5 (x h r c m S T : F) : (x + h * r) * c + h * (m - r * c) + (S - c * T) = 0 + (h * m + S) -> c * (x - T) = 0.
Proof. by move=> E; rewrite -(alg_D x h r c m S T) E subrr. Qed.
Lemma alg6 (x h r c m S T : F) : c * (x - T) = 0 -> (x + h * r) * c + h * (m - r * c) + (S - c * T) = 0 + (h * m + S).
Proof. by move=> E; apply/eqP; rewrite -subr_eq0 alg_D E. Qed.
End Alg.

Section Signatures.
Variable B : bops.
Variable W : bilinear B.
Local Notation R1 := (R1 W).
Local Notation R2 := (R2 W).
Local Notation RT := (RT W).
Local Notation pairable := (pairable W).

Lemma R2_1 : R2 (G2_ScalarBaseMult B 1) 1.
Proof. exact: R2_base (scalar_nonneg Z.le_0_1). Qed.

Lemma Keygen_spec k : exists pub, Keygen B k = (Keypair B (Some pub) k, true) /\ R1 pub k.
Proof.
rewrite /Keygen. have [b [-> Hb]] := R1_code (R1_base W k). by exists b.
Qed.

Definition is_sig (m k : Z) (s : tG2 B) : Prop :=
  exists i, [/\ R2 s i, ph i = (ph m + ph k)^-1, ph m + ph k != 0 & pairable s].

Lemma Sign_panic m k : eqm (m + k) 0 -> Sign B m k = Panic.
Proof.
move=> /eqm0P E. rewrite /Sign ModInverse_None; [by []|exact: (@zf_P1 _ bnOrder_prime)|].
have E' : (bmod (m + k) bnOrder = 0)%Z.
  have := proj1 (zph_eq0 zfR (m + k)) E. by rewrite /bmod.
rewrite E' Z.gcd_0_l => A. have := @zf_P1 _ bnOrder_prime. lia.
Qed.

Lemma Sign_spec m k : ~ eqm (m + k) 0 -> exists s, Sign B m k = Ok s /\ is_sig m k s.
Proof.
move=> N. rewrite /Sign.
have n0 : ((bmod (m + k) bnOrder) mod bnOrder <> 0)%Z.
  by move=> /(proj2 (zph_eq0 zfR _)); rewrite phE => /eqm0P.
have [i Ei0 Ei] := zph_ModInverse bnOrder_prime zfR n0. rewrite Ei0.
have i0 : (0 <= i)%Z by have [] := ModInverse_inv _ _ _ (@zf_P1 _ bnOrder_prime) Ei0; lia.
have [b [-> [Rb Pb]]] := R2_code (R2_base (scalar_nonneg i0 : scalar W i)).
exists b. split=> //. exists i. split=> //; first by rewrite Ei !phE.
by rewrite -zph_add; apply/eqP => /eqm0P.
Qed.

Lemma verify_spec s w m pub k : R2 s w -> pairable s -> R1 pub k -> addable m k ->
  exists b, verify B s m pub = Ok b /\ (b = true <-> eqm (w * (m + k)) 1).
Proof.
move=> Rs Ps Rp A. rewrite /verify. have [g [-> Rg]] := R1_code (R1_base W m).
have P1 := pair_law (R1_add Rg Rp A) Rs Ps.
have P2 := pair_law (R1_base W 1) R2_1 (pairable_gen W).
eexists. split; first by [].
rewrite (RT_one (RT_add P1 (RT_neg P2))) eqm0P eqmP !phE.
split=> [/eqP|E]; last by rewrite mulrC E mulr1 subrr.
by rewrite subr_eq0 mulr1 mulrC => /eqP.
Qed.

Lemma lookup_cons_eq m v x : lookup B ((big_String x, v) :: m) (big_String x) = Some v.
Proof. rewrite /=. by case: list_eq_dec. Qed.
Lemma lookup_cons_neq m v x y : x <> y -> lookup B ((big_String x, v) :: m) (big_String y) = lookup B m (big_String y).
Proof. rewrite /= => N. by case: list_eq_dec => // /big_String_inj. Qed.

Definition good_sig (k : Z) (x : Z) (o : option (option (tG2 B))) : Prop :=
  exists A, o = Some (Some A) /\ is_sig x k A.

Lemma sign_all_ok k ms acc : (forall m, List.In m ms -> ~ eqm (m + k) 0) ->
  exists sigs, sign_all B k ms acc = Ok sigs /\
    forall x, (List.In x ms -> good_sig k x (lookup B sigs (big_String x))) /\
              (~ List.In x ms -> lookup B sigs (big_String x) = lookup B acc (big_String x)).
Proof.
elim: ms acc => [|m ms IH] acc N; first by exists acc; split=> // x; split.
have [s [E S]] := Sign_spec (N m (or_introl erefl)). rewrite /= E.
have [|sigs [-> H]] := IH ((big_String m, Some s) :: acc).
  by move=> y Hy; apply: N; right.
exists sigs. split=> // x. split.
- move=> Hin. have [|Nin] := in_dec Z.eq_dec x ms; first exact: (proj1 (H x)).
  case: Hin => // mx. rewrite (proj2 (H x) Nin) -mx lookup_cons_eq. by exists s.
- move=> Hin. rewrite (proj2 (H x)); last by move=> Hx; apply: Hin; right.
  rewrite lookup_cons_neq // => mx. apply: Hin. by left.
Qed.
Lemma sign_all_panic k ms acc m : List.In m ms -> eqm (m + k) 0 -> sign_all B k ms acc = Panic.
Proof.
elim: ms acc => [//|y ms IH] acc [ym|Hin] E /=; first by rewrite ym Sign_panic.
case: (Sign B y k) => [s||] //; exact: IH.
Qed.

Lemma SetupSet_ok k s : (forall m, List.In m s -> ~ eqm (m + k) 0) ->
  exists p, SetupSet B k s = Ok p /\ ps_H B p = setupH B /\
    (exists pub, ps_kp B p = Keypair B (Some pub) k /\ R1 pub k) /\
    forall x, (List.In x s -> good_sig k x (lookup B (ps_signatures B p) (big_String x))) /\
              (~ List.In x s -> lookup B (ps_signatures B p) (big_String x) = None).
Proof.
move=> N. rewrite /SetupSet. have [pub [-> Rp]] := Keygen_spec k.
have [sigs [/= -> H]] := sign_all_ok [::] N. eexists. split; first by []. split=> //.
split; first by exists pub. move=> x. split; [exact: (proj1 (H x))|exact: (proj2 (H x))].
Qed.

Lemma SetupUL_ok k u l : (forall m, (0 <= m < u)%Z -> ~ eqm (m + k) 0) ->
  exists p, SetupUL B k u l = Ok p /\ pu_H B p = setupH B /\ pu_u B p = u /\ pu_l B p = l /\
    (exists pub, pu_kp B p = Keypair B (Some pub) k /\ R1 pub k) /\
    forall x, (0 <= x < u)%Z -> good_sig k x (lookup B (pu_signatures B p) (big_String x)).
Proof.
move=> N. rewrite /SetupUL. have [pub [-> Rp]] := Keygen_spec k.
have N' : forall m, List.In m (upto u) -> ~ eqm (m + k) 0.
  move=> m /in_map_iff [i [<- /in_seq Hi]]. apply: N. lia.
have [sigs [/= -> H]] := sign_all_ok [::] N'. eexists. split; first by []. do 3 (split=> //).
split; first by exists pub. move=> x Hx. apply: (proj1 (H x)). apply/in_map_iff.
exists (Z.to_nat x). split; first by lia. apply/in_seq. lia.
Qed.
End Signatures.

Section Proofs.
Variable B : bops.
Variable sha : list Z -> list Z.
Variable W : bilinear B.
Hypothesis hash : hash_bytes sha.
Local Notation R1 := (R1 W).
Local Notation R2 := (R2 W).
Local Notation RT := (RT W).
Local Notation pairable := (pairable W).

Lemma setupH_spec : R2 (setupH B) hExp.
Proof. apply: R2_base. exact: scalar_nonneg hExp_ge0. Qed.
Lemma uE_spec : RT (uE B) 1.
Proof.
have := pair_law (R1_base W 1) (R2_1 W) (pairable_gen W). exact.
Qed.

Lemma R2_sub p x y : R2 p x -> ph x = ph y -> R2 p y.
Proof. move=> H E. apply: R2_eqm H _. exact/eqmP. Qed.

Lemma Commit_spec x r h H : R2 H h -> scalar W x -> scalar W r -> addable x (h * r) -> R2 (Commit B x r H) (x + h * r).
Proof. move=> RH x0 r0 A. exact: R2_add (R2_base x0) (R2_mul RH r0) A. Qed.

(** The verification equations *)
Lemma VerifySet_iff (pr : proofSet B) (p : paramsSet B) pub k h y w d a :
  kp_Pubk B (ps_kp B p) = Some pub -> R1 pub k -> R2 (ps_H B p) h ->
  R2 (sp_C B pr) y -> R2 (sp_V B pr) w -> pairable (sp_V B pr) ->
  R2 (sp_D B pr) d -> RT (sp_a B pr) a ->
  (0 <= sp_c B pr)%Z -> (0 <= sp_zr B pr)%Z -> (0 <= sp_zsig B pr)%Z -> (0 <= sp_zv B pr)%Z ->
  chain (y * sp_c B pr) [:: h * sp_zr B pr; sp_zsig B pr]%Z ->
  exists b, VerifySet B pr p = Ok b /\
    (b = true <-> eqm (y * sp_c B pr + h * sp_zr B pr + sp_zsig B pr) d /\
                  eqm (w * (k * sp_c B pr - sp_zsig B pr) + sp_zv B pr) a).
Proof.
move=> Epub Rpub RH RC RV PV RD Ra c0 zr0 zs0 zv0 [A1 [A2 _]].
rewrite /VerifySet Epub.
have HD := R2_add (R2_add (R2_mul RC (scalar_nonneg c0)) (R2_mul RH (scalar_nonneg zr0)) A1) (R2_base (scalar_nonneg zs0)) A2.
have HT := RT_add (RT_add (RT_mul (pair_law Rpub RV PV) c0) (RT_inv (RT_mul (pair_law (R1_base W 1) RV PV) zs0)))
                  (RT_mul uE_spec zv0).
eexists. split; first by [].
have I1 := R2_bytes HD RD. have I2 := RT_bytes HT Ra.
have -> : eqm (w * (k * sp_c B pr - sp_zsig B pr) + sp_zv B pr) a <->
          eqm (k * w * sp_c B pr + - (1 * w * sp_zsig B pr) + 1 * sp_zv B pr) a.
  have -> : (k * w * sp_c B pr + - (1 * w * sp_zsig B pr) + 1 * sp_zv B pr =
     w * (k * sp_c B pr - sp_zsig B pr) + sp_zv B pr)%Z by ring. by [].
rewrite -I1 -I2.
case: list_eq_dec => E1; case: list_eq_dec => E2; split=> //; by case.
Qed.

Lemma hash_ok_FBA l : exists c, FromByteArray (sha l) = Ok c.
Proof.
have [N O] := hash l. rewrite FromByteArray_spec //. case: (sha l) N => // a t _. by eexists.
Qed.

Lemma ProveSet_ok tp x r (p : paramsSet B) A :
  lookup B (ps_signatures B p) (big_String x) = Some (Some A) ->
  exists pr, [/\ ProveSet B sha tp x r p = Ok pr,
    (sp_s B pr = ts_s tp /\ sp_m B pr = ts_m tp /\ sp_t B pr = ts_t tp),
    sp_V B pr = G2_ScalarMult B A (ts_v tp) /\ sp_C B pr = Commit B x r (ps_H B p),
    (exists t c, FromByteArray (sha t) = Ok c /\ sp_c B pr = bmod c bnOrder) /\
    [/\ (0 <= sp_c B pr)%Z, sp_zr B pr = bmod (ts_m tp - r * sp_c B pr) bnOrder,
       sp_zsig B pr = bmod (ts_s tp - x * sp_c B pr) bnOrder &
       sp_zv B pr = bmod (ts_t tp - ts_v tp * sp_c B pr) bnOrder] &
    sp_D B pr = G2_AddTo B (G2_SetInfinity B) (G2_AddTo B (G2_ScalarMult B (ps_H B p) (ts_m tp)) (G2_ScalarBaseMult B (ts_s tp)))
    /\ sp_a B pr = GT_Add B (GT_Invert B (GT_ScalarMult B (Pair B (uG1 B) (sp_V B pr)) (ts_s tp))) (GT_ScalarMult B (uE B) (ts_t tp))].
Proof.
move=> L. rewrite /ProveSet L /HashSet.
have [c Ec] := hash_ok_FBA (GT_String B
            (GT_Add B (GT_Invert B (GT_ScalarMult B (Pair B (uG1 B) (G2_ScalarMult B A (ts_v tp))) (ts_s tp)))
               (GT_ScalarMult B (uE B) (ts_t tp))) ++
          G2_String B
            (G2_AddTo B (G2_SetInfinity B)
               (G2_AddTo B (G2_ScalarMult B (ps_H B p) (ts_m tp)) (G2_ScalarBaseMult B (ts_s tp)))))%list.
rewrite Ec. eexists. split; [by []|by []|by []| |by []].
split; first by eexists; exists c; split; first exact: Ec.
split=> //=. exact: bmod_ge0.
Qed.
Lemma ProveSet_err tp x r (p : paramsSet B) :
  lookup B (ps_signatures B p) (big_String x) = None -> ProveSet B sha tp x r p = Err.
Proof. by rewrite /ProveSet => ->. Qed.

(** a is what the prover computes *)
Lemma prover_a V w s t : R2 V w -> pairable V -> (0 <= s)%Z -> (0 <= t)%Z ->
  RT (GT_Add B (GT_Invert B (GT_ScalarMult B (Pair B (uG1 B) V) s)) (GT_ScalarMult B (uE B) t)) (t - w * s).
Proof.
move=> RV PV s0 t0.
have := RT_add (RT_inv (RT_mul (pair_law (R1_base W 1) RV PV) s0)) (RT_mul uE_spec t0).
by have -> : (- (1 * w * s) + 1 * t = t - w * s)%Z by ring.
Qed.

Lemma VerifySet_honest tp x r (p : paramsSet B) pub k h A w pr :
  kp_Pubk B (ps_kp B p) = Some pub -> R1 pub k -> R2 (ps_H B p) h ->
  lookup B (ps_signatures B p) (big_String x) = Some (Some A) ->
  R2 A w -> ph w * (ph x + ph k) * ph (ts_v tp) = ph (ts_v tp) ->
  tapeSet_range tp ->
  ProveSet B sha tp x r p = Ok pr -> set_nondegenerate W h x r pr ->
  VerifySet B pr p = Ok true.
Proof.
move=> Ep Rp RH L RA Sg [m0 [vv0 [s0 t0]]] E [PV [x0 [r0 [[A1 _] [[A2 _] A3]]]]].
have [pr' [E' [Es [Em Et]] [EV EC] [_ [c0 Ezr Ezs Ezv]] [ED Ea]]] := ProveSet_ok tp r L.
have ? : pr' = pr by congruence. subst pr'.
rewrite Es Em in A1.
have RV : R2 (sp_V B pr) (w * ts_v tp) by rewrite EV; exact: R2_mul RA (scalar_nonneg vv0).
have RD : R2 (sp_D B pr) (0 + (h * ts_m tp + ts_s tp)).
  rewrite ED. apply: R2_add; [exact: R2_inf| |by []].
  apply: R2_add; [exact: R2_mul RH (scalar_nonneg m0)|exact: R2_base (scalar_nonneg s0)|exact: A1].
have Ra := prover_a RV PV s0 t0. rewrite -Ea in Ra.
have RC : R2 (sp_C B pr) (x + h * r) by rewrite EC; apply: Commit_spec.
have [|||b [-> Hb]] := VerifySet_iff Ep Rp RH RC RV PV RD Ra c0 _ _ _ A3.
- by rewrite Ezr; apply: bmod_ge0.
- by rewrite Ezs; apply: bmod_ge0.
- by rewrite Ezv; apply: bmod_ge0.
congr Ok. apply/Hb. rewrite !eqmP Ezr Ezs Ezv !phE. split; first exact: alg1.
rewrite alg2. by rewrite Sg subrr mul0r add0r.
Qed.
End Proofs.
