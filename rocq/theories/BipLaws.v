(** * Proofs of C23-C25 *)
From Coq Require Import ZArith Znumtheory List Bool Lia.
From mathcomp Require Import all_ssreflect all_algebra.
From Verif Require Import Base BaseFacts ByteConv SpecCodec CodecProofs MCRing SpecCurve ZField P256 Pedersen SpecSecp SecpGroup SecpProofs SecpDL SecpLaws Vector Bulletproofs SpecBP VecProofs BipProofs.
Set Implicit Arguments.
Unset Strict Implicit.
Unset Printing Implicit Defensive.
Import GRing.Theory.
Local Open Scope ring_scope.
Delimit Scope Z_scope with Z.
Local Arguments Z.mul : simpl never.
Local Arguments Z.add : simpl never.
Local Arguments Z.sub : simpl never.
Local Arguments Z.modulo : simpl never.
Local Arguments Z.of_nat : simpl never.
Local Arguments Z.quot : simpl never.
Local Opaque secp_P secp_N secp_Gx secp_Gy ORDER value valid dl Multiply ScalarMult ScalarBaseMult Add Neg CommitG1 bmod ModInverse HashBP IsZero gadd gmul.
Local Notation ph := (zph zfN).
Local Notation pow2 := (Nat.pow 2).

Lemma ph_dot a b : List.length a = List.length b -> ph (dot a b) = \sum_(i < List.length a) pv a i * pv b i.
Proof.
elim: a b => [|x a IH] [|y b] //= L; first by rewrite big_ord0 zph_0.
case: L => L. rewrite /dot /= zph_add zph_mul big_ord_recl. congr (_ + _). exact: IH.
Qed.
Lemma on_multiexp g a : allv g -> on_secp (multiexp g a).
Proof.
move=> v. elim: v a => [|p g' vp _ IH] [|x a] //=; try exact: valid_on.
apply: on_gadd; last exact: IH. exact: on_gmul.
Qed.
Lemma dlz_multiexp g a : allv g -> List.length g = List.length a ->
  dlz (multiexp g a) = \sum_(i < List.length g) dv g i * pv a i.
Proof.
move=> v. elim: v a => [|p g' vp vg' IH] [|x a] //= L; first by rewrite big_ord0 dlz_None.
case: L => L. rewrite /multiexp /= dlz_add; [|exact: on_gmul|exact: on_multiexp].
rewrite big_ord_recl -/(multiexp g' a) IH // (dlz_mul x vp). congr (_ + _). by rewrite mulrC.
Qed.
Lemma on_value p : valid p -> on_secp (value p). Proof. by []. Qed.
Lemma dlE p : dl p = dlz (value p). Proof. by []. Qed.
Lemma zeq q r : on_secp q -> on_secp r -> (q = r <-> dlz q = dlz r).
Proof. move=> oq or. split=> [->//|]. exact: dlz_inj. Qed.
Lemma value_dl0 p : valid p -> (value p = None <-> dl p = 0).
Proof. move=> v. apply: iff_sym. exact: dlz_eq0. Qed.

Section E.
Variable E : ext.
Hypothesis hE : ext_ok E.
Variable sha : list Z -> list Z.

Lemma commitIP_ok g h a b : List.length g = List.length a -> List.length h = List.length b -> allv g -> allv h ->
  exists P, commitInnerProduct E g h a b = Ok P /\ valid P /\
    dl P = \sum_(i < List.length g) dv g i * pv a i + \sum_(i < List.length h) dv h i * pv b i.
Proof.
move=> L1 L2 vg vh. rewrite /commitInnerProduct.
have [G [-> [vG DG]]] := VectorExp_ok hE L1 vg. have [H [-> [vH DH]]] := VectorExp_ok hE L2 vh.
exists (Multiply E G H). split; first by []. split; first exact: (Multiply_valid hE).
by rewrite (dl_Multiply hE) // DG DH.
Qed.

Section K.
Variables (k : nat) (a b : list Z) (q : ip_params) (P : point).
Hypotheses (wf : ip_params_wf q k) (La : List.length a = pow2 k) (Lb : List.length b = pow2 k) (vP : valid P).
Let Lg : List.length (pp_Gg q) = pow2 k. Proof. exact (proj1 (proj2 wf)). Qed.
Let Lh : List.length (pp_Hh q) = pow2 k. Proof. exact (proj1 (proj2 (proj2 wf))). Qed.
Let vg : allv (pp_Gg q). Proof. exact (proj1 (proj2 (proj2 (proj2 wf)))). Qed.
Let vh : allv (pp_Hh q). Proof. exact (proj1 (proj2 (proj2 (proj2 (proj2 wf))))). Qed.
Let vu : valid (pp_Uu q). Proof. exact (proj2 (proj2 (proj2 (proj2 (proj2 wf))))). Qed.

Lemma prove_ip_inv pr : proveInnerProduct E sha a b P q = Ok pr ->
  exists ox ux, [/\ hashIP sha (pp_Gg q) (pp_Hh q) P (pp_Cc q) (pp_N q) = Ok ox, ScalarMultP E (pp_Uu q) ox = Ok ux & valid ux] /\
  ip_wf pr /\ exists b' pr', ipVerify E sha pr = Ok (b', pr') /\
   b' = (defect (pow2 k) (dv (pp_Gg q)) (dv (pp_Hh q)) (pv a) (pv b) (dl ux) - (dl P + ph (pp_Cc q) * dl ux) == 0).
Proof.
rewrite /proveInnerProduct (len_eq (etrans La (esym Lb))). move: (S (List.length a)) => fuel /=.
case Ex : (hashIP _ _ _ _ _ _) => [ox| |] //=. case Eu : (ScalarMultP E _ _) => [ux| |] //=.
have vux := SMP_valid hE vu Eu. have [vuc Duc] := ScalarMultP_ok hE (pp_Cc q) vux.
have vPP := Multiply_valid hE vP vuc. rewrite /len La.
case C : (computeBipRecursive _ _ _ _ _ _ _ _ _ _ _ _) => [pr0| |] //= [<-].
have [ls [rs [[E1 E2 E3 E4] [[L1 L2 v1 v2] H]]]] := bip_main hE La Lb Lg Lh vg vh vux vPP C.
exists ox, ux. split; first by split. have Wf : ip_wf (IPProof (ip_N pr0) (ip_Ls pr0) (ip_Rs pr0) (ip_U pr0) (ip_P pr0)
            (ip_Gg pr0) (ip_Hh pr0) (ip_A pr0) (ip_B pr0)
            (IPParams (pp_N q) (pp_Cc q) (pp_Uu q) (pp_H q) (pp_Gg q) (pp_Hh q)
               (Multiply E P (ScalarMult E ux (pp_Cc q))))).
  by rewrite /ip_wf /= E1 E2 E4.
split; first exact: Wf. have [g0 [h0 [Q' [EL [[w1 w2 w3] DD]]]]] := H _ vPP.
rewrite /ipVerify /= E1 E2 E3 E4 /= EL /=. do 2 eexists. split; first exact: erefl.
have [vA DA] := ScalarMultP_ok hE (ip_A pr0) w1. have [vB DB] := ScalarMultP_ok hE (ip_B pr0) w2.
have [vU DU] := ScalarMultP_ok hE (bmod (ip_A pr0 * ip_B pr0) ORDER) vux.
have [vN DN] := dl_Neg hE w3. have vAB := Multiply_valid hE vA vB. have vR := Multiply_valid hE vAB vU.
have vF := Multiply_valid hE vN vR. rewrite (IsZero_dl vF). rewrite (dl_Multiply hE vN vR) DN (dl_Multiply hE vAB vU).
rewrite (dl_Multiply hE vA vB) DA DB DU ph_bmod zph_mul. congr (_ == _).
rewrite -Duc -(dl_Multiply hE vP vuc) -DD addrC. congr (_ - _). congr (_ + _ + _); exact: mulrC.
Qed.

Lemma defect_commit (u : FN) :
  defect (pow2 k) (dv (pp_Gg q)) (dv (pp_Hh q)) (pv a) (pv b) u =
  dlz (gadd (multiexp (pp_Gg q) a) (multiexp (pp_Hh q) b)) + u * ph (dot a b).
Proof.
rewrite dlz_add; [|exact: on_multiexp|exact: on_multiexp].
rewrite dlz_multiexp ?Lg ?La // dlz_multiexp ?Lh ?Lb // ph_dot ?La ?Lb //.
Qed.

(** accepted iff P u^(x c) = g^a h^b u^(x <a,b>) *)
Lemma bip_general pr x : hashIP sha (pp_Gg q) (pp_Hh q) P (pp_Cc q) (pp_N q) = Ok (Some x) ->
  proveInnerProduct E sha a b P q = Ok pr ->
  exists b' pr', ipVerify E sha pr = Ok (b', pr') /\
  (b' = true <-> gadd (value P) (gmul (x * pp_Cc q) (value (pp_Uu q))) =
     gadd (gadd (multiexp (pp_Gg q) a) (multiexp (pp_Hh q) b)) (gmul (x * dot a b) (value (pp_Uu q)))).
Proof.
move=> Hx /prove_ip_inv [ox [ux [[Ho Hu vux] [_ [b' [pr' [Ev Eb]]]]]]].
exists b', pr'. split; first exact: Ev. rewrite Hx in Ho. case: Ho Hu => <- /= [Eu].
have [_ Du] := ScalarMultP_ok hE x vu. rewrite Eu in Du.
have o1 := on_gmul (x * pp_Cc q) (on_value vu). have o2 := on_gmul (x * dot a b) (on_value vu).
have o3 : on_secp (gadd (multiexp (pp_Gg q) a) (multiexp (pp_Hh q) b)) by apply: on_gadd; exact: on_multiexp.
have o4 := on_gadd o3 o2. have o5 := on_gadd (on_value vP) o1.
rewrite (zeq o5 o4) (dlz_add (on_value vP) o1) (dlz_add o3 o2) !(dlz_mul _ (on_value vu)) -!dlE !zph_mul.
rewrite Eb defect_commit Du subr_eq0.
have -> : ph x * dl (pp_Uu q) * ph (dot a b) = ph x * ph (dot a b) * dl (pp_Uu q) by exact: mulrAC.
have -> : ph (pp_Cc q) * (ph x * dl (pp_Uu q)) = ph x * ph (pp_Cc q) * dl (pp_Uu q) by rewrite mulrA [ph x * _]mulrC.
split=> [/eqP->//|->]. exact: eqxx.
Qed.

Lemma bip_complete pr : commitInnerProduct E (pp_Gg q) (pp_Hh q) a b = Ok P ->
  (pp_Cc q mod secp_N = dot a b mod secp_N)%Z ->
  proveInnerProduct E sha a b P q = Ok pr -> exists pr', ipVerify E sha pr = Ok (true, pr').
Proof.
move=> EP Ec /prove_ip_inv [ox [ux [[_ _ vux] [_ [b' [pr' [Ev Eb]]]]]]]. exists pr'. rewrite Ev Eb.
have [P' [EP' [_ DP]]] := commitIP_ok (etrans Lg (esym La)) (etrans Lh (esym Lb)) vg vh.
rewrite EP' in EP. case: EP DP => -> DP.
have {}Ec : ph (pp_Cc q) = ph (dot a b) by apply/zph_eq.
by rewrite DP Lg Lh Ec ph_dot ?La ?Lb // /defect [_ * dl ux]mulrC subrr eqxx.
Qed.
Lemma bip_exact pr x : commitInnerProduct E (pp_Gg q) (pp_Hh q) a b = Ok P ->
  hashIP sha (pp_Gg q) (pp_Hh q) P (pp_Cc q) (pp_N q) = Ok (Some x) -> (x mod secp_N <> 0)%Z ->
  value (pp_Uu q) <> None -> proveInnerProduct E sha a b P q = Ok pr ->
  exists b' pr', ipVerify E sha pr = Ok (b', pr') /\ (b' = true <-> (pp_Cc q mod secp_N = dot a b mod secp_N)%Z).
Proof.
move=> EP Hx x0 U0 /prove_ip_inv [ox [ux [[Ho Hu vux] [_ [b' [pr' [Ev Eb]]]]]]]. exists b', pr'. split; first exact: Ev.
rewrite Hx in Ho. case: Ho Hu => <- /= [Eu]. have [_ Du] := ScalarMultP_ok hE x vu. rewrite Eu in Du.
have [P' [EP' [_ DP]]] := commitIP_ok (etrans Lg (esym La)) (etrans Lh (esym Lb)) vg vh.
rewrite EP' in EP. case: EP DP => -> DP.
rewrite Eb DP Lg Lh /defect [_ * dl ux]mulrC. rewrite subr_eq0 (inj_eq (@addrI _ _)).
have u0 : dl ux != 0.
  rewrite Du mulf_neq0 //; first exact: zph_neq0. by apply/eqP => /(value_dl0 vu).
have Es : \sum_(i < pow2 k) pv a i * pv b i = ph (dot a b) by rewrite ph_dot La ?Lb.
rewrite Es (inj_eq (mulfI u0)). rewrite -(zph_eq zfN). split=> [/eqP->//|->]. exact: eqxx.
Qed.
End K.

Lemma bip_total k : forall fuel a b g h u P Ls Rs,
  (forall L R, ph (fst (HashBP sha L R)) != 0) -> (k < fuel)%nat ->
  List.length a = pow2 k -> List.length b = pow2 k -> List.length g = pow2 k -> List.length h = pow2 k ->
  allv g -> allv h -> valid u -> valid P ->
  exists pr, computeBipRecursive E sha fuel a b g h u P (Z.of_nat (pow2 k)) Ls Rs = Ok pr.
Proof.
move=> fuel a b g h u P Ls Rs X. elim: k fuel a b g h u P Ls Rs => [|k IH] [|fuel] a b g h u P Ls Rs // Hf La Lb Lg Lh vg vh vu vP.
  case: a La => [|a0 [|? ?]] // _. case: b Lb => [|b0 [|? ?]] // _.
  case: g Lg vg => [|g0 [|? ?]] // _ vg. case: h Lh vh => [|h0 [|? ?]] // _ vh.
  rewrite /=. eexists. exact: erefl.
move: La Lb Lg Lh. rewrite !pow2S => La Lb Lg Lh.
have [L [R [vL [vR [_ X1]]]]] := round hE sha fuel Ls Rs (pow2_pos k) La Lb Lg Lh vg vh vu vP.
have [a' [b' [g' [h' [P' [[La' Lb' Lg' Lh'] [[vg' vh' vP'] [-> _]]]]]]]] := X1 (X L R).
have [pr ->] := IH fuel a' b' g' h' u P' (Ls ++ [:: L])%list (Rs ++ [:: R])%list Hf La' Lb' Lg' Lh' vg' vh' vu vP'.
eexists. exact: erefl.
Qed.
Lemma k_lt_pow2 k : (k < S (pow2 k))%nat.
Proof. elim: k => [|k IH] //. rewrite pow2S. have := pow2_pos k. move: IH. rewrite -plusE. move/ltP => H1 /ltP H2. apply/ltP. lia. Qed.

Lemma hashBP_nz : hash_ok sha -> forall L R, ph (fst (HashBP sha L R)) != 0.
Proof. Local Transparent HashBP. move=> H L R. apply: zph_neq0. by have [_ []] := H (HashBP_buffer L R). Qed.
Local Opaque HashBP.
Lemma FromByteArray_ok : hash_ok sha -> forall l, exists x, FromByteArray (sha l) = Ok x.
Proof.
move=> H l. have [n [b _]] := H l. rewrite FromByteArray_spec; last exact: b. exists (twos_value (sha l)). by case: (sha l) n.
Qed.
Lemma hashIP_gens_ok g h n : List.length g = n -> List.length h = n -> exists l, hashIP_gens g h n = Ok l.
Proof.
elim: n g h => [|n IH] [|x g] [|y h] //=; try by move=> _ _; eexists.
move=> [Lg] [Lh]. have [l ->] := IH g h Lg Lh. eexists. exact: erefl.
Qed.
Lemma hashIP_total q k P : hash_ok sha -> ip_params_wf q k -> exists x, hashIP sha (pp_Gg q) (pp_Hh q) P (pp_Cc q) (pp_N q) = Ok (Some x).
Proof.
move=> H [EN [Lg [Lh _]]]. rewrite /hashIP /hashIP_input EN Nat2Z.id.
have [l ->] := hashIP_gens_ok Lg Lh. rewrite /=.
match goal with |- context [sha ?i] => have [x ->] := FromByteArray_ok H i end. by exists x.
Qed.
Lemma bip_no_panic k a b q P : hash_ok sha -> ip_params_wf q k -> List.length a = pow2 k -> List.length b = pow2 k ->
  valid P -> exists pr, proveInnerProduct E sha a b P q = Ok pr.
Proof.
move=> H wf La Lb vP. have [x Ex] := hashIP_total P H wf. case: (wf) => [EN [Lg [Lh [vg [vh vu]]]]].
have Hf := k_lt_pow2 k. rewrite /proveInnerProduct (len_eq (etrans La (esym Lb))) /len La. move: (S (pow2 k)) Hf => fuel Hf /=. rewrite Ex /=.
have [vux Du] := ScalarMultP_ok hE x vu. have [vuc Duc] := ScalarMultP_ok hE (pp_Cc q) vux.
have vPP := Multiply_valid hE vP vuc.
have [pr ->] := bip_total [::] [::] (hashBP_nz H) Hf La Lb Lg Lh vg vh vux vPP.
eexists. exact: erefl.
Qed.

(** ** C25 *)
Lemma set_P_P pr P : pp_P (ip_Params (set_P pr P)) = P. Proof. by []. Qed.
Lemma set_P_set pr P Q : set_P (set_P pr P) Q = set_P pr Q. Proof. by []. Qed.
Lemma verify_repeat pr b pr' : ip_wf pr -> ipVerify E sha pr = Ok (b, pr') ->
  (b = true <-> value (pp_P (ip_Params pr')) = None) /\
  exists b2 pr2, ipVerify E sha pr' = Ok (b2, pr2) /\ (b2 = true <-> value (pp_P (ip_Params pr)) = None) /\
  value (pp_P (ip_Params pr2)) = value (pp_P (ip_Params pr)) /\
  exists b3 pr3, ipVerify E sha pr2 = Ok (b3, pr3) /\ b3 = b.
Proof.
move=> wf H. have [ka [[v1 D1 Eb Es] A]] := ipVerify_state hE wf H.
have vP : valid (pp_P (ip_Params pr)) by case: wf => [_ [_ [_ [_ [_ ]]]]].
split.
  rewrite (value_dl0 v1) D1 Eb. split=> [/eqP//|->]. exact: eqxx.
have [Q2 [E2 [v2 D2]]] := A _ v1. rewrite -Es in E2. do 2 eexists. split; first exact: E2.
have D2' : dl Q2 = dl (pp_P (ip_Params pr)) by rewrite D2 D1 subKr.
rewrite set_P_P. split.
  rewrite -D2 (value_dl0 vP) D2'. split=> [/eqP//|->]. exact: eqxx.
split; first exact: dl_inj D2'.
have [Q3 [E3 _]] := A _ v2. do 2 eexists. split; first exact: E3. by rewrite D2'.
Qed.
End E.
