(** * Knowledge soundness of the inner product argument *)
From Coq Require Import ZArith Znumtheory List Bool Lia.
From mathcomp Require Import all_ssreflect all_algebra.
From Verif Require Import Base BaseFacts ByteConv MCRing ZField SpecCurve P256 Pedersen SpecSecp SecpGroup SecpProofs SecpDL SecpLaws Vector Bulletproofs SpecBP VecProofs BipProofs SpecExtract.
Set Implicit Arguments.
Unset Strict Implicit.
Unset Printing Implicit Defensive.
Import GRing.Theory.
Local Open Scope ring_scope.
Delimit Scope Z_scope with Z.
Local Arguments Z.mul : simpl never.
Local Arguments Z.add : simpl never.
Local Arguments Z.sub : simpl never.
Local Arguments Z.modulo : simpl never.
Local Arguments Z.of_nat : simpl never.
Local Arguments Z.quot : simpl never.
Local Arguments Nat.pow : simpl never.
Local Opaque secp_P secp_N secp_Gx secp_Gy ORDER value valid dl Multiply ScalarMult ScalarBaseMult Add Neg CommitG1 bmod ModInverse HashBP IsZero.
Local Notation ph := (zph zfN).
Local Notation pow2 := (Nat.pow 2).

(** ** Algebra *)
Section Alg.
Variable F : fieldType.
Add Field Fx : (mc_field F).

Lemma cubic0 (a b c d : F) (rs : seq F) : uniq rs -> (3 < size rs)%N ->
  (forall y, y \in rs -> a * y * y * y + b * y * y + c * y + d = 0) -> [/\ a = 0, b = 0, c = 0 & d = 0].
Proof.
move=> U S H. pose p := Poly [:: d; c; b; a].
have R : all (root p) rs.
  apply/allP => y /H Hy. rewrite /root horner_Poly /=. apply/eqP. rewrite -[RHS]Hy. by mcfr F.
have P0 : p = 0.
  apply/eqP. apply/negPn/negP => /max_poly_roots /(_ R U) L.
  have := leq_trans L (size_Poly _). by rewrite /= => /(leq_trans S); rewrite ltnn.
have C i : p`_i = 0 by rewrite P0 coef0.
by split; [have := C 3%N|have := C 2%N|have := C 1%N|have := C 0%N]; rewrite coef_Poly.
Qed.

Lemma ringf (x p1 p2 : F) : x != 0 -> x * (x * x * 0 + p1 + (x * x)^-1 * p2) = x * p1 + x^-1 * p2.
Proof. move=> x0. by mcf F; apply/eqP. Qed.
(** the halves of one exponent *)
Lemma halves (l1 p1 r1 l2 p2 r2 : F) (xs : seq (F * F)) :
  uniq [seq p.1 * p.1 | p <- xs] -> (3 < size xs)%N -> (forall p, p \in xs -> p.1 != 0) ->
  (forall p, p \in xs -> p.1^-1 * p.2 = p.1 * p.1 * l1 + p1 + (p.1 * p.1)^-1 * r1 /\
     p.1 * p.2 = p.1 * p.1 * l2 + p2 + (p.1 * p.1)^-1 * r2) ->
  forall p, p \in xs -> p.2 = p.1 * p1 + p.1^-1 * p2.
Proof.
move=> U S N0 H.
have [] := @cubic0 l1 (p1 - l2) (r1 - p2) (- r2) _ U; first by rewrite size_map.
  move=> y /mapP [[x al] xin ->]. have x0 := N0 _ xin. have [H1 H2] := H _ xin. move: x0 H1 H2 => /= x0 H1 H2.
  have K : x * x * (x^-1 * al) = x * al by mcf F; apply/eqP.
  move: K. rewrite H1 H2 => K.
  have -> : l1 * (x * x) * (x * x) * (x * x) + (p1 - l2) * (x * x) * (x * x) + (r1 - p2) * (x * x) + - r2 =
    (x * x) * ((x * x) * (x * x * l1 + p1 + (x * x)^-1 * r1) - (x * x * l2 + p2 + (x * x)^-1 * r2)).
    by mcf F; apply/eqP.
  by rewrite K subrr mulr0.
move=> l10 /eqP. rewrite subr_eq0 => /eqP pl /eqP. rewrite subr_eq0 => /eqP rp _ [x al] xin.
have x0 := N0 _ xin. have [H1 _] := H _ xin. move: x0 H1 => /= x0. rewrite l10 rp => H1.
rewrite -[LHS](mulVKf x0) H1. exact: ringf.
Qed.
(** the constant coefficient *)
Lemma middle (l p r l' p' r' : F) (xs : seq F) :
  uniq [seq x * x | x <- xs] -> (3 < size xs)%N -> (forall x, x \in xs -> x != 0) ->
  (forall x, x \in xs -> x * x * l + p + (x * x)^-1 * r = x * x * l' + p' + (x * x)^-1 * r') -> p = p'.
Proof.
move=> U S N0 H.
have [] := @cubic0 0 (l - l') (p - p') (r - r') _ U; first by rewrite size_map.
  move=> y /mapP [x xin ->]. have x0 := N0 x xin. have K := H x xin.
  have -> : 0 * (x * x) * (x * x) * (x * x) + (l - l') * (x * x) * (x * x) + (p - p') * (x * x) + (r - r') =
    (x * x) * ((x * x * l + p + (x * x)^-1 * r) - (x * x * l' + p' + (x * x)^-1 * r')).
    by mcf F; apply/eqP.
  by rewrite K subrr mulr0.
by move=> _ _ /eqP; rewrite subr_eq0 => /eqP.
Qed.

Section Interp.
Variables y1 y2 y3 : F.
Hypotheses (n1 : y1 != 0) (n2 : y2 != 0) (n3 : y3 != 0) (d12 : y1 != y2) (d13 : y1 != y3) (d23 : y2 != y3).
Let w1 := y1 * ((y1 - y2) * (y1 - y3))^-1.
Let w2 := y2 * ((y2 - y1) * (y2 - y3))^-1.
Let w3 := y3 * ((y3 - y1) * (y3 - y2))^-1.
Definition iL (v1 v2 v3 : F) := w1 * v1 + (w2 * v2 + w3 * v3).
Definition iP (v1 v2 v3 : F) := - (w1 * (y2 + y3)) * v1 + (- (w2 * (y1 + y3)) * v2 + - (w3 * (y1 + y2)) * v3).
Definition iR (v1 v2 v3 : F) := w1 * (y2 * y3) * v1 + (w2 * (y1 * y3) * v2 + w3 * (y1 * y2) * v3).
Ltac ne := repeat split; apply/eqP; rewrite ?subr_eq0 //; rewrite eq_sym //.
Lemma interp_eval v1 v2 v3 :
  [/\ y1 * iL v1 v2 v3 + iP v1 v2 v3 + y1^-1 * iR v1 v2 v3 = v1,
      y2 * iL v1 v2 v3 + iP v1 v2 v3 + y2^-1 * iR v1 v2 v3 = v2 &
      y3 * iL v1 v2 v3 + iP v1 v2 v3 + y3^-1 * iR v1 v2 v3 = v3].
Proof. rewrite /iL /iP /iR /w1 /w2 /w3. split; mcf F; ne. Qed.
Lemma interp_coef l p r v1 v2 v3 : v1 = p + y1 * l + y1^-1 * r -> v2 = p + y2 * l + y2^-1 * r -> v3 = p + y3 * l + y3^-1 * r ->
  [/\ iL v1 v2 v3 = l, iP v1 v2 v3 = p & iR v1 v2 v3 = r].
Proof. move=> -> -> ->. rewrite /iL /iP /iR /w1 /w2 /w3. split; mcf F; ne. Qed.
End Interp.
Lemma ringc (y l p r v : F) : y * l + (p + r) + -1 * v = 0 -> v = y * l + p + r.
Proof. move=> H. have -> : v = y * l + p + r - (y * l + (p + r) + -1 * v) by mcfr F. by rewrite H subr0. Qed.
Lemma ringd (y l q r : F) : y * l + (q + r) + -1 * (q + y * l + r) = 0.
Proof. by mcfr F. Qed.
Lemma ringe (x p1 p2 q1 q2 : F) : x != 0 ->
  (x * p1 + x^-1 * p2) * (x * q2 + x^-1 * q1) = x * x * (p1 * q2) + (p1 * q1 + p2 * q2) + (x * x)^-1 * (p2 * q1).
Proof. move=> x0. by mcf F; apply/eqP. Qed.
Lemma ringa (a b c d e f : F) : a + b + (c + d) + (e + f) = a + c + e + (b + d + f).
Proof. by mcfr F. Qed.
Lemma ringb (g1 g2 x y a : F) : g1 * (y * a) + g2 * (x * a) = (y * g1 + x * g2) * a.
Proof. by mcfr F. Qed.
End Alg.

(** ** Exponents *)
Definition fA (r : rep) : nat -> FN := pv (fst (fst r)).
Definition fB (r : rep) : nat -> FN := pv (snd (fst r)).
Definition fc (r : rep) : FN := ph (snd r).
Definition rlen (m : nat) (r : rep) : Prop := List.length (fst (fst r)) = m /\ List.length (snd (fst r)) = m.
Definition val (m : nat) (g h : nat -> FN) (u : FN) (r : rep) : FN :=
  \sum_(i < m) g i * fA r i + \sum_(i < m) h i * fB r i + u * fc r.

Lemma vscale_length c a : List.length (vscale c a) = List.length a.
Proof. exact: List.map_length. Qed.
Lemma pv_vscale c a i : pv (vscale c a) i = ph c * pv a i.
Proof.
elim: a i => [|v a IH] [|i]; try by rewrite !pv_nil mulr0.
  by rewrite /pv /= zph_mod zph_mul.
exact: IH.
Qed.
Lemma vadd_length a b : List.length a = List.length b -> List.length (vadd a b) = List.length a.
Proof. elim: a b => [|v a IH] [|w b] //= [] /IH ->. by []. Qed.
Lemma pv_vadd a b i : List.length a = List.length b -> pv (vadd a b) i = pv a i + pv b i.
Proof.
elim: a b i => [|v a IH] [|w b] [|i] // L; try by rewrite !pv_nil addr0.
  by rewrite /pv /= zph_mod zph_add.
apply: (IH b i). by case: L.
Qed.
Lemma app_nth_l a b i m : List.length a = m -> (i < m)%N -> pv (a ++ b)%list i = pv a i.
Proof. move=> L /ltP H. rewrite /pv List.app_nth1 // L. exact: H. Qed.
Lemma app_nth_r a b i m : List.length a = m -> pv (a ++ b)%list (m + i) = pv b i.
Proof.
move=> L. rewrite /pv List.app_nth2; last by rewrite L; apply/leP; exact: leq_addr.
by rewrite L minusE addKn.
Qed.

Lemma radd_ok m r s : rlen m r -> rlen m s -> rlen m (radd r s) /\
  [/\ forall i, fA (radd r s) i = fA r i + fA s i, forall i, fB (radd r s) i = fB r i + fB s i & fc (radd r s) = fc r + fc s].
Proof.
case: r s => [[a b] z] [[a' b'] z'] [/= La Lb] [/= La' Lb'].
split; first by split; rewrite /= vadd_length ?La ?La' ?Lb ?Lb'.
by split=> [i|i|]; rewrite /fA /fB /fc /= ?pv_vadd ?La ?La' ?Lb ?Lb' // zph_mod zph_add.
Qed.
Lemma rscale_ok m c r : rlen m r -> rlen m (rscale c r) /\
  [/\ forall i, fA (rscale c r) i = ph c * fA r i, forall i, fB (rscale c r) i = ph c * fB r i & fc (rscale c r) = ph c * fc r].
Proof.
case: r => [[a b] z] [/= La Lb]. split; first by split; rewrite /= vscale_length.
by split=> [i|i|]; rewrite /fA /fB /fc /= ?pv_vscale // zph_mod zph_mul.
Qed.
Lemma rlift_ok m x r : rlen m r -> rlen (m + m) (rlift x r) /\
  (forall i, (i < m)%N ->
   [/\ fA (rlift x r) i = (ph x)^-1 * fA r i, fA (rlift x r) (m + i) = ph x * fA r i,
       fB (rlift x r) i = ph x * fB r i & fB (rlift x r) (m + i) = (ph x)^-1 * fB r i]) /\ fc (rlift x r) = fc r.
Proof.
case: r => [[a b] z] [/= La Lb].
split; first by split; rewrite /= List.app_length !vscale_length ?La ?Lb.
split=> // i Hi. rewrite /fA /fB /=.
split; [rewrite (@app_nth_l _ _ _ m) ?vscale_length //|rewrite app_nth_r ?vscale_length //|
  rewrite (@app_nth_l _ _ _ m) ?vscale_length //|rewrite app_nth_r ?vscale_length //]; by rewrite pv_vscale // zph_inv //; exact: secp_N_pr.
Qed.
Lemma val_radd m g h u r s : rlen m r -> rlen m s -> val m g h u (radd r s) = val m g h u r + val m g h u s.
Proof.
move=> lr ls. have [_ [HA HB HC]] := radd_ok lr ls. rewrite /val HC.
under eq_bigr do rewrite HA mulrDr. under [X in _ + X + _]eq_bigr do rewrite HB mulrDr.
rewrite !big_split /= mulrDr. exact: ringa.
Qed.
Lemma val_rscale m g h u c r : rlen m r -> val m g h u (rscale c r) = ph c * val m g h u r.
Proof.
move=> lr. have [_ [HA HB HC]] := rscale_ok c lr. rewrite /val HC !mulrDr !mulr_sumr.
congr (_ + _ + _); last by rewrite mulrCA.
  apply: eq_bigr => i _. by rewrite HA mulrCA.
apply: eq_bigr => i _. by rewrite HB mulrCA.
Qed.
Definition gfold m (x : FN) (g : nat -> FN) (i : nat) : FN := x^-1 * g i + x * g (m + i)%N.
Definition hfold m (x : FN) (h : nat -> FN) (i : nat) : FN := x * h i + x^-1 * h (m + i)%N.
Lemma val_rlift m g h u x r : rlen m r ->
  val (m + m) g h u (rlift x r) = val m (gfold m (ph x) g) (hfold m (ph x) h) u r.
Proof.
move=> lr. have [_ [H HC]] := rlift_ok x lr. rewrite /val HC. congr (_ + _ + _).
  rewrite big_split_ord /= -big_split /=. apply: eq_bigr => i _.
  have [-> -> _ _] := H i (ltn_ord i). exact: ringb.
rewrite big_split_ord /= -big_split /=. apply: eq_bigr => i _.
have [_ _ -> ->] := H i (ltn_ord i). exact: ringb.
Qed.
Lemma val_ext m g h g' h' u r : (forall i, (i < m)%N -> g i = g' i) -> (forall i, (i < m)%N -> h i = h' i) ->
  val m g h u r = val m g' h' u r.
Proof.
move=> Hg Hh. rewrite /val. congr (_ + _ + _); apply: eq_bigr => i _; by rewrite ?Hg ?Hh.
Qed.
Lemma ph_dot a b m : List.length a = m -> List.length b = m -> ph (dot a b) = \sum_(i < m) pv a i * pv b i.
Proof.
elim: a b m => [|v a IH] [|w b] [|m] // La Lb; first by rewrite big_ord0; exact: zph_0.
rewrite big_ord_recl /dot /= zph_add zph_mul. congr (_ + _).
case: La => La. case: Lb => Lb. exact: (IH b m La Lb).
Qed.
Lemma rzero_true r : rzero r = true -> (forall i, fA r i = 0) /\ (forall i, fB r i = 0) /\ fc r = 0.
Proof.
case: r => [[a b] z]. rewrite /rzero => /List.forallb_forall H.
have N v : List.In v (z :: (a ++ b)%list) -> ph v = 0.
  by move=> /H /Z.eqb_eq E; apply/zph_eq0.
have G l : (forall v, List.In v l -> ph v = 0) -> forall i, pv l i = 0.
  elim: l => [|v l IH] Hl [|i]; try exact: pv_nil; first by apply: Hl; left.
  apply: IH => w Hw. apply: Hl. by right.
split; [|split].
- apply: G => v Hv. apply: N. right. apply: List.in_or_app. by left.
- apply: G => v Hv. apply: N. right. apply: List.in_or_app. by right.
- apply: N. by left.
Qed.
Lemma rzero_lift x r m : rlen m r -> ph x != 0 -> rzero r = false -> rzero (rlift x r) = false.
Proof.
move=> lr x0 Hr. apply/negbTE/negP => /rzero_true [HA [HB HC]].
have [_ [H EC]] := rlift_ok x lr.
have A0 i : (i < m)%N -> fA r i = 0.
  move=> Hi. have [_ E _ _] := H i Hi. move: E. rewrite HA => /esym/eqP. by rewrite mulf_eq0 (negbTE x0) => /eqP.
have B0 i : (i < m)%N -> fB r i = 0.
  move=> Hi. have [_ _ E _] := H i Hi. move: E. rewrite HB => /esym/eqP. by rewrite mulf_eq0 (negbTE x0) => /eqP.
move: EC Hr. rewrite HC => EC. clear H HA HB HC. case: r lr EC A0 B0 => [[a b] z] [La Lb] EC A0 B0; rewrite /= in La Lb.
suff : rzero (a, b, z) = true by move=> ->.
rewrite /rzero. apply/List.forallb_forall => v [<-|Hv].
  apply/Z.eqb_eq/(zph_eq0 zfN). exact: esym EC.
apply/Z.eqb_eq/(zph_eq0 zfN). case: (List.in_app_or _ _ _ Hv) => /(List.In_nth _ _ 0%Z) [i [/ltP Hi <-]].
  by apply: A0; rewrite -La.
by apply: B0; rewrite -Lb.
Qed.

(** ** The equation that an accepted run satisfies *)
Fixpoint pathok (k : nat) (g h : nat -> FN) (q u : FN) (Ls Rs : list point) (xs : list Z) (a b : Z) : Prop :=
  match k, Ls, Rs, xs with
  | O, nil, nil, nil => q = g 0%N * ph a + h 0%N * ph b + u * (ph a * ph b)
  | S k', L :: Ls', R :: Rs', x :: xs' =>
      pathok k' (gfold (pow2 k') (ph x) g) (hfold (pow2 k') (ph x) h)
        (q + ph x * ph x * dl L + (ph x * ph x)^-1 * dl R) u Ls' Rs' xs' a b
  | _, _, _, _ => False
  end.
Lemma pathok_ext k : forall g h g' h' q u Ls Rs xs a b,
  (forall i, (i < pow2 k)%N -> g i = g' i) -> (forall i, (i < pow2 k)%N -> h i = h' i) ->
  pathok k g h q u Ls Rs xs a b -> pathok k g' h' q u Ls Rs xs a b.
Proof.
elim: k => [|k IH] g h g' h' q u [|L Ls] [|R Rs] [|x xs] a b Hg Hh //=; first by rewrite Hg // Hh.
rewrite pow2S in Hg Hh. apply: IH => i Hi.
  rewrite /gfold Hg ?Hg ?ltn_add2l //. exact: ltn_addr.
rewrite /hfold Hh ?Hh ?ltn_add2l //. exact: ltn_addr.
Qed.

Section E.
Variable E : ext.
Hypothesis hE : ext_ok E.
Variable sha : list Z -> list Z.

Lemma loop_path k : forall g h P Ls Rs xs g' h' P', List.length Ls = k -> List.length Rs = k -> allv Ls -> allv Rs ->
  List.length g = pow2 k -> List.length h = pow2 k -> allv g -> allv h -> valid P ->
  List.Forall (fun x => ph x != 0) xs ->
  List.map (fun LR => fst (HashBP sha (fst LR) (snd LR))) (List.combine Ls Rs) = xs ->
  ipVerify_loop E sha Ls Rs (Z.of_nat (pow2 k)) g h P = Ok (g', h', P') ->
  exists g0 h0, [/\ g' = [:: g0], h' = [:: h0], valid g0, valid h0 & valid P'] /\
   forall u a b, dl P' = dl g0 * ph a + dl h0 * ph b + u * (ph a * ph b) ->
     pathok k (dv g) (dv h) (dl P) u Ls Rs xs a b.
Proof.
elim: k => [|k IH] g h P [|L Ls] [|R Rs] [|x xs] g' h' P' // LL LR vL vR Lg Lh vg vh vP.
  case: g Lg vg => [|g0 [|? ?]] // _ vg. case: h Lh vh => [|h0 [|? ?]] // _ vh _ _ [<- <- <-].
  exists g0, h0. split=> //. split=> //; [by case/List.Forall_cons_iff: vg|by case/List.Forall_cons_iff: vh].
case/List.Forall_cons_iff=> x0 xs0 [/= Ex Exs]. rewrite Ex pow2S quot_half.
rewrite pow2S in Lg Lh. case/List.Forall_cons_iff: vL => vL vLs. case/List.Forall_cons_iff: vR => vR vRs.
have [[i Ei [Pi _]]|[_ /eqP]] := ModInverse_cases x; last by rewrite (negbTE x0).
have [E1 [E2 _]] := slice_ok Lg. have [E6 [E7 _]] := slice_ok Lh.
have [gp [gp2 [g1 [E3 [E4 [E5 [Lg1 [vg1 Dg]]]]]]]] := fold_gens hE i x Lg vg.
have [hp [hp2 [h1 [E8 [E9 [E10 [Lh1 [vh1 Dh]]]]]]]] := fold_gens hE x i Lh vh.
rewrite Ei E1 /= E2 /= E3 /= E4 /= E5 /= E6 /= E7 /= E8 /= E9 /= E10 /=.
have y0 : ph (bmod (x * x) ORDER) != 0 by rewrite ph_sq mulf_neq0.
have [[j Ej [Pj _]]|[_ /eqP]] := ModInverse_cases (bmod (x * x) ORDER); last by rewrite (negbTE y0).
rewrite Ej /=. have [vLx DLx] := ScalarMultP_ok hE (bmod (x * x) ORDER) vL. have [vRx DRx] := ScalarMultP_ok hE j vR.
have v1 := Multiply_valid hE vP vLx. have v2 := Multiply_valid hE v1 vRx.
case: LL => LL. case: LR => LR.
move=> /(IH _ _ _ _ _ _ _ _ _ LL LR vLs vRs Lg1 Lh1 vg1 vh1 v2 xs0 Exs) [g0 [h0 [W H]]].
exists g0, h0. split=> // u a b /H. rewrite (dl_Multiply hE) // (dl_Multiply hE) // DLx DRx Pj ph_sq /=.
apply: pathok_ext => l Hl; by rewrite ?Dg ?Dh // Pi.
Qed.

Lemma accept_path k q r : ip_params_wf q k -> valid (pp_P q) ->
  List.length (run_Ls r) = k -> List.length (run_Rs r) = k -> allv (run_Ls r) -> allv (run_Rs r) ->
  List.Forall (fun x => ph x != 0) (run_xs r) ->
  List.map (fun LR => fst (HashBP sha (fst LR) (snd LR))) (List.combine (run_Ls r) (run_Rs r)) = run_xs r ->
  forall pr', ipVerify E sha (run_proof q r) = Ok (true, pr') ->
  pathok k (dv (pp_Gg q)) (dv (pp_Hh q)) (dl (pp_P q)) (dl (pp_Uu q)) (run_Ls r) (run_Rs r) (run_xs r) (run_a r) (run_b r).
Proof.
move=> [EN [Lg [Lh [vg [vh vu]]]]] vP LL LR vL vR x0 Hx pr'. rewrite /ipVerify /= EN.
case EL : (ipVerify_loop _ _ _ _ _ _ _ _) => [[[g' h'] P']| |] //=.
have [g0 [h0 [[-> -> vg0 vh0 vP'] H]]] := loop_path LL LR vL vR Lg Lh vg vh vP x0 Hx EL.
rewrite /=. set nP := Multiply E _ _ => -[Z _]. apply: H.
have [v1 D1] := ScalarMultP_ok hE (run_a r) vg0. have [v2 D2] := ScalarMultP_ok hE (run_b r) vh0.
have [v3 D3] := ScalarMultP_ok hE (bmod (run_a r * run_b r) ORDER) vu.
have v12 := Multiply_valid hE v1 v2. have v123 := Multiply_valid hE v12 v3. have [vn Dn] := dl_Neg hE vP'.
have vN : valid nP by exact: (Multiply_valid hE).
move: Z. rewrite (dl_IsZero vN) /nP (dl_Multiply hE) // Dn (dl_Multiply hE) // (dl_Multiply hE) // D1 D2 D3 ph_bmod zph_mul.
rewrite addrC subr_eq0 => /eqP <-. congr (_ + _ + _); exact: mulrC.
Qed.

(** conversely, Verify accepts what satisfies the equation *)
Lemma path_loop k : forall g h P u Ls Rs xs a b, allv Ls -> allv Rs ->
  List.length g = pow2 k -> List.length h = pow2 k -> allv g -> allv h -> valid P ->
  List.Forall (fun x => ph x != 0) xs ->
  List.map (fun LR => fst (HashBP sha (fst LR) (snd LR))) (List.combine Ls Rs) = xs ->
  pathok k (dv g) (dv h) (dl P) u Ls Rs xs a b ->
  exists g0 h0 P', ipVerify_loop E sha Ls Rs (Z.of_nat (pow2 k)) g h P = Ok ([:: g0], [:: h0], P') /\
   [/\ valid g0, valid h0 & valid P'] /\ dl P' = dl g0 * ph a + dl h0 * ph b + u * (ph a * ph b).
Proof.
elim: k => [|k IH] g h P u [|L Ls] [|R Rs] [|x xs] a b // vL vR Lg Lh vg vh vP.
  case: g Lg vg => [|g0 [|? ?]] // _ vg. case: h Lh vh => [|h0 [|? ?]] // _ vh _ _ H.
  exists g0, h0, P. split=> //. split=> //. by split=> //; [case/List.Forall_cons_iff: vg|case/List.Forall_cons_iff: vh].
case/List.Forall_cons_iff=> x0 xs0 [/= Ex Exs]. rewrite Ex pow2S quot_half.
rewrite pow2S in Lg Lh. case/List.Forall_cons_iff: vL => vL vLs. case/List.Forall_cons_iff: vR => vR vRs.
have [[i Ei [Pi _]]|[_ /eqP]] := ModInverse_cases x; last by rewrite (negbTE x0).
have [E1 [E2 _]] := slice_ok Lg. have [E6 [E7 _]] := slice_ok Lh.
have [gp [gp2 [g1 [E3 [E4 [E5 [Lg1 [vg1 Dg]]]]]]]] := fold_gens hE i x Lg vg.
have [hp [hp2 [h1 [E8 [E9 [E10 [Lh1 [vh1 Dh]]]]]]]] := fold_gens hE x i Lh vh.
rewrite Ei E1 /= E2 /= E3 /= E4 /= E5 /= E6 /= E7 /= E8 /= E9 /= E10 /=.
have y0 : ph (bmod (x * x) ORDER) != 0 by rewrite ph_sq mulf_neq0.
have [[j Ej [Pj _]]|[_ /eqP]] := ModInverse_cases (bmod (x * x) ORDER); last by rewrite (negbTE y0).
rewrite Ej /=. have [vLx DLx] := ScalarMultP_ok hE (bmod (x * x) ORDER) vL. have [vRx DRx] := ScalarMultP_ok hE j vR.
have v1 := Multiply_valid hE vP vLx. have v2 := Multiply_valid hE v1 vRx. move=> H.
apply: (IH _ _ _ _ _ _ _ _ _ vLs vRs Lg1 Lh1 vg1 vh1 v2 xs0 Exs).
move: H. rewrite (dl_Multiply hE) // (dl_Multiply hE) // DLx DRx Pj ph_sq.
apply: pathok_ext => l Hl; by rewrite ?Dg ?Dh // Pi.
Qed.
Lemma path_accept k q r : ip_params_wf q k -> valid (pp_P q) -> allv (run_Ls r) -> allv (run_Rs r) ->
  List.Forall (fun x => ph x != 0) (run_xs r) ->
  List.map (fun LR => fst (HashBP sha (fst LR) (snd LR))) (List.combine (run_Ls r) (run_Rs r)) = run_xs r ->
  pathok k (dv (pp_Gg q)) (dv (pp_Hh q)) (dl (pp_P q)) (dl (pp_Uu q)) (run_Ls r) (run_Rs r) (run_xs r) (run_a r) (run_b r) ->
  accepted E q r.
Proof.
move=> [EN [Lg [Lh [vg [vh vu]]]]] vP vL vR x0 Hx H.
have [g0 [h0 [P' [EL [[vg0 vh0 vP'] D]]]]] := path_loop vL vR Lg Lh vg vh vP x0 Hx H.
exists sha. eexists. split; first exact: Hx. rewrite /ipVerify /= EN EL /=. congr (Ok (_, _)).
have [v1 D1] := ScalarMultP_ok hE (run_a r) vg0. have [v2 D2] := ScalarMultP_ok hE (run_b r) vh0.
have [v3 D3] := ScalarMultP_ok hE (bmod (run_a r * run_b r) ORDER) vu.
have v12 := Multiply_valid hE v1 v2. have v123 := Multiply_valid hE v12 v3. have [vn Dn] := dl_Neg hE vP'.
rewrite dl_IsZero; last exact: (Multiply_valid hE).
rewrite (dl_Multiply hE) // Dn (dl_Multiply hE) // (dl_Multiply hE) // D1 D2 D3 ph_bmod zph_mul D addrC subr_eq0.
apply/eqP. congr (_ + _ + _); exact: mulrC.
Qed.
End E.

(** ** The extractor *)
Lemma sq_ph x : ph (sq x) = ph x * ph x.
Proof. by rewrite /sq zph_mod zph_mul. Qed.
Definition foundF (m : nat) (g h : nat -> FN) (q u : FN) (o : outcome) : Prop :=
  match o with
  | Witness a b => rlen m (a, b, 0%Z) /\ q = val m g h u (a, b, dot a b)
  | Relation r => rlen m r /\ rzero r = false /\ val m g h u r = 0
  end.
(** a linear function of the exponents *)
Definition islin m (f : rep -> FN) : Prop :=
  (forall r s, rlen m r -> rlen m s -> f (radd r s) = f r + f s) /\ (forall c r, rlen m r -> f (rscale c r) = ph c * f r).
Lemma lin_A m i : islin m (fun r => fA r i).
Proof. split=> [r s lr ls|c r lr]; [by have [_ []] := radd_ok lr ls|by have [_ []] := rscale_ok c lr]. Qed.
Lemma lin_B m i : islin m (fun r => fB r i).
Proof. split=> [r s lr ls|c r lr]; [by have [_ []] := radd_ok lr ls|by have [_ []] := rscale_ok c lr]. Qed.
Lemma lin_c m : islin m fc.
Proof. split=> [r s lr ls|c r lr]; [by have [_ []] := radd_ok lr ls|by have [_ []] := rscale_ok c lr]. Qed.
Lemma lin_val m g h u : islin m (val m g h u).
Proof. split=> [r s lr ls|c r lr]; [exact: val_radd|exact: val_rscale]. Qed.

Lemma combine3_ok m w1 w2 w3 r1 r2 r3 : rlen m r1 -> rlen m r2 -> rlen m r3 -> rlen m (combine3 w1 w2 w3 r1 r2 r3) /\
  forall f, islin m f -> f (combine3 w1 w2 w3 r1 r2 r3) = ph w1 * f r1 + (ph w2 * f r2 + ph w3 * f r3).
Proof.
move=> l1 l2 l3. rewrite /combine3.
have [k1 _] := rscale_ok w1 l1. have [k2 _] := rscale_ok w2 l2. have [k3 _] := rscale_ok w3 l3.
have [k4 _] := radd_ok k2 k3. have [k5 _] := radd_ok k1 k4.
split=> // f [fa fs]. by rewrite !fa // !fs.
Qed.

Section Node.
Variables (m : nat) (g h : nat -> FN) (q u l rr : FN).
Variables x1 x2 x3 x4 : Z.
Variables a1 b1 a2 b2 a3 b3 a4 b4 : list Z.
Let y (x : Z) : FN := ph x * ph x.
Hypothesis U : uniq [seq z * z | z <- [:: ph x1; ph x2; ph x3; ph x4]].
Hypothesis N0 : forall x, x \in [:: ph x1; ph x2; ph x3; ph x4] -> x != 0.
Hypothesis L1 : rlen m (a1, b1, 0%Z).
Hypothesis L2 : rlen m (a2, b2, 0%Z).
Hypothesis L3 : rlen m (a3, b3, 0%Z).
Hypothesis L4 : rlen m (a4, b4, 0%Z).
Let good x a b := q + y x * l + (y x)^-1 * rr = val m (gfold m (ph x) g) (hfold m (ph x) h) u (a, b, dot a b).
Hypothesis V1 : good x1 a1 b1.
Hypothesis V2 : good x2 a2 b2.
Hypothesis V3 : good x3 a3 b3.
Hypothesis V4 : good x4 a4 b4.
Let r1 := rlift x1 (a1, b1, dot a1 b1).
Let r2 := rlift x2 (a2, b2, dot a2 b2).
Let r3 := rlift x3 (a3, b3, dot a3 b3).
Let r4 := rlift x4 (a4, b4, dot a4 b4).
Lemma k_len x a b : rlen m (a, b, 0%Z) -> rlen (m + m) (rlift x (a, b, dot a b)).
Proof. move=> L. by have [] := @rlift_ok m x (a, b, dot a b) L. Qed.
Lemma k_val x a b : rlen m (a, b, 0%Z) -> good x a b -> val (m + m) g h u (rlift x (a, b, dot a b)) = q + y x * l + (y x)^-1 * rr.
Proof. move=> L V. by rewrite val_rlift. Qed.

Lemma node_ok : foundF (m + m) g h q u
  (let '(rL, rP, rR) := interpolate (sq x1) (sq x2) (sq x3) r1 r2 r3 in
   let r := radd (radd (rscale (sq x4) rL) (radd rP (rscale (inv_mod secp_N (sq x4)) rR))) (rscale (-1) r4) in
   if rzero r then let '(a, b, _) := rP in Witness a b else Relation r).
Proof.
have [n1 n2 n3 n4] : [/\ ph x1 != 0, ph x2 != 0, ph x3 != 0 & ph x4 != 0].
  by split; apply: N0; rewrite !inE eqxx ?orbT.
have [d12 d13 d23] : [/\ y x1 != y x2, y x1 != y x3 & y x2 != y x3].
  have U' := U. move: U'. rewrite /= !inE !negb_or -!andbA => /and5P [? ? _ ? _]. by split.
have K1 := k_len x1 L1. have K2 := k_len x2 L2. have K3 := k_len x3 L3. have K4 := k_len x4 L4.
have W1 := k_val L1 V1. have W2 := k_val L2 V2. have W3 := k_val L3 V3. have W4 := k_val L4 V4.
rewrite -/r1 in K1 W1. rewrite -/r2 in K2 W2. rewrite -/r3 in K3 W3. rewrite -/r4 in K4 W4.
have m1 : y x1 != 0 by exact: mulf_neq0. have m2 : y x2 != 0 by exact: mulf_neq0.
have m3 : y x3 != 0 by exact: mulf_neq0.
pose rL := fst (fst (interpolate (sq x1) (sq x2) (sq x3) r1 r2 r3)).
pose rP := snd (fst (interpolate (sq x1) (sq x2) (sq x3) r1 r2 r3)).
pose rR := snd (interpolate (sq x1) (sq x2) (sq x3) r1 r2 r3).
have -> : interpolate (sq x1) (sq x2) (sq x3) r1 r2 r3 = (rL, rP, rR) by rewrite /rL /rP /rR; case: interpolate => [[]].
have [lL fL] : rlen (m + m) rL /\ forall f, islin (m + m) f -> f rL = iL (y x1) (y x2) (y x3) (f r1) (f r2) (f r3).
  have [lL fL] := combine3_ok (sq x1 * inv_mod secp_N ((sq x1 - sq x2) * (sq x1 - sq x3)))
    (sq x2 * inv_mod secp_N ((sq x2 - sq x1) * (sq x2 - sq x3))) (sq x3 * inv_mod secp_N ((sq x3 - sq x1) * (sq x3 - sq x2))) K1 K2 K3.
  split; first exact: lL. move=> f /fL EL. rewrite {1}/rL [f _]EL. by rewrite !zph_mul !(zph_inv secp_N_pr) !zph_mul !zph_sub !sq_ph.
have [lP fP] : rlen (m + m) rP /\ forall f, islin (m + m) f -> f rP = iP (y x1) (y x2) (y x3) (f r1) (f r2) (f r3).
  have [lP fP] := combine3_ok (- (sq x1 * inv_mod secp_N ((sq x1 - sq x2) * (sq x1 - sq x3)) * (sq x2 + sq x3)))
    (- (sq x2 * inv_mod secp_N ((sq x2 - sq x1) * (sq x2 - sq x3)) * (sq x1 + sq x3)))
    (- (sq x3 * inv_mod secp_N ((sq x3 - sq x1) * (sq x3 - sq x2)) * (sq x1 + sq x2))) K1 K2 K3.
  split; first exact: lP. move=> f /fP EP. rewrite {1}/rP [f _]EP. by rewrite !zph_opp !zph_mul !(zph_inv secp_N_pr) !zph_mul !zph_sub !zph_add !sq_ph.
have [lR fR] : rlen (m + m) rR /\ forall f, islin (m + m) f -> f rR = iR (y x1) (y x2) (y x3) (f r1) (f r2) (f r3).
  have [lR fR] := combine3_ok (sq x1 * inv_mod secp_N ((sq x1 - sq x2) * (sq x1 - sq x3)) * (sq x2 * sq x3))
    (sq x2 * inv_mod secp_N ((sq x2 - sq x1) * (sq x2 - sq x3)) * (sq x1 * sq x3))
    (sq x3 * inv_mod secp_N ((sq x3 - sq x1) * (sq x3 - sq x2)) * (sq x1 * sq x2)) K1 K2 K3.
  split; first exact: lR. move=> f /fR ER. rewrite {1}/rR [f _]ER. by rewrite !zph_mul !(zph_inv secp_N_pr) !zph_mul !zph_sub !sq_ph.
move: rL rP rR lL fL lP fP lR fR => rL rP rR lL fL lP fP lR fR. cbv zeta iota beta. set r := radd _ _.
have [lr fr] : rlen (m + m) r /\ forall f, islin (m + m) f -> f r = y x4 * f rL + (f rP + (y x4)^-1 * f rR) + -1 * f r4.
  rewrite /r. have [s1 _] := rscale_ok (sq x4) lL. have [s2 _] := rscale_ok (inv_mod secp_N (sq x4)) lR.
  have [s3 _] := rscale_ok (-1) K4. have [s4 _] := radd_ok lP s2. have [s5 _] := radd_ok s1 s4.
  have [s6 _] := radd_ok s5 s3. split=> // f [fa fs].
  by rewrite !fa // !fs // (zph_inv secp_N_pr) !sq_ph -[(-1)%Z]/(Z.opp 1) zph_opp zph_1.
have [VL VP VR] := @interp_coef FN (y x1) (y x2) (y x3) m1 m2 m3 d12 d13 d23 l q rr _ _ _ W1 W2 W3.
rewrite -fL in VL; last exact: lin_val. rewrite -fP in VP; last exact: lin_val. rewrite -fR in VR; last exact: lin_val.
case Z : (rzero r); last first.
  have V : val (m + m) g h u r = 0 by rewrite (fr _ (@lin_val _ g h u)) VL VP VR W4; exact: ringd.
  exact: (conj lr (conj Z V)).
have [ZA [ZB ZC]] := rzero_true Z.
have ev f : islin (m + m) f -> f r = 0 ->
   [/\ f r1 = y x1 * f rL + f rP + (y x1)^-1 * f rR, f r2 = y x2 * f rL + f rP + (y x2)^-1 * f rR,
       f r3 = y x3 * f rL + f rP + (y x3)^-1 * f rR & f r4 = y x4 * f rL + f rP + (y x4)^-1 * f rR].
  move=> lin f0. rewrite (fL _ lin) (fP _ lin) (fR _ lin).
  have [-> -> ->] := @interp_eval FN (y x1) (y x2) (y x3) m1 m2 m3 d12 d13 d23 (f r1) (f r2) (f r3). split=> //.
  rewrite -(fL _ lin) -(fP _ lin) -(fR _ lin). apply: ringc. by rewrite -(fr _ lin).
have hA i : (i < m)%N -> [/\ pv a1 i = ph x1 * fA rP i + (ph x1)^-1 * fA rP (m + i), pv a2 i = ph x2 * fA rP i + (ph x2)^-1 * fA rP (m + i),
    pv a3 i = ph x3 * fA rP i + (ph x3)^-1 * fA rP (m + i) & pv a4 i = ph x4 * fA rP i + (ph x4)^-1 * fA rP (m + i)].
  move=> Hi. have [e1 e2 e3 e4] := ev _ (@lin_A _ i) (ZA i). have [e1' e2' e3' e4'] := ev _ (@lin_A _ (m + i)%N) (ZA (m + i)%N).
  have C := @halves FN (fA rL i) (fA rP i) (fA rR i) (fA rL (m + i)) (fA rP (m + i)) (fA rR (m + i))
    [:: (ph x1, pv a1 i); (ph x2, pv a2 i); (ph x3, pv a3 i); (ph x4, pv a4 i)] U erefl.
  have D : forall p : FN * FN, p \in [:: (ph x1, pv a1 i); (ph x2, pv a2 i); (ph x3, pv a3 i); (ph x4, pv a4 i)] -> p.2 = p.1 * fA rP i + p.1^-1 * fA rP (m + i).
    apply: C => p; rewrite !inE => /or4P [] /eqP -> //=; rewrite -?e1 -?e2 -?e3 -?e4 -?e1' -?e2' -?e3' -?e4'.
    - by have [_ [/(_ i Hi) [-> -> _ _] _]] := @rlift_ok m x1 (a1, b1, dot a1 b1) L1.
    - by have [_ [/(_ i Hi) [-> -> _ _] _]] := @rlift_ok m x2 (a2, b2, dot a2 b2) L2.
    - by have [_ [/(_ i Hi) [-> -> _ _] _]] := @rlift_ok m x3 (a3, b3, dot a3 b3) L3.
    - by have [_ [/(_ i Hi) [-> -> _ _] _]] := @rlift_ok m x4 (a4, b4, dot a4 b4) L4.
  split; [exact: (D (ph x1, pv a1 i) (mem_head _ _))| | |].
  - by apply: (D (ph x2, pv a2 i)); rewrite !inE eqxx orbT.
  - by apply: (D (ph x3, pv a3 i)); rewrite !inE eqxx !orbT.
  - by apply: (D (ph x4, pv a4 i)); rewrite !inE eqxx !orbT.
have hB i : (i < m)%N -> [/\ pv b1 i = ph x1 * fB rP (m + i) + (ph x1)^-1 * fB rP i, pv b2 i = ph x2 * fB rP (m + i) + (ph x2)^-1 * fB rP i,
    pv b3 i = ph x3 * fB rP (m + i) + (ph x3)^-1 * fB rP i & pv b4 i = ph x4 * fB rP (m + i) + (ph x4)^-1 * fB rP i].
  move=> Hi. have [e1 e2 e3 e4] := ev _ (@lin_B _ i) (ZB i). have [e1' e2' e3' e4'] := ev _ (@lin_B _ (m + i)%N) (ZB (m + i)%N).
  have C := @halves FN (fB rL (m + i)) (fB rP (m + i)) (fB rR (m + i)) (fB rL i) (fB rP i) (fB rR i)
    [:: (ph x1, pv b1 i); (ph x2, pv b2 i); (ph x3, pv b3 i); (ph x4, pv b4 i)] U erefl.
  have D : forall p : FN * FN, p \in [:: (ph x1, pv b1 i); (ph x2, pv b2 i); (ph x3, pv b3 i); (ph x4, pv b4 i)] -> p.2 = p.1 * fB rP (m + i) + p.1^-1 * fB rP i.
    apply: C => p; rewrite !inE => /or4P [] /eqP -> //=; rewrite -?e1 -?e2 -?e3 -?e4 -?e1' -?e2' -?e3' -?e4'.
    - by have [_ [/(_ i Hi) [_ _ -> ->] _]] := @rlift_ok m x1 (a1, b1, dot a1 b1) L1.
    - by have [_ [/(_ i Hi) [_ _ -> ->] _]] := @rlift_ok m x2 (a2, b2, dot a2 b2) L2.
    - by have [_ [/(_ i Hi) [_ _ -> ->] _]] := @rlift_ok m x3 (a3, b3, dot a3 b3) L3.
    - by have [_ [/(_ i Hi) [_ _ -> ->] _]] := @rlift_ok m x4 (a4, b4, dot a4 b4) L4.
  split; [exact: (D (ph x1, pv b1 i) (mem_head _ _))| | |].
  - by apply: (D (ph x2, pv b2 i)); rewrite !inE eqxx orbT.
  - by apply: (D (ph x3, pv b3 i)); rewrite !inE eqxx !orbT.
  - by apply: (D (ph x4, pv b4 i)); rewrite !inE eqxx !orbT.
have [c1 c2 c3 c4] := ev _ (@lin_c _) ZC.
pose X := \sum_(i < m) fA rP i * fB rP (m + i)%N. pose Y := \sum_(i < m) fA rP (m + i)%N * fB rP i.
pose W := \sum_(i < m) (fA rP i * fB rP i + fA rP (m + i)%N * fB rP (m + i)%N).
have dd (x : FN) a b : x != 0 -> rlen m (a, b, 0%Z) ->
    (forall i, (i < m)%N -> pv a i = x * fA rP i + x^-1 * fA rP (m + i)) -> (forall i, (i < m)%N -> pv b i = x * fB rP (m + i) + x^-1 * fB rP i) ->
    ph (dot a b) = x * x * X + W + (x * x)^-1 * Y.
  move=> x0 [/= La Lb] Ha Hb. rewrite (ph_dot La Lb) /X /Y /W !mulr_sumr -!big_split /=.
  apply: eq_bigr => i _. rewrite Ha // Hb //. exact: ringe.
have cP : fc rP = W.
  apply: (@middle FN (fc rL) (fc rP) (fc rR) X W Y _ U erefl N0) => x. rewrite !inE => /or4P [] /eqP ->.
  - rewrite -[LHS]c1. apply: (dd _ _ _ n1 L1) => i Hi; [by have [] := hA i Hi|by have [] := hB i Hi].
  - rewrite -[LHS]c2. apply: (dd _ _ _ n2 L2) => i Hi; [by have [] := hA i Hi|by have [] := hB i Hi].
  - rewrite -[LHS]c3. apply: (dd _ _ _ n3 L3) => i Hi; [by have [] := hA i Hi|by have [] := hB i Hi].
  - rewrite -[LHS]c4. apply: (dd _ _ _ n4 L4) => i Hi; [by have [] := hA i Hi|by have [] := hB i Hi].
move: cP VP lP. rewrite /W. clear. case: rP => [[a b] z] cP VP [/= La Lb]. split=> //.
rewrite -VP /val. congr (_ + _ * _). rewrite cP /fc /= (ph_dot La Lb) big_split_ord /= -big_split. exact: eq_bigr.
Qed.
End Node.

Lemma squares x1 x2 x3 x4 : ~ List.In 0%Z (List.map sq [:: x1; x2; x3; x4]) -> List.NoDup (List.map sq [:: x1; x2; x3; x4]) ->
  uniq [seq z * z | z <- [:: ph x1; ph x2; ph x3; ph x4]] /\ forall x, x \in [:: ph x1; ph x2; ph x3; ph x4] -> x != 0.
Proof.
have r z : (0 <= sq z < secp_N)%Z by apply: Z.mod_pos_bound; exact: SecpMain.N_pos.
have inj a b : ph a * ph a = ph b * ph b -> sq a = sq b.
  rewrite -!sq_ph. exact: zph_small.
have z0 a : sq a <> 0%Z -> ph a != 0.
  move=> H. apply/eqP => H0. apply: H. apply: (@zph_small _ zfN _ _ (r a)); first by have := SecpMain.N_pos; lia.
  by rewrite sq_ph H0 mul0r zph_0.
move=> n0 D. have ne a b : sq a <> sq b -> ph a * ph a != ph b * ph b by move=> H; apply/eqP => /inj.
inversion D as [|? ? D1 D']; subst. inversion D' as [|? ? D2 D'']; subst. inversion D'' as [|? ? D3 _]; subst.
split.
  rewrite /= !inE !negb_or. repeat (apply/andP; split) => //; apply: ne => H.
  - by apply: D1; left.
  - by apply: D1; right; left.
  - by apply: D1; right; right; left.
  - by apply: D2; left.
  - by apply: D2; right; left.
  - by apply: D3; left.
move=> x. rewrite !inE => /or4P [] /eqP ->; apply: z0 => H; apply: n0.
- by left.
- by right; left.
- by right; right; left.
- by right; right; right; left.
Qed.

Definition runP k g h q u (r : run) : Prop := pathok k g h q u (run_Ls r) (run_Rs r) (run_xs r) (run_a r) (run_b r).
Lemma extract_F k : forall t g h q u, tree_ok k t -> (forall r, List.In r (runs t) -> runP k g h q u r) ->
  foundF (pow2 k) g h q u (extract t).
Proof.
elim: k => [|k IH] [a b|L R x1 x2 x3 x4 t1 t2 t3 t4] g h q u //.
  move=> _ /(_ _ (or_introl erefl)) H. split=> //. rewrite /val !big_ord1 /fA /fB /fc /dot /= /pv /= Z.add_0_r zph_mul. exact: H.
move=> [vL [vR [n0 [D [T1 [T2 [T3 T4]]]]]]] H. have [U N0] := squares n0 D.
pose q' x := q + ph x * ph x * dl L + (ph x * ph x)^-1 * dl R.
have sub x t : tree_ok k t -> (forall r, List.In r (runs t) -> runP (S k) g h q u (round1 L R x r)) ->
    foundF (pow2 k) (gfold (pow2 k) (ph x) g) (hfold (pow2 k) (ph x) h) (q' x) u (extract t).
  by move=> T Hr; apply: IH.
have F1 : foundF (pow2 k) (gfold (pow2 k) (ph x1) g) (hfold (pow2 k) (ph x1) h) (q' x1) u (extract t1).
  apply: sub => // r Hr. apply: H. rewrite /=. apply: List.in_or_app. left. exact: List.in_map.
have F2 : foundF (pow2 k) (gfold (pow2 k) (ph x2) g) (hfold (pow2 k) (ph x2) h) (q' x2) u (extract t2).
  apply: sub => // r Hr. apply: H. rewrite /=. apply: List.in_or_app. right. apply: List.in_or_app. left. exact: List.in_map.
have F3 : foundF (pow2 k) (gfold (pow2 k) (ph x3) g) (hfold (pow2 k) (ph x3) h) (q' x3) u (extract t3).
  apply: sub => // r Hr. apply: H. rewrite /=. apply: List.in_or_app. right. apply: List.in_or_app. right.
  apply: List.in_or_app. left. exact: List.in_map.
have F4 : foundF (pow2 k) (gfold (pow2 k) (ph x4) g) (hfold (pow2 k) (ph x4) h) (q' x4) u (extract t4).
  apply: sub => // r Hr. apply: H. rewrite /=. apply: List.in_or_app. right. apply: List.in_or_app. right.
  apply: List.in_or_app. right. exact: List.in_map.
have [n1 n2 n3 n4] : [/\ ph x1 != 0, ph x2 != 0, ph x3 != 0 & ph x4 != 0].
  by split; apply: N0; rewrite !inE eqxx ?orbT.
have rel x r : ph x != 0 -> foundF (pow2 k) (gfold (pow2 k) (ph x) g) (hfold (pow2 k) (ph x) h) (q' x) u (Relation r) ->
    foundF (pow2 k + pow2 k) g h q u (Relation (rlift x r)).
  move=> x0 [lr [z v]]. have [lr' _] := rlift_ok x lr. split; first exact: lr'.
  split; first exact: (rzero_lift lr x0 z). by rewrite val_rlift.
rewrite pow2S /extract -/extract. move: F1 F2 F3 F4.
case: (extract t1) => [a1 b1|r1]; last by move=> F1 _ _ _; apply: rel.
case: (extract t2) => [a2 b2|r2]; last by move=> _ F2 _ _; apply: rel.
case: (extract t3) => [a3 b3|r3]; last by move=> _ _ F3 _; apply: rel.
case: (extract t4) => [a4 b4|r4]; last by move=> _ _ _ F4; apply: rel.
move=> [l1 v1] [l2 v2] [l3 v3] [l4 v4].
exact: (node_ok U N0 l1 l2 l3 l4 v1 v2 v3 v4).
Qed.

Lemma runs_ok k : forall t r, tree_ok k t -> List.In r (runs t) ->
  [/\ List.length (run_Ls r) = k, List.length (run_Rs r) = k, allv (run_Ls r), allv (run_Rs r) &
      List.Forall (fun x => ph x != 0) (run_xs r)].
Proof.
elim: k => [|k IH] [a b|L R x1 x2 x3 x4 t1 t2 t3 t4] r //.
  move=> _ [<-|//]. by split=> //; apply: List.Forall_nil.
move=> [vL [vR [n0 [D [T1 [T2 [T3 T4]]]]]]]. have [_ N0] := squares n0 D.
have sub x t : ph x != 0 -> tree_ok k t -> List.In r (List.map (round1 L R x) (runs t)) ->
  [/\ List.length (run_Ls r) = S k, List.length (run_Rs r) = S k, allv (run_Ls r), allv (run_Rs r) &
      List.Forall (fun x => ph x != 0) (run_xs r)].
  move=> x0 T /List.in_map_iff [r' [<- Hr]]. have [l1 l2 v1 v2 z] := IH _ _ T Hr.
  by split; rewrite /= ?l1 ?l2 //; apply: List.Forall_cons.
have [n1 n2 n3 n4] : [/\ ph x1 != 0, ph x2 != 0, ph x3 != 0 & ph x4 != 0].
  by split; apply: N0; rewrite !inE eqxx ?orbT.
rewrite /= => H. case: (List.in_app_or _ _ _ H) => {}H; first exact: (sub _ _ n1 T1 H).
case: (List.in_app_or _ _ _ H) => {}H; first exact: (sub _ _ n2 T2 H).
case: (List.in_app_or _ _ _ H) => {}H; [exact: (sub _ _ n3 T3 H)|exact: (sub _ _ n4 T4 H)].
Qed.

(** ** In the group *)
Lemma on_multiexp g a : allv g -> on_secp (multiexp g a).
Proof.
move=> v. elim: v a => [|p g' vp _ IH] [|x a] //. apply: on_gadd; last exact: IH. exact: on_gmul.
Qed.
Lemma dlz_multiexp m g a : allv g -> List.length g = m -> List.length a = m -> dlz (multiexp g a) = \sum_(i < m) dv g i * pv a i.
Proof.
move=> v. elim: v a m => [|p g' vp vg IH] [|x a] [|m] // Lg La; first by rewrite big_ord0; exact: dlz_None.
rewrite big_ord_recl /multiexp /= -/(multiexp g' a) dlz_add; [|exact: on_gmul|exact: on_multiexp].
rewrite dlz_mul // mulrC. congr (_ + _). apply: IH; [by case: Lg|by case: La].
Qed.
Lemma product_ok m g h u a b z : allv g -> allv h -> valid u -> List.length g = m -> List.length h = m ->
  rlen m (a, b, z) -> on_secp (product g h u (a, b, z)) /\ dlz (product g h u (a, b, z)) = val m (dv g) (dv h) (dl u) (a, b, z).
Proof.
move=> vg vh vu Lg Lh [/= La Lb]. have o1 := on_multiexp a vg. have o2 := on_multiexp b vh.
have o3 : on_secp (gmul z (value u)) by exact: on_gmul. have o4 := on_gadd o1 o2.
split; first exact: on_gadd. rewrite dlz_add // dlz_add // dlz_mul // (dlz_multiexp vg Lg La) (dlz_multiexp vh Lh Lb).
by rewrite /val mulrC.
Qed.

Lemma extract_found E : ext_ok E -> forall k q t, ip_params_wf q k -> valid (pp_P q) -> tree_ok k t ->
  (forall r, List.In r (runs t) -> accepted E q r) -> found q (extract t).
Proof.
move=> hE k q t wf vP T H. have F := @extract_F k t (dv (pp_Gg q)) (dv (pp_Hh q)) (dl (pp_P q)) (dl (pp_Uu q)) T.
have {}F : foundF (pow2 k) (dv (pp_Gg q)) (dv (pp_Hh q)) (dl (pp_P q)) (dl (pp_Uu q)) (extract t).
  apply: F => r Hr. have [l1 l2 v1 v2 z] := runs_ok T Hr. have [sha [pr' [Hx Ha]]] := H r Hr.
  exact: (accept_path hE wf vP l1 l2 v1 v2 z Hx Ha).
have [_ [Lg [Lh [vg [vh vu]]]]] := wf. move: F. rewrite /found Lg Lh. case: (extract t) => [a b [[/= La Lb] V]|[[a b] z] [[/= La Lb] [Z V]]].
  split=> //. split=> //. have [o D] := @product_ok (pow2 k) _ _ _ a b (dot a b) vg vh vu Lg Lh (conj La Lb).
  apply: dlz_inj => //. by rewrite D -V.
split=> //. split=> //. split; first exact: Z. have [o D] := @product_ok (pow2 k) _ _ _ a b z vg vh vu Lg Lh (conj La Lb).
apply/(dlz_eq0 o). by rewrite D.
Qed.
