(** * Discrete logarithms on secp256k1

    Every valid point is g^k for one k modulo N, so that equations between
    points become equations in the field Z/N. *)
From Coq Require Import ZArith Znumtheory List Bool Lia.
From mathcomp Require Import all_ssreflect all_algebra.
From Verif Require Import Base BaseFacts ByteConv Fp MCRing ZMod EC ECGroup SpecCurve ZCurve ZField P256 SpecSecp SecpGroup SecpProofs.
Set Implicit Arguments.
Unset Strict Implicit.
Unset Printing Implicit Defensive.
Import GRing.Theory.
Local Open Scope ring_scope.
Delimit Scope Z_scope with Z.
Local Arguments Z.mul : simpl never.
Local Arguments Z.add : simpl never.
Local Arguments Z.sub : simpl never.
Local Arguments Z.modulo : simpl never.
Local Opaque secp_P secp_N secp_Gx secp_Gy.
Local Notation hP := secp_P_pr.
Local Notation hP3 := secp_P3.
Local Notation hb := secp_b.
Local Notation hN := secp_N_pr.

Definition zfN : zfield secp_N := zfield_of secp_N_pr.
Definition FN : fieldType := zK zfN.
Local Notation phN := (zph zfN).

Definition zpt_eqb (p q : zpt) : bool :=
  match p, q with
  | None, None => true
  | Some (x1, y1), Some (x2, y2) => (x1 =? x2)%Z && (y1 =? y2)%Z
  | _, _ => false
  end.
Lemma zpt_eqP p q : reflect (p = q) (zpt_eqb p q).
Proof.
case: p q => [[x1 y1]|] [[x2 y2]|] /=; try by constructor.
apply: (iffP andP) => [[/Z.eqb_eq -> /Z.eqb_eq ->] //|[-> ->]]. by rewrite !Z.eqb_refl.
Qed.
(** a discrete logarithm function (by exhaustive search) *)
Lemma dlog_ex : { d : zpt -> Z | forall q, on_secp q -> q = gmul (d q) gen }.
Proof.
exists (fun q => if [pick k : 'I_(Z.to_nat secp_N) | zpt_eqb q (gmul (Z.of_nat k) gen)] is Some k
                 then Z.of_nat k else 0%Z).
move=> q o. case: pickP => [k /zpt_eqP //|H].
have [k [rk Eq]] := secp_gen o.
have lk : (Z.to_nat k < Z.to_nat secp_N)%N by apply/ltP; lia.
have := H (Ordinal lk). rewrite /= Z2Nat.id; last by lia.
by move/zpt_eqP.
Qed.
Definition dlog : zpt -> Z := proj1_sig dlog_ex.
Lemma dlog_spec q : on_secp q -> q = gmul (dlog q) gen.
Proof. exact: (proj2_sig dlog_ex). Qed.
Definition dlz (q : zpt) : FN := phN (dlog q).

Lemma gmul_gen_inj k k' : gmul k gen = gmul k' gen -> phN k = phN k'.
Proof. by move/secp_inj/(zph_eq zfN). Qed.
Lemma gmul_gen_eq k k' : phN k = phN k' -> gmul k gen = gmul k' gen.
Proof. by move/(zph_eq zfN)/secp_inj. Qed.

Lemma dlz_gmul k : dlz (gmul k gen) = phN k.
Proof.
apply: gmul_gen_inj. rewrite -dlog_spec //. apply: on_gmul. exact: on_gen.
Qed.
Lemma dlz_ex q : on_secp q -> exists k, q = gmul k gen.
Proof. move=> o. exists (dlog q). exact: dlog_spec. Qed.
Lemma dlz_inj p q : on_secp p -> on_secp q -> dlz p = dlz q -> p = q.
Proof. move=> op oq E. rewrite (dlog_spec op) (dlog_spec oq). exact: gmul_gen_eq. Qed.

Lemma gadd_gen a b : gadd (gmul a gen) (gmul b gen) = gmul (a + b) gen.
Proof.
have og := on_gen. apply: em_inj; [by apply: on_gadd; apply: on_gmul|exact: on_gmul|].
by rewrite em_add ?em_mul ?smulDl //; apply: on_gmul.
Qed.
Lemma gmul_gmul a q b : on_secp q -> gmul a (gmul b q) = gmul (a * b) q.
Proof.
move=> og. apply: em_inj; [by apply: on_gmul; apply: on_gmul|exact: on_gmul|].
by rewrite !em_mul ?smulA //; apply: on_gmul.
Qed.
Lemma gneg_gen a : gneg (gmul a gen) = gmul (- a) gen.
Proof.
have og := on_gen. apply: em_inj; [by apply: on_gneg; apply: on_gmul|exact: on_gmul|].
by rewrite em_neg ?em_mul ?smulN //; apply: on_gmul.
Qed.

Lemma dlz_add p q : on_secp p -> on_secp q -> dlz (gadd p q) = dlz p + dlz q.
Proof.
move=> /dlz_ex [a ->] /dlz_ex [b ->]. by rewrite gadd_gen !dlz_gmul zph_add.
Qed.
Lemma dlz_mul k q : on_secp q -> dlz (gmul k q) = phN k * dlz q.
Proof.
move=> /dlz_ex [a ->]. rewrite gmul_gmul; last exact: on_gen. by rewrite !dlz_gmul zph_mul.
Qed.
Lemma dlz_neg q : on_secp q -> dlz (gneg q) = - dlz q.
Proof. move=> /dlz_ex [a ->]. by rewrite gneg_gen !dlz_gmul zph_opp. Qed.
Lemma dlz_None : dlz None = 0.
Proof. rewrite -[None]/(gmul 0 gen) dlz_gmul. exact: zph_0. Qed.
Lemma dlz_eq0 q : on_secp q -> dlz q = 0 <-> q = None.
Proof.
move=> o; split=> [H|->]; last exact: dlz_None.
apply: dlz_inj => //. by rewrite dlz_None.
Qed.

Definition dl (p : point) : FN := dlz (value p).

Section E.
Variable E : ext.
Hypothesis hE : ext_ok E.
Lemma dl_Multiply a b : valid a -> valid b -> dl (Multiply E a b) = dl a + dl b.
Proof. move=> va vb. rewrite /dl (Multiply_value hE) //. exact: dlz_add. Qed.
Lemma dl_ScalarMult a n : valid a -> dl (ScalarMult E a n) = phN n * dl a.
Proof. move=> va. rewrite /dl (ScalarMult_value hE) //. exact: dlz_mul. Qed.
Lemma dl_ScalarBaseMult n : dl (ScalarBaseMult E n) = phN n.
Proof. by rewrite /dl (ScalarBaseMult_value hE) dlz_gmul. Qed.
End E.
Lemma dl_inj a b : valid a -> valid b -> dl a = dl b -> value a = value b.
Proof. exact: dlz_inj. Qed.
Lemma dl_IsZero a : valid a -> IsZero a = (dl a == 0).
Proof.
move=> va. rewrite IsZeroE. apply/esym. case Ev : (value a) => [q|].
  apply/eqP => /(dlz_eq0 va). by rewrite Ev.
by rewrite /dl Ev dlz_None eqxx.
Qed.
Lemma dl_Inf : dl SetInfinity = 0.
Proof. exact: dlz_None. Qed.
Lemma valid_Inf : valid SetInfinity. Proof. by []. Qed.
Lemma dl_Add a b : valid a -> valid b ->
  dl (Add a b) = if dl a == 0 then dl b else if (dl b == 0) || (dl a == dl b) then 0 else dl a + dl b.
Proof.
move=> va vb. rewrite {1}/dl Add_value // (dl_IsZero va) (dl_IsZero vb).
case: ifP => // a0. case: ifP => b0 /=; first exact: dlz_None.
rewrite -(dl_IsZero va) in a0. rewrite -(dl_IsZero vb) in b0.
have Ea := value_nz a0; have Eb := value_nz b0.
case: a va a0 Ea => [[x1 y1]|] // va a0 Ea. case: b vb b0 Eb => [[x2 y2]|] // vb b0 Eb.
have -> : (dl (Some (x1, y1)) == dl (Some (x2, y2))) = ((x1 =? x2)%Z && (y1 =? y2)%Z).
  apply/eqP/andP => [/(dl_inj va vb)|[/Z.eqb_eq -> /Z.eqb_eq ->] //].
  by rewrite Ea Eb => -[-> ->]; rewrite !Z.eqb_refl.
case: ifP => _; first exact: dlz_None.
exact: dlz_add.
Qed.
