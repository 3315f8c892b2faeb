(** * Linearity of an ate-style pairing, over an abstract field *)
From Coq Require Import ZArith List Ring_theory Field_theory Field.
From mathcomp Require Import all_ssreflect all_algebra.
From Verif Require Import ZMod MCRing ZExp EC SpecPair PtMap Cocycle CocycleExt.
Set Implicit Arguments.
Unset Strict Implicit.
Unset Printing Implicit Defensive.
Import GRing.Theory.
Local Open Scope ring_scope.
Delimit Scope Z_scope with Z.

(** the line functions commute with an endomorphism of the field *)
Section EvMap.
Variables (F : fieldType) (f : F -> F).
Hypothesis fD : forall x y, f (x + y) = f x + f y.
Hypothesis fM : forall x y, f (x * y) = f x * f y.
Hypothesis f1 : f 1 = 1.
Definition mp (A : pt F) : pt F := match A with Inf => Inf | Aff x y => Aff (f x) (f y) end.
Definition evg (x y : F) (A B : pt F) : F :=
  match A, B with
  | Inf, _ => vt B x
  | _, Inf => vt A x
  | Aff x1 y1, Aff x2 y2 => if (x1 == x2) && (y1 == - y2) then x - x1 else y - (slope x1 y1 x2 y2 * (x - x1) + y1)
  end.
Lemma ev_gl x y A B : ev x y (gl A B) = evg x y A B.
Proof.
case: A => [|x1 y1]; first by rewrite [gl _ _]/(cK (vert B)) ev_vert.
case: B => [|x2 y2]; first by rewrite [gl _ _]/(cK (vert (Aff x1 y1))) ev_vert.
rewrite /gl /evg. case: ifP => _; first by rewrite ev_vert.
exact: evL.
Qed.
Lemma slope_f x1 y1 x2 y2 : slope (f x1) (f y1) (f x2) (f y2) = f (slope x1 y1 x2 y2).
Proof.
rewrite /slope (fm_eq fD fM f1). case: eqP => _; rewrite fM (fmV fD fM f1).
  by rewrite (fM 3%:R) (fM 2%:R) (fmX fM f1) (fmn fD f1 3) (fmn fD f1 2).
by rewrite !(fmB fD).
Qed.
Lemma vt_f A x : vt (mp A) (f x) = f (vt A x).
Proof. by case: A => [|x1 y1] /=; rewrite ?f1 ?(fmB fD). Qed.
Lemma evg_f x y A B : evg (f x) (f y) (mp A) (mp B) = f (evg x y A B).
Proof.
case: A => [|x1 y1]; first exact: vt_f. case: B => [|x2 y2]; first exact: (vt_f (Aff x1 y1)).
rewrite /evg /=. rewrite (fm_eq fD fM f1) -(fmN fD) (fm_eq fD fM f1). case: ifP => _; first by rewrite (fmB fD).
by rewrite slope_f (fmB fD) fD fM (fmB fD).
Qed.
Lemma pt_add_f A B : mp (pt_add A B) = pt_add (mp A) (mp B).
Proof.
case: A B => [|x1 y1] [|x2 y2] //. have [C|N] := boolP ((x1 == x2) && (y1 == - y2)).
  case/andP: C => /eqP -> /eqP ->. by rewrite /= !eqxx (fmN fD) eqxx.
rewrite (slope_add N) [mp (Aff x1 y1)]/= [mp (Aff x2 y2)]/= slope_add.
  rewrite slope_f /third /= !(fmB fD) fM !(fmB fD) (fmX fM f1). by [].
by rewrite -(fmN fD) !(fm_eq fD fM f1).
Qed.
End EvMap.

Lemma line_at_ev (F : fieldType) (x y : F) A B : A <> Inf -> B <> Inf -> line_at A B (Aff x y) = evg x y A B.
Proof.
case: A B => [|x1 y1] [|x2 y2] // _ _. rewrite /= /slope. case: eqP => //= _; last by rewrite opprD addrA addrAC.
case: eqP => // _. by rewrite opprD addrA addrAC.
Qed.

(** f_{n,Q} and the two final lines *)
Definition ate_gen (F : fieldType) (ds : list Z) (p q q1 q2 : pt F) : F :=
  let '(f, t) := miller_fun q p ds in f * line_at t q1 p * line_at (pt_add t q1) q2 p.

Lemma div_help (F : fieldType) (a d v w z : F) : w != 0 -> a / v * (d / z) = (a * d * w) / (v * w * z).
Proof.
move=> w0. rewrite mulrACA -invfM (mulrAC v w z) (invfM (v * z) w) (mulrC _ w^-1) mulrA (mulfK w0). by [].
Qed.
Section Ate.
Variables (F : fieldType) (b : F).
Hypothesis h2 : (2%:R : F) != 0.
Hypothesis h3 : (3%:R : F) != 0.
Hypothesis hb : b != 0.
Local Notation oc := (on_curve b).
Variables (G : zmodType) (u : G -> pt F).
Hypothesis uoc : forall A, oc (u A).
Hypothesis u0 : u 0 = Inf.
Hypothesis uD : forall A B, u (A + B) = pt_add (u A) (u B).
Hypothesis uN : forall A, u (- A) = pt_neg (u A).
Hypothesis uinf : forall A, u A = Inf -> A = 0.
Variable q : nat.
Local Notation fr := (fun x : F => x ^+ q).
Hypothesis frD : forall x y : F, (x + y) ^+ q = x ^+ q + y ^+ q.
Variable psi : G -> G.
Hypothesis psiD : forall A B, psi (A + B) = psi A + psi B.
Hypothesis psiu : forall A, u (psi A) = mp fr (u A).
Let frM (x y : F) : (x * y) ^+ q = x ^+ q * y ^+ q := exprMn q x y.
Let fr1 : (1 : F) ^+ q = 1 := expr1n F q.

Definition good (P : pt F) : Prop := [/\ oc P, forall A, apart P (u A) & mp fr P = P].
Definition dd (P : pt F) (A B : G) : F := cc P (u A) (u B) ^+ 4.
Lemma vtn x y A : good (Aff x y) -> vt (u A) x != 0.
Proof. case=> _ H _. by rewrite -(apart_vt x y). Qed.
Lemma dd0 P A B : good P -> dd P A B != 0.
Proof.
move=> gP. rewrite /dd expf_neq0 //. case: P gP => [|x y] gP; first exact: oner_neq0.
have o : oc (Aff x y) by case: gP. rewrite /cc -uD mulf_neq0 ?invr_eq0 ?(vtn _ gP) //.
apply: (@gl_neq0 _ b) => //; rewrite -?uD; exact: (vtn _ gP).
Qed.
Lemma ddC P A B : good P -> dd P A B = dd P B A.
Proof.
case: P => [|x y] [o _ _] //. rewrite /dd /cc !exprMn (gl_sym h2 h3 hb (uoc A) (uoc B) o) -!uD (addrC A). by [].
Qed.
Lemma ddA P A B C : good P -> dd P A B * dd P (A + B) C = dd P B C * dd P A (B + C).
Proof.
case: P => [|x y] gP; first by []. have o : oc (Aff x y) by case: gP.
have H := gl_cocycle h2 h3 hb (uoc A) (uoc B) (uoc C) o. rewrite -!uD in H.
rewrite /dd /cc !uD -!exprMn -!uD.
set a := ev x y (gl (u A) (u B)) in H *. set d := ev x y (gl (u (A + B)) (u C)) in H *.
set e := ev x y (gl (u B) (u C)) in H *. set g := ev x y (gl (u A) (u (B + C))) in H *.
have n1 := vtn (A + B) gP. have n2 := vtn (B + C) gP. have n3 := vtn (A + B + C) gP.
rewrite (addrA A B C).
move: (vt (u (A + B)) x) (vt (u (B + C)) x) (vt (u (A + B + C)) x) n1 n2 n3 H => v w z n1 n2 n3 H.
have -> : a / v * (d / z) = (a * d * w) / (v * w * z).
  exact: div_help.
have -> : e / w * (g / z) = (e * g * v) / (v * w * z).
  by rewrite (mulrC v w); exact: div_help.
by rewrite !(exprMn _ _ (v * w * z)^-1) H.
Qed.
Lemma dd1 P A : good P -> dd P 0 A = 1.
Proof.
move=> gP. rewrite /dd u0. case: P gP => [|x y] gP; first by rewrite expr1n.
rewrite /cc ev_gl /= divff ?expr1n //. exact: (vtn _ gP).
Qed.
Definition coc P (gP : good P) : cocyc G F :=
  @Cocyc G F (dd P) (fun A B => dd0 A B gP) (fun A B => ddC A B gP) (fun A B C => ddA A B C gP) (fun A => dd1 A gP).
Lemma dd_psi P A B : good P -> dd P (psi A) (psi B) = dd P A B ^+ q.
Proof.
case: P => [|x y] [o _ f]; first by rewrite /dd /= !expr1n.
case: f => fx fy. rewrite /dd !psiu -exprM mulnC exprM. congr (_ ^+ 4).
rewrite /cc -(pt_add_f frD frM fr1) !ev_gl exprMn exprVn.
rewrite -(evg_f frD frM fr1) -(vt_f frD fr1) fx fy. by [].
Qed.

(** the line through two points of evaluation *)
Definition ww (P1 P2 : pt F) (A : G) : F := wl P1 P2 (u A) ^+ 4.
Section Two.
Variables P1 P2 : pt F.
Hypothesis g1 : good P1.
Hypothesis g2 : good P2.
Hypothesis g3 : good (pt_add P1 P2).
Lemma good_neg P : good P -> good (pt_neg P).
Proof.
case=> o a f. split; first exact: oc_neg.
  move=> A. by rewrite apart_sym apart_neg apart_sym.
by case: P o a f => [|x y] //= _ _ [fx fy]; rewrite fx (fmN frD) fy.
Qed.
Lemma apart_all C P : P = P1 \/ P = P2 \/ P = pt_add P1 P2 -> apart P (u C).
Proof. case: g1 g2 g3 => _ a1 _ [_ a2 _] [_ a3 _]. by case=> [->|[->|->]]. Qed.
Lemma ww_d A B : dd P1 A B * dd P2 A B * dd (pt_neg (pt_add P1 P2)) A B * ww P1 P2 (A + B) = ww P1 P2 A * ww P1 P2 B.
Proof.
case: g1 g2 => o1 _ _ [o2 _ _].
rewrite /dd /ww -!exprMn uD. apply: pm_sq. apply: (@reciprocity F b) => // C P [->|[->|->]] H; rewrite -?uD; exact: apart_all.
Qed.
Lemma ww_0 : ww P1 P2 0 = 1. Proof. by rewrite /ww u0 /= expr1n. Qed.
Lemma ww_psi A : ww P1 P2 (psi A) = ww P1 P2 A ^+ q.
Proof.
case: g1 g2 => _ _ f1' [_ _ f2']. rewrite /ww psiu -exprM mulnC exprM. congr (_ ^+ 4).
case: (u A) => [|x y]; first by rewrite /= expr1n. rewrite /wl [mp _ _]/= !ev_gl -(evg_f frD frM fr1) f1' f2'. by [].
Qed.
Lemma ww_n A : ww P1 P2 A != 0.
Proof.
rewrite /ww expf_neq0 //. have o := uoc A. have a := apart_all A. case: (u A) o a => [|x y] o a; first exact: oner_neq0.
case: g1 g2 => o1 _ _ [o2 _ _]. rewrite /wl. apply: (@gl_neq0 F b) => //.
- rewrite -(apart_vt x y) apart_sym. apply: a. by left.
- rewrite -(apart_vt x y) apart_sym. apply: a. by right; left.
- rewrite -(apart_vt x y) apart_sym. apply: a. by right; right.
Qed.
End Two.

(** ** the Miller loop *)
Variables (N : nat) (s : Z) (ds : list Z).
Hypothesis N0 : (0 < N)%N.
Hypothesis kill_vt : forall x y A, good (Aff x y) -> vt (u A) x ^+ N = 1.
Hypothesis kill_NN : forall k : F, k != 0 -> zx k (NN q s) ^+ N = 1.
Hypothesis ds_ok : Forall (fun d => d = 0 \/ d = 1 \/ d = -1)%Z ds.
Hypothesis ds_val : digits_value ds = s.
Local Notation fe x := (x ^+ N).

Lemma line_fe P A B : good P -> fe (line_at (u A) (u B) P) ^+ 4 = fe (dd P A B).
Proof.
move=> gP. case: P gP => [|x y] gP.
  have -> : line_at (u A) (u B) Inf = 1 by case: (u A) (u B) => [|? ?] [|? ?]. by rewrite /dd /= !expr1n.
case: (eqVneq A 0) => [->|A0]; first by rewrite u0 dd1 //= !expr1n.
case: (eqVneq B 0) => [->|B0].
  rewrite u0 ddC // dd1 //. have -> : line_at (u A) Inf (Aff x y) = 1 by case: (u A). by rewrite !expr1n.
rewrite line_at_ev; try by move=> /uinf E; move: A0 B0; rewrite E eqxx.
rewrite /dd /cc ev_gl -uD [RHS]exprAC. congr (_ ^+ 4).
by rewrite exprMn exprVn (kill_vt _ gP) invr1 mulr1.
Qed.
Lemma kill_opp P A : good P -> fe (dd P A (- A)) = 1.
Proof.
move=> gP. case: P gP => [|x y] gP; first by rewrite /dd /= !expr1n.
case: (eqVneq A 0) => [->|A0]; first by rewrite dd1 // expr1n.
rewrite /dd /cc ev_gl -uD addrN u0 divr1 uN. 
have E : evg x y (u A) (pt_neg (u A)) = vt (u A) x.
  case: (u A) => [|x1 y1] //=. by rewrite opprK !eqxx.
by rewrite E -exprM mulnC exprM (kill_vt _ gP) expr1n.
Qed.

Lemma cdE P (gP : good P) A B : cd (coc gP) A B = dd P A B. Proof. by []. Qed.
Local Opaque dd.
Section Loop.
Variables (P : pt F) (gP : good P) (A : G).
Local Notation c := (coc gP).
Local Notation L := (lft c A).
Definition inv (st : F * pt F) (n : Z) : Prop :=
  st.2 = u (eA (smul n L)) /\ fe st.1 ^+ 4 = fe (ea (smul n L)).
Lemma step_add f (e g : ext c) t : t = u (eA e) -> fe f ^+ 4 = fe (ea e) -> fe (ea g) = 1 ->
  fe (f * line_at t (u (eA g)) P) ^+ 4 = fe (ea (e + g)) /\ pt_add t (u (eA g)) = u (eA (e + g)).
Proof.
move=> -> Hf Hg. split; last by rewrite eAD uD.
rewrite eaD cdE (exprMn N f) (exprMn 4 (fe f)) Hf (line_fe _ _ gP) (exprMn N (ea e * ea g)) (exprMn N (ea e)) Hg mulr1. by [].
Qed.
Lemma fe_lft : fe (ea L) = 1. Proof. by rewrite ea_lft expr1n. Qed.
Lemma fe_opp (e : ext c) : fe (ea e) = 1 -> fe (ea (- e)) = 1.
Proof. move=> H. by rewrite eaN cdE exprVn exprMn H mul1r (kill_opp _ gP) invr1. Qed.
Lemma step_inv st n d : inv st n -> (d = 0 \/ d = 1 \/ d = -1)%Z -> inv (miller_step (u A) P st d) (2 * n + d).
Proof.
case: st => f t [Ht Hf] D. rewrite [_.2]/= in Ht. rewrite [_.1]/= in Hf.
have D2 : fe (f ^+ 2 * line_at t t P) ^+ 4 = fe (ea (smul (2 * n) L)) /\ pt_add t t = u (eA (smul (2 * n) L)).
  have -> : (2 * n = n + n)%Z by rewrite -Z.add_diag. rewrite smulDl. split; last by rewrite eAD uD Ht.
  rewrite Ht eaD cdE (exprMn N (f ^+ 2)) (exprMn 4 (fe (f ^+ 2))) (line_fe _ _ gP) (exprMn N (ea _ * ea _)) (exprMn N (ea _)) -Hf. congr (_ * _). by rewrite (exprAC f 2 N) (exprAC _ 2 4) expr2.
rewrite /miller_step. case: D2. move: (2 * n)%Z => m H1 H2. case: D => [->|[->|->]] /=.
- rewrite Z.add_0_r. by split.
- have [S1 S2] := step_add H2 H1 fe_lft. rewrite eA_lft in S1 S2. rewrite /inv smulDl smul1. by split.
- have [S1 S2] := step_add H2 H1 (fe_opp fe_lft). rewrite eAN eA_lft uN in S1 S2.
  have -> : (m + -1 = m + - (1))%Z by []. rewrite /inv smulDl smulN smul1. by split.
Qed.
Lemma loop_inv : inv (miller_fun (u A) P ds) s.
Proof.
rewrite -ds_val /miller_fun /digits_value.
have K : forall l, Forall (fun d => d = 0 \/ d = 1 \/ d = -1)%Z l -> forall st n, inv st n ->
    inv (fold_left (miller_step (u A) P) l st) (fold_left (fun n d => (2 * n + d)%Z) l n).
  elim=> [|d l IH] D st n H; first exact: H. 
  change (inv (fold_left (miller_step (u A) P) l (miller_step (u A) P st d)) (fold_left (fun n d => (2 * n + d)%Z) l (2 * n + d)%Z)).
  apply: IH; first exact: (List.Forall_inv_tail D).
  apply: step_inv; [exact: H | exact: (List.Forall_inv D)].
apply: K; first exact: ds_ok. rewrite /inv smul1 eA_lft ea_lft !expr1n. by split.
Qed.
Definition ate : F := ate_gen ds P (u A) (mp fr (u A)) (pt_neg (mp fr (mp fr (u A)))).
Hypothesis zA : smul s A + psi A - psi (psi A) + psi (psi (psi A)) = 0.
Lemma ate_tt : fe ate ^+ 4 = fe (tt c psi q s A).
Proof.
rewrite /ate /ate_gen. have := loop_inv. case: (miller_fun _ _ _) => f t [/= Ht Hf].
rewrite -!psiu -uN.
have F1 : fe (ea (Phi psi q L)) = 1 by rewrite ea_Phi ea_lft !expr1n.
have [S1 S2] := step_add Ht Hf F1. rewrite eA_Phi eA_lft in S1 S2.
have F2 : fe (ea (Phi psi q (Phi psi q L))) = 1 by rewrite !ea_Phi ea_lft !expr1n.
have [S3 S4] := step_add (esym (esym S2)) S1 (fe_opp F2). rewrite eAN !eA_Phi eA_lft in S3 S4.
rewrite S3 /tt /TT. set X := smul s L + _ - _. set Y := Phi _ _ (Phi _ _ (Phi _ _ L)).
rewrite eaD cdE (exprMn N (ea X * ea Y)) (exprMn N (ea X)).
have -> : fe (ea Y) = 1 by rewrite /Y !ea_Phi ea_lft !expr1n.
have EX : eA X = - eA Y.
  apply/eqP. rewrite -addr_eq0 /X /Y !eAD eAN !eA_Phi eA_smul eA_lft. by rewrite zA.
rewrite EX (ddC _ _ gP) (kill_opp _ gP) !mulr1. by [].
Qed.
Lemma ate_neq0 : ate != 0.
Proof.
apply/eqP => E. have := ate_tt. have n0 : fe (tt c psi q s A) != 0 by rewrite expf_neq0 // ea_neq0.
rewrite E expr0n (gtn_eqF N0) mulr0n expr0n /= => X. by rewrite -X eqxx in n0.
Qed.
End Loop.

Lemma lin_Q P A B : good P ->
  smul s A + psi A - psi (psi A) + psi (psi (psi A)) = 0 ->
  smul s B + psi B - psi (psi B) + psi (psi (psi B)) = 0 ->
  fe (ate P A) ^+ 4 * fe (ate P B) ^+ 4 = fe (ate P (A + B)) ^+ 4.
Proof.
move=> gP zA zB.
have zAB : smul s (A + B) + psi (A + B) - psi (psi (A + B)) + psi (psi (psi (A + B))) = 0.
  rewrite smulDr !psiD opprD -[0]addr0 -{1}zA -zB. 
  by rewrite (addrACA (smul s A)) (addrACA (smul s A + psi A)) (addrACA (smul s A + psi A - psi (psi A))).
rewrite (ate_tt gP zA) (ate_tt gP zB) (ate_tt gP zAB) -exprMn (tt_lin psiD) //.
- rewrite exprMn kill_NN ?mul1r //. exact: dd0.
- move=> X Y; exact: dd_psi.
- by rewrite eA_TT eA_lft.
- by rewrite eA_TT eA_lft.
Qed.
Lemma lin_P P1 P2 A : good P1 -> good P2 -> good (pt_add P1 P2) ->
  smul s A + psi A - psi (psi A) + psi (psi (psi A)) = 0 ->
  fe (ate P1 A) ^+ 4 * fe (ate P2 A) ^+ 4 * fe (ate (pt_neg (pt_add P1 P2)) A) ^+ 4 = 1.
Proof.
move=> g1 g2 g3 zA. have g4 := good_neg g3.
rewrite (ate_tt g1 zA) (ate_tt g2 zA) (ate_tt g4 zA) -!exprMn.
rewrite (@tt_three G F (coc g1) (coc g2) (coc g4) psi q (ww P1 P2)) //.
- apply: kill_NN. exact: ww_n.
- exact: ww_n.
- exact: ww_0.
- exact: ww_d.
- exact: ww_psi.
Qed.
End Ate.
