(** * Concrete cases for the ccs08 theorems, over the toy group *)
From Coq Require Import ZArith Znumtheory Lia List Bool.
From mathcomp Require Import all_ssreflect all_algebra.
From Verif Require Import Base ByteConv Util BB CCS08 SpecCCS CCSProofs CCSRange CCSLaws CCSInterval.
Import ListNotations.
Local Open Scope Z_scope.
Delimit Scope Z_scope with Z.

Lemma sha_one_ok : hash_bytes sha_one.
Proof. move=> l. split=> //. constructor=> //; rewrite /byte_ok; lia. Qed.

Definition eqmb (x y : Z) : bool := x mod bnOrder =? y mod bnOrder.
Fixpoint chainb (x : Z) (l : list Z) : bool :=
  match l with [] => true | y :: l' => (negb (eqmb x y) || eqmb x 0) && chainb (x + y) l' end.
Lemma chainb_ok x l : chainb x l = true -> chain x l.
Proof.
elim: l x => [//|y l IH] x. rewrite [chainb _ _]/=. case/andP=> A /IH C. split=> // /Z.eqb_eq H.
move: A. rewrite /eqmb H /=. exact: (proj1 (Z.eqb_eq _ _)).
Qed.
Lemma eqmb_no x : eqmb x 0 = false -> ~ eqm x 0.
Proof. by rewrite /eqmb => H /Z.eqb_eq; rewrite H. Qed.

Definition set_nondegb (h x r : Z) (pr : proofSet toy) : bool :=
  [&& chainb (h * sp_m toy pr) [sp_s toy pr], chainb x [h * r],
      chainb ((x + h * r) * sp_c toy pr) [h * sp_zr toy pr; sp_zsig toy pr] & negb (eqmb (sp_c toy pr) 0)].
Lemma set_nondegb_ok h x r pr : set_nondegb h x r pr = true ->
  set_nondegenerate toy_bilinear h x r pr /\ ~ eqm (sp_c toy pr) 0.
Proof.
case/and4P=> /chainb_ok A /chainb_ok B /chainb_ok C /negbTE /eqmb_no D. by split.
Qed.
Definition ul_nondegb (u h x r : Z) (pr : proofUL toy) : bool :=
  [&& chainb (h * up_m toy pr) (weighted u 0 (up_s toy pr)), chainb x [h * r],
      chainb ((x + h * r) * up_c toy pr) (h * up_zr toy pr :: weighted u 0 (up_zsig toy pr)) & negb (eqmb (up_c toy pr) 0)].
Lemma ul_nondegb_ok u h x r pr : ul_nondegb u h x r pr = true ->
  ul_nondegenerate toy_bilinear u h x r pr /\ ~ eqm (up_c toy pr) 0.
Proof.
case/and4P=> /chainb_ok A /chainb_ok B /chainb_ok C /negbTE /eqmb_no D. split=> //. split=> //.
by elim: (up_V toy pr) => [|? ? ?]; constructor.
Qed.

Lemma c_one_neq : 1 mod bnOrder <> 0 mod bnOrder.
Proof. by []. Qed.
Lemma small_neq_12_5 : (12 mod bnOrder =? 5 mod bnOrder) = false.
Proof. by []. Qed.
Lemma small_17 : (12 + 5) mod bnOrder <> 0.
Proof. by []. Qed.
Local Opaque SetupSet Setup ProveSet VerifySet Prove Verify set_nondegb ul_nondegb hExp bnOrder.
Definition ex_tape : tapeSet := TapeSet 7 9 13 15.
Definition set_check : bool :=
  match SetupSet toy 5 [3; 8; 10] with
  | Ok p => match ProveSet toy sha_one ex_tape 8 11 p with
            | Ok pr => set_nondegb hExp 8 11 pr && match VerifySet toy pr p with Ok b => b | _ => false end
            | _ => false end
  | _ => false end.
Lemma set_check_true : set_check = true.
Proof. vm_compute. reflexivity. Qed.
Lemma set_example : exists p pr, SetupSet toy 5 [3; 8; 10] = Ok p /\
  ProveSet toy sha_one ex_tape 8 11 p = Ok pr /\ set_nondegenerate toy_bilinear hExp 8 11 pr /\
  ~ eqm (sp_c toy pr) 0 /\ VerifySet toy pr p = Ok true.
Proof.
have := set_check_true. rewrite /set_check.
case E1: (SetupSet _ _ _) => [p||]; [|by []|by []]. case E2: (ProveSet _ _ _ _ _ _) => [pr||]; [|by []|by []].
case E3: (VerifySet _ _ _) => [b||]; [|by rewrite andbF|by rewrite andbF]. case/andP=> [/set_nondegb_ok [N c0] Eb].
exists p, pr. split; first by []. split; first exact: E2. split; first exact: N. split; first exact: c0. by rewrite E3 Eb.
Qed.

Definition ex_tape1 : tapeUL := TapeUL 7 [(9, 130, 15); (2, 71, 6)].
Definition ex_tape2 : tapeUL := TapeUL 4 [(5, 113, 19); (8, 170, 3)].
Definition interval_check (x : Z) (out : bool) : bool :=
  match Setup toy 5 10 100 with
  | Ok z => match Prove toy sha_one ex_tape1 ex_tape2 x 11 z with
            | Ok pr => [&& pu_l toy (pa_p toy z) =? 2, ul_nondegb 57 hExp (x - 100 + 57 ^ 2) 11 (pf_p1 toy pr),
                 ul_nondegb 57 hExp (x - 10) 11 (pf_p2 toy pr) &
                 match Verify toy pr z with Ok b => Bool.eqb b out | _ => false end]
            | _ => false end
  | _ => false end.
Lemma interval_check_in : interval_check 42 true = true.
Proof. vm_compute. reflexivity. Qed.
Lemma interval_check_out : interval_check 7 false = true.
Proof. vm_compute. reflexivity. Qed.
(** a = 10, b = 100; x = 42 is accepted, x = 7 is below a and rejected *)
Lemma interval_example x out : interval_check x out = true ->
  exists z pr, Setup toy 5 10 100 = Ok z /\ pu_l toy (pa_p toy z) = 2 /\
  Prove toy sha_one ex_tape1 ex_tape2 x 11 z = Ok pr /\
  ul_nondegenerate toy_bilinear 57 hExp (x - 100 + 57 ^ 2) 11 (pf_p1 toy pr) /\
  ul_nondegenerate toy_bilinear 57 hExp (x - 10) 11 (pf_p2 toy pr) /\
  ~ eqm (up_c toy (pf_p1 toy pr)) 0 /\ ~ eqm (up_c toy (pf_p2 toy pr)) 0 /\
  Verify toy pr z = Ok out.
Proof.
rewrite /interval_check.
case E1: (Setup _ _ _ _) => [z||]; [|by []|by []]. case E2: (Prove _ _ _ _ _ _ _) => [pr||]; [|by []|by []].
case E3: (Verify _ _ _) => [b||]; [|by rewrite !andbF|by rewrite !andbF].
case/and4P=> [/Z.eqb_eq El /ul_nondegb_ok [N1 c1] /ul_nondegb_ok [N2 c2] Eb0]; have Eb := Bool.eqb_prop _ _ Eb0.
exists z, pr. split; first by []. split; first exact: El. split; first exact: E2. split; first exact: N1.
split; first exact: N2. split; first exact: c1. split; first exact: c2. by rewrite E3 Eb.
Qed.

Lemma toy_contract : exists W : bilinear toy, (forall k, R1 W (G1_ScalarBaseMult toy k) k) /\
  ~ (forall k, R1 W (G1_ScalarBaseMult toy k) 0).
Proof.
exists toy_bilinear. split; first by []. move=> H. have := H 1. rewrite /= /eqm. exact: c_one_neq.
Qed.
Lemma c31_example : R1 toy_bilinear 5 5 /\ addable 12 5 /\ (12 + 5) mod bnOrder <> 0.
Proof.
split; first by []. split.
- move=> /Z.eqb_eq H. exfalso. move: H. rewrite small_neq_12_5. by [].
- exact: small_17.
Qed.
Lemma sign_panics_iff B (W : bilinear B) m k : Sign B m k = Panic <-> (m + k) mod bnOrder = 0.
Proof. rewrite (Sign_panic_iff W). by rewrite /eqm Zmod_0_l. Qed.
Lemma sign_total B (W : bilinear B) m k : (m + k) mod bnOrder <> 0 -> exists s, Sign B m k = Ok s.
Proof. move=> N. have [|s [E _]] := Sign_spec W (m := m) (k := k); last by exists s. by rewrite /eqm Zmod_0_l. Qed.
Lemma setup_set_iff B (W : bilinear B) k s :
  (exists p, SetupSet B k s = Ok p) <-> (forall m, List.In m s -> (m + k) mod bnOrder <> 0).
Proof. rewrite (SetupSet_iff W). by rewrite /eqm Zmod_0_l. Qed.
Lemma forge_set B p pub C V c zr zsig zv :
  kp_Pubk B (ps_kp B p) = Some pub ->
  let f := forgeSet B (ps_H B p) pub C V c zr zsig zv in
  VerifySet B f p = Ok true /\ sp_C B f = C.
Proof. move=> E. split=> //. exact: forge_set_accepted. Qed.
Lemma forge_ul B p pub C c zr digits :
  kp_Pubk B (pu_kp B p) = Some pub -> pu_l B p = Z.of_nat (length digits) ->
  let f := forgeUL B (pu_H B p) pub (pu_u B p) C c zr digits in
  VerifyUL B f p = Ok true /\ up_C B f = C.
Proof. move=> E El. split=> //. exact: forge_ul_accepted. Qed.
Lemma forge_example : exists p f, SetupSet toy 5 [3; 8; 10] = Ok p /\
  VerifySet toy f p = Ok true /\ sp_C toy f = Commit toy 9 11 (ps_H toy p) /\ ~ List.In 9 [3; 8; 10].
Proof.
have [p [pr [E _]]] := set_example. have [_ [[pub [Ek _]] _]] := SetupSet_inv toy_bilinear E.
exists p, (forgeSet toy (ps_H toy p) pub (Commit toy 9 11 (ps_H toy p)) 1 1 2 3 4).
split; first exact: E. split; first by apply: forge_set_accepted; rewrite Ek. split; first by [].
by case=> [//|[//|[//|[]]]].
Qed.
Lemma leak_ul_r B sha tp x r p pr : ProveUL B sha tp x r p = Ok pr -> ~ eqm (up_c B pr) 0 ->
  recover (up_m B pr) (up_zr B pr) (up_c B pr) = r mod bnOrder.
Proof. move=> E c0. exact: (proj2 (leak_ul E c0)). Qed.
Lemma c38_example : forall x out, (x, out) = (42, true) \/ (x, out) = (7, false) ->
  exists z pr, Setup toy 5 10 100 = Ok z /\ pu_l toy (pa_p toy z) = 2 /\
  tapeUL_ok ex_tape1 2 /\ tapeUL_ok ex_tape2 2 /\ tape_range ex_tape1 /\ tape_range ex_tape2 /\
  Prove toy sha_one ex_tape1 ex_tape2 x 11 z = Ok pr /\
  ul_nondegenerate toy_bilinear 57 hExp (x - 100 + 57 ^ 2) 11 (pf_p1 toy pr) /\
  ul_nondegenerate toy_bilinear 57 hExp (x - 10) 11 (pf_p2 toy pr) /\
  ~ eqm (up_c toy (pf_p1 toy pr)) 0 /\ ~ eqm (up_c toy (pf_p2 toy pr)) 0 /\
  Verify toy pr z = Ok out.
Proof.
have T1 : tape_range ex_tape1 by repeat constructor.
have T2 : tape_range ex_tape2 by repeat constructor.
move=> x out H. have C : interval_check x out = true.
  case: H => [[-> ->]|[-> ->]]; [exact: interval_check_in|exact: interval_check_out].
have [z [pr [E1 [E2 R]]]] := interval_example x out C. exists z, pr.
split; first exact: E1. split; first exact: E2. do 4 (split; first by []). exact: R.
Qed.

Definition wide_tape1 : tapeUL := TapeUL 7 [(9, 130, 15)].
Definition wide_tape2 : tapeUL := TapeUL 4 [(5, 113, 19)].
Definition wide_check : bool :=
  match Setup toy 5 (-100) 20 with
  | Ok z => match Prove toy sha_one wide_tape1 wide_tape2 (-100) 11 z with
            | Ok pr => [&& pu_l toy (pa_p toy z) =? 1, ul_nondegb 57 hExp (-100 - 20 + 57 ^ 1) 11 (pf_p1 toy pr),
                 ul_nondegb 57 hExp (-100 - -100) 11 (pf_p2 toy pr) &
                 match Verify toy pr z with Ok b => Bool.eqb b false | _ => false end]
            | _ => false end
  | _ => false end.
Lemma wide_check_true : wide_check = true.
Proof. vm_compute. reflexivity. Qed.
Lemma wide_example : exists z pr, Setup toy 5 (-100) 20 = Ok z /\ -100 < 20 - 57 ^ pu_l toy (pa_p toy z) /\
  Prove toy sha_one wide_tape1 wide_tape2 (-100) 11 z = Ok pr /\
  ul_nondegenerate toy_bilinear 57 hExp (-100 - 20 + 57 ^ pu_l toy (pa_p toy z)) 11 (pf_p1 toy pr) /\
  ul_nondegenerate toy_bilinear 57 hExp (-100 - -100) 11 (pf_p2 toy pr) /\
  ~ eqm (up_c toy (pf_p1 toy pr)) 0 /\ ~ eqm (up_c toy (pf_p2 toy pr)) 0 /\
  Verify toy pr z = Ok false.
Proof.
have := wide_check_true. rewrite /wide_check.
case E1: (Setup _ _ _ _) => [z||]; [|by []|by []]. case E2: (Prove _ _ _ _ _ _ _) => [pr||]; [|by []|by []].
case E3: (Verify _ _ _) => [b||]; [|by rewrite !andbF|by rewrite !andbF].
case/and4P=> [/Z.eqb_eq El /ul_nondegb_ok [N1 c1] /ul_nondegb_ok [N2 c2] Eb0]. have Eb := Bool.eqb_prop _ _ Eb0.
exists z, pr. rewrite El. split; first by []. split; first by []. split; first exact: E2. split; first exact: N1.
split; first exact: N2. split; first exact: c1. split; first exact: c2. by rewrite E3 Eb.
Qed.

Lemma c54_check : chainb 5 [hExp * 6] && chainb 9 [hExp * ((6 + (5 - 9) * invm hExp) mod bnOrder)] = true.
Proof. vm_compute. reflexivity. Qed.
Lemma c54_example : chain 5 [hExp * 6] /\ chain 9 [hExp * ((6 + (5 - 9) * invm hExp) mod bnOrder)].
Proof. case/andP: c54_check => /chainb_ok A /chainb_ok B. by split. Qed.

Definition c57_check : bool :=
  match SetupSet toy 5 [3; 8; 10] with
  | Ok p => match ProveSet toy sha_one (TapeSet 7 0 13 15) 9 11
      (ParamsSet toy [(big_String 9, Some (G2_SetInfinity toy))] (ps_H toy p) (ps_kp toy p)) with
            | Ok pr => [&& chainb (hExp * 7) [13], chainb 9 [hExp * 11] &
                chainb ((9 + hExp * 11) * sp_c toy pr) [hExp * sp_zr toy pr; sp_zsig toy pr]]
            | _ => false end
  | _ => false end.
Lemma c57_check_true : c57_check = true.
Proof. vm_compute. reflexivity. Qed.
Lemma c57_example : exists p pr, SetupSet toy 5 [3; 8; 10] = Ok p /\
  ProveSet toy sha_one (TapeSet 7 0 13 15) 9 11
      (ParamsSet toy [(big_String 9, Some (G2_SetInfinity toy))] (ps_H toy p) (ps_kp toy p)) = Ok pr /\
  chain (hExp * 7) [13] /\ chain 9 [hExp * 11] /\
  chain ((9 + hExp * 11) * sp_c toy pr) [hExp * sp_zr toy pr; sp_zsig toy pr].
Proof.
have := c57_check_true. rewrite /c57_check.
case E1: (SetupSet _ _ _) => [p||]; [|by []|by []]. case E2: (ProveSet _ _ _ _ _ _) => [pr||]; [|by []|by []].
case/and3P=> /chainb_ok A /chainb_ok B /chainb_ok C. exists p, pr.
split; first by []. split; first exact: E2. split; first exact: A. split; first exact: B. exact: C.
Qed.

(** two runs of the prover on the same tape with different challenges *)
Definition sha_two (_ : list Z) : list Z := [2].
Definition c56_check : bool :=
  match SetupSet toy 5 [3; 8; 10] with
  | Ok p => match ProveSet toy sha_one ex_tape 8 11 p, ProveSet toy sha_two ex_tape 8 11 p with
            | Ok p1, Ok p2 =>
                [&& (sp_C toy p2 =? sp_C toy p1) && (sp_V toy p2 =? sp_V toy p1) && (sp_D toy p2 =? sp_D toy p1) && (sp_a toy p2 =? sp_a toy p1),
                  chainb (sp_C toy p1 * sp_c toy p1) [hExp * sp_zr toy p1; sp_zsig toy p1] &&
                  chainb (sp_C toy p1 * sp_c toy p2) [hExp * sp_zr toy p2; sp_zsig toy p2],
                  [&& (0 <=? sp_zr toy p1) && (0 <=? sp_zr toy p2), 0 <=? sp_c toy p1, 0 <=? sp_zsig toy p1, 0 <=? sp_zv toy p1, 0 <=? sp_c toy p2, 0 <=? sp_zsig toy p2 & 0 <=? sp_zv toy p2],
                  negb (eqmb (sp_c toy p1 - sp_c toy p2) 0) &
                  match VerifySet toy p1 p, VerifySet toy p2 p with Ok a, Ok b => a && b | _, _ => false end]
            | _, _ => false end
  | _ => false end.
Lemma c56_check_true : c56_check = true.
Proof. vm_compute. reflexivity. Qed.
Lemma c56_example : exists p p1 p2, SetupSet toy 5 [3; 8; 10] = Ok p /\
  sp_C toy p2 = sp_C toy p1 /\ sp_V toy p2 = sp_V toy p1 /\ sp_D toy p2 = sp_D toy p1 /\ sp_a toy p2 = sp_a toy p1 /\
  (forall q, q = p1 \/ q = p2 -> (0 <= sp_c toy q /\ 0 <= sp_zr toy q /\ 0 <= sp_zsig toy q /\ 0 <= sp_zv toy q) /\
     chain (sp_C toy p1 * sp_c toy q) [hExp * sp_zr toy q; sp_zsig toy q] /\ VerifySet toy q p = Ok true) /\
  ~ eqm (sp_c toy p1 - sp_c toy p2) 0.
Proof.
have := c56_check_true. rewrite /c56_check.
case E1: (SetupSet _ _ _) => [p||]; [|by []|by []].
case E2: (ProveSet _ sha_one _ _ _ _) => [p1||]; [|by []|by []].
case E3: (ProveSet _ sha_two _ _ _ _) => [p2||]; [|by []|by []].
case V1: (VerifySet _ p1 _) => [b1||]; [|by rewrite !andbF|by rewrite !andbF].
case V2: (VerifySet _ p2 _) => [b2||]; [|by rewrite !andbF|by rewrite !andbF].
case/and5P=> /andP [/andP [/andP [/Z.eqb_eq A1 /Z.eqb_eq A2] /Z.eqb_eq A3] /Z.eqb_eq A4] /andP [/chainb_ok C1 /chainb_ok C2].
case/andP=> /andP [/Z.leb_le D7 /Z.leb_le D8].
case/and5P=> /Z.leb_le D1 /Z.leb_le D2 /Z.leb_le D3 /Z.leb_le D4 /andP [/Z.leb_le D5 /Z.leb_le D6].
move=> /negbTE /eqmb_no N /andP [T1 T2]. rewrite T1 in V1. rewrite T2 in V2.
exists p, p1, p2. split; first by []. do 4 (split; first by []). split; last exact: N.
move=> q [->|->].
- split; first exact: (conj D1 (conj D7 (conj D2 D3))). exact: (conj C1 V1).
- split; first exact: (conj D4 (conj D8 (conj D5 D6))). exact: (conj C2 V2).
Qed.

(** simulated transcript: c = 1, zr = 21, zsig = 22, zv = 23, V = g^24, for x = 8, r = 11, k = 5 *)
Definition sim_tape : tapeSet := TapeSet ((21 + 11 * 1) mod bnOrder) ((24 * (8 + 5)) mod bnOrder) ((22 + 8 * 1) mod bnOrder)
               ((23 + 24 * (8 + 5) * 1) mod bnOrder).
Definition c58_check : bool :=
  match SetupSet toy 5 [3; 8; 10] with
  | Ok p => match ProveSet toy sha_one sim_tape 8 11 p with
            | Ok pr => set_nondegb hExp 8 11 pr && (sp_c toy pr =? 1)
            | _ => false end
  | _ => false end.
Lemma c58_check_true : c58_check = true.
Proof. vm_compute. reflexivity. Qed.
Lemma c58_example : exists p pr, SetupSet toy 5 [3; 8; 10] = Ok p /\ ProveSet toy sha_one sim_tape 8 11 p = Ok pr /\
  sp_c toy pr = 1 /\ set_nondegenerate toy_bilinear hExp 8 11 pr.
Proof.
have := c58_check_true. rewrite /c58_check.
case E1: (SetupSet _ _ _) => [p||]; [|by []|by []]. case E2: (ProveSet _ _ _ _ _ _) => [pr||]; [|by []|by []].
case/andP=> /set_nondegb_ok [N _] /Z.eqb_eq C. exists p, pr. split; first by []. split; first exact: E2. split; [exact: C|exact: N].
Qed.
Lemma simulate' : forall B sha (W : bilinear B), hash_bytes sha ->
  forall p pub k h x r A i c zr zsig zv om tp pr,
  kp_Pubk B (ps_kp B p) = Some pub -> R1 W pub k -> R2 W (ps_H B p) h ->
  lookup B (ps_signatures B p) (big_String x) = Some (Some A) -> R2 W A i -> eqm (i * (x + k)) 1 ->
  0 <= c < bnOrder -> 0 <= zr < bnOrder -> 0 <= zsig < bnOrder -> 0 <= zv < bnOrder -> 0 <= om ->
  pairable W (G2_ScalarBaseMult B om) ->
  tp = TapeSet ((zr + r * c) mod bnOrder) ((om * (x + k)) mod bnOrder) ((zsig + x * c) mod bnOrder)
               ((zv + om * (x + k) * c) mod bnOrder) ->
  ProveSet B sha tp x r p = Ok pr -> sp_c B pr = c -> set_nondegenerate W h x r pr ->
  let f := forgeSet B (ps_H B p) pub (Commit B x r (ps_H B p)) (G2_ScalarBaseMult B om) c zr zsig zv in
  sp_zr B pr = zr /\ sp_zsig B pr = zsig /\ sp_zv B pr = zv /\
  G2_Marshal B (sp_V B pr) = G2_Marshal B (sp_V B f) /\ G2_Marshal B (sp_D B pr) = G2_Marshal B (sp_D B f) /\
  GT_Marshal B (sp_a B pr) = GT_Marshal B (sp_a B f) /\ sp_C B pr = sp_C B f.
Proof.
move=> B sha W hash p pub k h x r A i c zr zsig zv om tp pr H1 H2 H3 H4 H5 H6 H7 H8 H9 H10 H11 H12 H13 H14 H15 H16.
by have [? ? ? [? ? ? ?]] := simulate hash H1 H2 H3 H4 H5 H6 H7 H8 H9 H10 H11 H12 H13 H14 H15 H16.
Qed.

Definition c34_check (x : Z) (out : bool) : bool :=
  match SetupUL toy 5 57 2 with
  | Ok p => match ProveUL toy sha_one ex_tape1 x 11 p with
            | Ok pr => ul_nondegb 57 hExp x 11 pr && match VerifyUL toy pr p with Ok b => Bool.eqb b out | _ => false end
            | _ => false end
  | _ => false end.
Lemma c34_check_in : c34_check 3248 true = true.
Proof. vm_compute. reflexivity. Qed.
Lemma c34_check_out : c34_check 3249 false = true.
Proof. vm_compute. reflexivity. Qed.
Local Opaque SetupUL ProveUL VerifyUL.
Lemma c34_example : forall x out, (x, out) = (3248, true) \/ (x, out) = (3249, false) ->
  exists p pr, SetupUL toy 5 57 2 = Ok p /\ tapeUL_ok ex_tape1 2 /\ tape_range ex_tape1 /\
  ProveUL toy sha_one ex_tape1 x 11 p = Ok pr /\ ul_nondegenerate toy_bilinear 57 hExp x 11 pr /\
  ~ eqm (up_c toy pr) 0 /\ VerifyUL toy pr p = Ok out.
Proof.
have T1 : tape_range ex_tape1 by repeat constructor.
move=> x out H. have : c34_check x out = true.
  case: H => [[-> ->]|[-> ->]]; [exact: c34_check_in|exact: c34_check_out].
rewrite /c34_check.
case E1: (SetupUL _ _ _ _) => [p||]; [|by []|by []]. case E2: (ProveUL _ _ _ _ _ _) => [pr||]; [|by []|by []].
case E3: (VerifyUL _ _ _) => [b||]; [|by rewrite !andbF|by rewrite !andbF].
case/andP=> [/ul_nondegb_ok [N1 c1] Eb0]. have Eb := Bool.eqb_prop _ _ Eb0.
exists p, pr. split; first by []. split; first by []. split; first exact: T1. split; first exact: E2. split; first exact: N1.
split; first exact: c1. by rewrite E3 Eb.
Qed.
Definition c55_check : bool :=
  match SetupSet toy 5 [3; 8; 10] with
  | Ok p => match Sign toy 9 5 with Ok sig => match ProveSet toy sha_one ex_tape 9 11
      (ParamsSet toy [(big_String 9, Some sig)] (ps_H toy p) (ps_kp toy p)) with
            | Ok pr => set_nondegb hExp 9 11 pr
            | _ => false end | _ => false end
  | _ => false end.
Lemma c55_check_true : c55_check = true.
Proof. vm_compute. reflexivity. Qed.
Local Opaque Sign.
Lemma c55_example : exists p sig pr, SetupSet toy 5 [3; 8; 10] = Ok p /\ Sign toy 9 5 = Ok sig /\
  ProveSet toy sha_one ex_tape 9 11 (ParamsSet toy [(big_String 9, Some sig)] (ps_H toy p) (ps_kp toy p)) = Ok pr /\
  set_nondegenerate toy_bilinear hExp 9 11 pr.
Proof.
have := c55_check_true. rewrite /c55_check.
case E1: (SetupSet _ _ _) => [p||]; [|by []|by []]. case E2: (Sign _ _ _) => [sig||]; [|by []|by []].
case E3: (ProveSet _ _ _ _ _ _) => [pr||]; [|by []|by []].
case/set_nondegb_ok=> N _. exists p, sig, pr. split; first by []. split; first by []. split; first exact: E3. exact: N.
Qed.
