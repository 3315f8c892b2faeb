(** * Model of ccs08/ccs08.go and of the bn256 part of util/util.go

    Over the operations [bops] of BB.v.  The values drawn from crypto/rand
    are arguments.  [sha] is sha256. *)
From Coq Require Import ZArith List Bool.
From Verif Require Import Base ByteConv Util Vector BB.
Import ListNotations.
Open Scope Z_scope.

Section Model.
Variable B : bops.
Variable sha : list Z -> list Z.

(** util.go:30-34, the constants G1 and E *)
Definition uG1 : tG1 B := G1_ScalarBaseMult B 1.
Definition uG2 : tG2 B := G2_ScalarBaseMult B 1.
Definition uE : tGT B := Pair B uG1 uG2.

(** util.go:60-64, Commit *)
Definition Commit (x r : Z) (h : tG2 B) : tG2 B :=
  G2_AddTo B (G2_ScalarBaseMult B x) (G2_ScalarMult B h r).

(** util.go:80-87 and 92-101, HashSet and Hash.  The error of FromByteArray is
    ignored by the callers, which then panic on the nil integer. *)
Definition HashSet (a : tGT B) (D : tG2 B) : res Z :=
  match FromByteArray (sha (GT_String B a ++ G2_String B D)) with
  | Ok c => Ok c | _ => Panic end.
Definition Hash (a : list (tGT B)) (D : tG2 B) : res Z :=
  match FromByteArray (sha (concat (map (GT_String B) a) ++ G2_String B D)) with
  | Ok c => Ok c | _ => Panic end.

(** Go maps: an association list, the newest binding first.  A value is a
    pointer, nil if Sign failed. *)
Fixpoint lookup (m : list (list Z * option (tG2 B))) (key : list Z) : option (option (tG2 B)) :=
  match m with
  | [] => None
  | (k, v) :: m' => if list_eq_dec Z.eq_dec k key then Some v else lookup m' key
  end.

(** ccs08.go:46-56, paramsSet; map[int64] is keyed by the decimal string of the
    integer (an injective renaming of the keys) *)
Record paramsSet := ParamsSet {
  ps_signatures : list (list Z * option (tG2 B)); ps_H : tG2 B; ps_kp : keypair B }.
(** ccs08.go:62-73, paramsUL *)
Record paramsUL := ParamsUL {
  pu_signatures : list (list Z * option (tG2 B)); pu_H : tG2 B; pu_kp : keypair B;
  pu_u : Z; pu_l : Z }.
(** ccs08.go:78-84, proofSet *)
Record proofSet := ProofSet {
  sp_V : tG2 B; sp_D : tG2 B; sp_C : tG2 B; sp_a : tGT B;
  sp_s : Z; sp_t : Z; sp_zsig : Z; sp_zv : Z; sp_c : Z; sp_m : Z; sp_zr : Z }.
(** ccs08.go:89-95, proofUL *)
Record proofUL := ProofUL {
  up_V : list (tG2 B); up_D : tG2 B; up_C : tG2 B; up_a : list (tGT B);
  up_s : list Z; up_t : list Z; up_zsig : list Z; up_zv : list Z;
  up_c : Z; up_m : Z; up_zr : Z }.

(** the constant of ccs08.go:113 and 136 *)
Definition hExp : Z := 18560948149108576432482904553159745978835170526553990798435819795989606410925.
Definition setupH : tG2 B := G2_ScalarBaseMult B hExp.

(** the loops of ccs08.go:108-111 and 131-134: one signature per message; a
    non-nil error of Sign is ignored and nil is stored *)
Fixpoint sign_all (k : Z) (ms : list Z) (acc : list (list Z * option (tG2 B)))
  : res (list (list Z * option (tG2 B))) :=
  match ms with
  | [] => Ok acc
  | m :: ms' =>
      match Sign B m k with
      | Panic => Panic
      | Ok sig => sign_all k ms' ((big_String m, Some sig) :: acc)
      | Err => sign_all k ms' ((big_String m, None) :: acc)
      end
  end.

(** ccs08.go:100-117, SetupSet; [k] is drawn by Keygen, whose error is ignored *)
Definition SetupSet (k : Z) (s : list Z) : res paramsSet :=
  let kp := fst (Keygen B k) in
  let* sigs := sign_all (kp_Privk B kp) s [] in
  Ok (ParamsSet sigs setupH kp).

(** ccs08.go:123-141, SetupUL *)
Definition upto (u : Z) : list Z := map Z.of_nat (seq 0 (Z.to_nat u)).
Definition SetupUL (k u l : Z) : res paramsUL :=
  let kp := fst (Keygen B k) in
  let* sigs := sign_all (kp_Privk B kp) (upto u) [] in
  Ok (ParamsUL sigs setupH kp u l).

(** the values ProveSet draws (ccs08.go:155, 157, 166, 171) *)
Record tapeSet := TapeSet { ts_m : Z; ts_v : Z; ts_s : Z; ts_t : Z }.

(** ccs08.go:146-192, ProveSet *)
Definition ProveSet (tp : tapeSet) (x r : Z) (p : paramsSet) : res proofSet :=
  let m := ts_m tp in
  let v := ts_v tp in
  match lookup (ps_signatures p) (big_String x) with
  | None => Err
  | Some None => Panic                                       (* ScalarMult(nil, v) *)
  | Some (Some A) =>
      let D := G2_ScalarMult B (ps_H p) m in
      let s := ts_s tp in
      let aux := G2_ScalarBaseMult B s in
      let D := G2_AddTo B D aux in
      let V := G2_ScalarMult B A v in
      let t := ts_t tp in
      let a := Pair B uG1 V in
      let a := GT_ScalarMult B a s in
      let a := GT_Invert B a in
      let a := GT_Add B a (GT_ScalarMult B uE t) in
      let oD := G2_AddTo B (G2_SetInfinity B) D in
      let C := Commit x r (ps_H p) in
      let* c := HashSet a oD in
      let c := bmod c bnOrder in
      let zr := bmod (m - r * c) bnOrder in
      let zsig := bmod (s - x * c) bnOrder in
      let zv := bmod (t - v * c) bnOrder in
      Ok (ProofSet V oD C a s t zsig zv c m zr)
  end.

(** ccs08.go:263-293, VerifySet.  A nil Pubk panics in Pair. *)
Definition VerifySet (pr : proofSet) (p : paramsSet) : res bool :=
  match kp_Pubk B (ps_kp p) with
  | None => Panic
  | Some pubk =>
      let D := G2_ScalarMult B (sp_C pr) (sp_c pr) in
      let D := G2_AddTo B D (G2_ScalarMult B (ps_H p) (sp_zr pr)) in
      let aux := G2_ScalarBaseMult B (sp_zsig pr) in
      let D := G2_AddTo B D aux in
      let r1 := if list_eq_dec Z.eq_dec (G2_Marshal B D) (G2_Marshal B (sp_D pr)) then true else false in
      let p1 := Pair B pubk (sp_V pr) in
      let p1 := GT_ScalarMult B p1 (sp_c pr) in
      let p2 := Pair B uG1 (sp_V pr) in
      let p2 := GT_ScalarMult B p2 (sp_zsig pr) in
      let p2 := GT_Invert B p2 in
      let p1 := GT_Add B p1 p2 in
      let p1 := GT_Add B p1 (GT_ScalarMult B uE (sp_zv pr)) in
      let r2 := if list_eq_dec Z.eq_dec (GT_Marshal B p1) (GT_Marshal B (sp_a pr)) then true else false in
      Ok (r1 && r2)
  end.

(** the values ProveUL draws: m (ccs08.go:215), and v, s, t for each digit
    (ccs08.go:220, 224, 225) *)
Record tapeUL := TapeUL { tu_m : Z; tu_digits : list (Z * Z * Z) }.

(** ccs08.go:219-239, the digit loop of ProveUL, from digit [i] on.  The tape
    has one entry for each digit (the loop panics if it runs out, which cannot
    happen in the code). *)
Fixpoint ProveUL_loop (sigs : list (list Z * option (tG2 B))) (u i : Z) (decx : list Z)
    (tp : list (Z * Z * Z)) (D : tG2 B) : res (list (tG2 B) * list (tGT B) * tG2 B) :=
  match decx, tp with
  | [], _ => Ok ([], [], D)
  | _ :: _, [] => Panic
  | d :: decx', (v, s, t) :: tp' =>
      match lookup sigs (big_String d) with
      | None => Err
      | Some None => Panic
      | Some (Some A) =>
          let V := G2_ScalarMult B A v in
          let a := Pair B uG1 V in
          let a := GT_ScalarMult B a s in
          let a := GT_Invert B a in
          let a := GT_Add B a (GT_ScalarMult B uE t) in
          let ui := ExpNil u i in
          let muisi := bmod (s * ui) bnOrder in
          let aux := G2_ScalarBaseMult B muisi in
          let D := G2_AddTo B D aux in
          let* r := ProveUL_loop sigs u (i + 1) decx' tp' D in
          let '(Vs, aa, D') := r in
          Ok (V :: Vs, a :: aa, D')
      end
  end.

Definition tape_v (e : Z * Z * Z) : Z := fst (fst e).
Definition tape_s (e : Z * Z * Z) : Z := snd (fst e).
Definition tape_t (e : Z * Z * Z) : Z := snd e.

(** ccs08.go:251-256, the responses of the digits *)
Fixpoint responses (c : Z) (decx : list Z) (tp : list (Z * Z * Z)) : list Z * list Z :=
  match decx, tp with
  | d :: decx', (v, s, t) :: tp' =>
      let '(zs, zv) := responses c decx' tp' in
      (bmod (s - d * c) bnOrder :: zs, bmod (t - v * c) bnOrder :: zv)
  | _, _ => ([], [])
  end.

(** ccs08.go:197-258, ProveUL.  make with a negative length panics. *)
Definition ProveUL (tp : tapeUL) (x r : Z) (p : paramsUL) : res proofUL :=
  if pu_l p <? 0 then Panic else
  let decx := Decompose x (pu_u p) (Z.to_nat (pu_l p)) in
  let m := tu_m tp in
  let D := G2_ScalarMult B (pu_H p) m in
  let* w := ProveUL_loop (pu_signatures p) (pu_u p) 0 decx (tu_digits tp) D in
  let '(Vs, aa, D) := w in
  let oD := G2_AddTo B (G2_SetInfinity B) D in
  let C := Commit x r (pu_H p) in
  let* c := Hash aa oD in
  let c := bmod c bnOrder in
  let zr := bmod (m - r * c) bnOrder in
  let '(zsig, zv) := responses c decx (tu_digits tp) in
  let n := length decx in
  Ok (ProofUL Vs oD C aa (firstn n (map tape_s (tu_digits tp))) (firstn n (map tape_t (tu_digits tp)))
        zsig zv c m zr).

(** ccs08.go:308-314, the D loop of VerifyUL; an index past the end panics *)
Fixpoint VerifyUL_D (u i : Z) (n : nat) (zsig : list Z) (D : tG2 B) : res (tG2 B) :=
  match n with
  | O => Ok D
  | S n' =>
      match zsig with
      | [] => Panic
      | z :: zsig' =>
          let ui := ExpNil u i in
          let muizsigi := bmod (z * ui) bnOrder in
          let aux := G2_ScalarBaseMult B muizsigi in
          VerifyUL_D u (i + 1) n' zsig' (G2_AddTo B D aux)
      end
  end.

(** ccs08.go:321-334, the pairing loop of VerifyUL; [r2] is the accumulator *)
Fixpoint VerifyUL_a (pubk : tG1 B) (c : Z) (n : nat) (V : list (tG2 B)) (zsig zv : list Z)
    (a : list (tGT B)) (r2 : bool) : res bool :=
  match n with
  | O => Ok r2
  | S n' =>
      match V, zsig, zv, a with
      | V0 :: V', zs :: zsig', z :: zv', a0 :: a' =>
          let p1 := Pair B pubk V0 in
          let p1 := GT_ScalarMult B p1 c in
          let p2 := Pair B uG1 V0 in
          let p2 := GT_ScalarMult B p2 zs in
          let p2 := GT_Invert B p2 in
          let p1 := GT_Add B p1 p2 in
          let p1 := GT_Add B p1 (GT_ScalarMult B uE z) in
          let e := if list_eq_dec Z.eq_dec (GT_Marshal B p1) (GT_Marshal B a0) then true else false in
          VerifyUL_a pubk c n' V' zsig' zv' a' (r2 && e)
      | _, _, _, _ => Panic
      end
  end.

(** ccs08.go:298-336, VerifyUL.  (A nil Pubk panics in Pair if l > 0.) *)
Definition VerifyUL (pr : proofUL) (p : paramsUL) : res bool :=
  let n := Z.to_nat (pu_l p) in
  let D := G2_ScalarMult B (up_C pr) (up_c pr) in
  let D := G2_AddTo B D (G2_ScalarMult B (pu_H p) (up_zr pr)) in
  let* D := VerifyUL_D (pu_u p) 0 n (up_zsig pr) D in
  let r1 := if list_eq_dec Z.eq_dec (G2_Marshal B D) (G2_Marshal B (up_D pr)) then true else false in
  let* r2 := match kp_Pubk B (pu_kp p) with
             | None => if n =? 0 then Ok true else Panic
             | Some pubk => VerifyUL_a pubk (up_c pr) n (up_V pr) (up_zsig pr) (up_zv pr) (up_a pr) true
             end%nat in
  Ok (r1 && r2).

(** ccs08.go:341-343, 349-352, 354-358: proof, params, and the fields of ccs08
    that Prove and Verify read *)
Record proof := Proof { pf_p1 : proofUL; pf_p2 : proofUL }.
Record params := Params { pa_p : paramsUL; pa_a : Z; pa_b : Z }.

(** ccs08.go:380-383, the digit count: the loop [for i := b; i > 0; i = i/u].
    The fuel [log2 b + 1] is enough for u >= 2 (the code has u = 57). *)
Fixpoint count_digits (fuel : nat) (i u : Z) : Z :=
  match fuel with
  | O => 0
  | S f => if i >? 0 then 1 + count_digits f (Z.quot i u) u else 0
  end.

(** ccs08.go:363-398, Setup; [k] is drawn by Keygen.
    math.Log(float64(b)) is 0 exactly for b = 1 (it is -Inf for 0 and NaN for
    negative b). *)
Definition Setup (k a b : Z) : res params :=
  if a >? b then Err else
  if negb (b =? 1) then
    let u := 57 in
    let l := count_digits (S (Z.to_nat (Z.log2 b))) b u in
    let* p := SetupUL k u l in
    Ok (Params p a b)
  else Err.

(** ccs08.go:403-418, Prove.  The errors of the two ProveUL are ignored in the
    code, which then stores an incomplete proof; the model returns Err, and
    theorem C34 shows that this does not happen when u > 0. *)
Definition Prove (tp1 tp2 : tapeUL) (x r : Z) (z : params) : res proof :=
  let p := pa_p z in
  let ul := ExpNil (pu_u p) (pu_l p) in
  let xb := x - pa_b z in
  let xb := xb + ul in
  let* first := ProveUL tp1 xb r p in
  let xa := x - pa_a z in
  let* second := ProveUL tp2 xa r p in
  Ok (Proof first second).

(** ccs08.go:423-427, Verify.  Both verifications are evaluated. *)
Definition Verify (pr : proof) (z : params) : res bool :=
  let* first := VerifyUL (pf_p1 pr) (pa_p z) in
  let* second := VerifyUL (pf_p2 pr) (pa_p z) in
  Ok (first && second).
End Model.
