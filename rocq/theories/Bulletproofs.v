(** * Model of bulletproofs/bip.go, bulletproofs/bp.go and bulletproofs/bprp.go

    [sha] is sha256, [E] the go-ethereum curve methods.  Pointers inside the
    structs are non-nil points (whose coordinates may be nil, [None]). *)
From Coq Require Import Ascii String ZArith List Bool.
From Verif Require Import Base ByteConv Util P256 Pedersen Vector.
Import ListNotations.
Open Scope Z_scope.

(** bytes of an ASCII literal *)
Definition str (s : string) : list Z := map (fun c => Z.of_nat (nat_of_ascii c)) (list_ascii_of_string s).
(** bulletproofs.go:31-33, bip.go:30 *)
Definition SEEDH : list Z := str "BulletproofsDoesNotNeedTrustedSetupH".
Definition SEEDU : list Z := str "BulletproofsDoesNotNeedTrustedSetupU".
Definition MAX_RANGE_END : Z := 4294967296.

(** bip.go:36-44, InnerProductParams *)
Record ip_params := IPParams {
  pp_N : Z; pp_Cc : Z; pp_Uu : point; pp_H : point;
  pp_Gg : list point; pp_Hh : list point; pp_P : point }.
(** bip.go:49-60, InnerProductProof *)
Record ip_proof := IPProof {
  ip_N : Z; ip_Ls : list point; ip_Rs : list point; ip_U : point; ip_P : point;
  ip_Gg : point; ip_Hh : point; ip_A : Z; ip_B : Z; ip_Params : ip_params }.
(** bp.go:36-50, BulletProofSetupParams, without InnerProductParams, which
    only Prove writes and which Verify reads from the proof instead *)
Record bp_params := BPParams {
  sp_N : Z; sp_G : point; sp_H : point; sp_Gg : list point; sp_Hh : list point }.
(** bp.go:56-68, BulletProof *)
Record bp_proof := BPProof {
  bp_V : point; bp_A : point; bp_S : point; bp_T1 : point; bp_T2 : point;
  bp_Taux : Z; bp_Mu : Z; bp_Tprime : Z; bp_IP : ip_proof; bp_Commit : point;
  bp_Params : bp_params }.
(** the values drawn by Prove from crypto/rand (bp.go:113, 119, 123-125, 134-135) *)
Record tape := Tape {
  r_gamma : Z; r_alpha : Z; r_sL : list Z; r_sR : list Z; r_rho : Z; r_tau1 : Z; r_tau2 : Z }.

Section Model.
Variable E : ext.
Variable sha : list Z -> list Z.

(** Go's string(i) of an int64 0 <= i < 128 is the byte i (larger i give a
    multi-byte UTF-8 string; N is at most 32 in Setup) *)
Definition string_of (i : Z) : list Z := [i].

(** generators number i .. i+n-1 of a family, bp.go:92-95 and bip.go:81-83,
    89-91.  The code ignores the error of MapToGroup and stores a nil pointer,
    which panics at its first use; the model panics at once. *)
Fixpoint generators (tag : list Z) (n : nat) (i : Z) : res (list point) :=
  match n with
  | O => Ok []
  | S n' => let* p := must (MapToGroup sha (SEEDH ++ tag ++ string_of i)) in
            let* l := generators tag n' (i + 1) in
            Ok (p :: l)
  end.
Definition tag_g : list Z := str "g".
Definition tag_h : list Z := str "h".

(** ** bip.go *)
(** bip.go:271-286, hashIP: the bytes written to the digest, and the result
    (nil if FromByteArray fails) *)
Fixpoint hashIP_gens (g h : list point) (n : nat) : res (list Z) :=
  match n with
  | O => Ok []
  | S n' => match g, h with
            | gi :: g', hi :: h' =>
                let* rest := hashIP_gens g' h' n' in
                Ok (P256_String gi ++ P256_String hi ++ rest)
            | _, _ => Panic                                  (* g[i] or h[i] out of range *)
            end
  end.
Definition hashIP_input (g h : list point) (P : point) (c n : Z) : res (list Z) :=
  let* gh := hashIP_gens g h (Z.to_nat n) in
  Ok (P256_String P ++ gh ++ big_String c).
Definition hashIP (g h : list point) (P : point) (c n : Z) : res (option Z) :=
  let* input := hashIP_input g h P c n in
  ign_ptr (FromByteArray (sha input)).

(** bip.go:66-100, setupInnerProduct; [None] is a nil argument *)
Definition setupInnerProduct (H : option point) (g h : option (list point)) (c N : Z) : res ip_params :=
  if N <=? 0 then Err
  else
    let* pH := match H with None => must (MapToGroup sha SEEDH) | Some H => Ok H end in
    let* pg := match g with None => generators tag_g (Z.to_nat N) 0 | Some g => Ok g end in
    let* ph := match h with None => generators tag_h (Z.to_nat N) 0 | Some h => Ok h end in
    let* pU := must (MapToGroup sha SEEDU) in
    Ok (IPParams N c pU pH pg ph SetInfinity).

(** bip.go:305-316, vectorScalarExp; the scalar may be nil *)
Fixpoint vectorScalarExp (a : list point) (b : option Z) : res (list point) :=
  match a with
  | [] => Ok []
  | p :: a' => let* q := ScalarMultP E p b in
               let* r := vectorScalarExp a' b in
               Ok (q :: r)
  end.

(** bip.go:291-300, commitInnerProduct *)
Definition commitInnerProduct (g h : list point) (a b : list Z) : res point :=
  let* ga := must (VectorExp E g a) in
  let* hb := must (VectorExp E h b) in
  Ok (Multiply E ga hb).

(** bip.go:137-215, computeBipRecursive.  [n] is the length of [a]; the
    recursion halves it.  For n = 0 the code recurses for ever (or panics);
    the model panics when the fuel is used up. *)
Fixpoint computeBipRecursive (fuel : nat) (a b : list Z) (g h : list point) (u P : point) (n : Z)
    (Ls Rs : list point) : res ip_proof :=
  match fuel with
  | O => Panic
  | S fuel' =>
    if n =? 1 then
      let* a0 := index a 0 in
      let* b0 := index b 0 in
      let* g0 := index g 0 in
      let* h0 := index h 0 in
      Ok (IPProof n Ls Rs u P g0 h0 a0 b0 (IPParams 0 0 None None [] [] None))
    else
      let n' := Z.quot n 2 in                                              (* 161 *)
      let* aL := slice_to a n' in
      let* aR := slice_from a n' in
      let* bL := slice_to b n' in
      let* bR := slice_from b n' in
      let* gL := slice_to g n' in
      let* gR := slice_from g n' in
      let* hL := slice_to h n' in
      let* hR := slice_from h n' in
      let* cL := ign_ptr (ScalarProduct aL bR) in                          (* 164 *)
      let* cR := ign_ptr (ScalarProduct aR bL) in                          (* 166 *)
      let* L := must (VectorExp E gR aL) in                                (* 168 *)
      let* Lh := must (VectorExp E hL bR) in
      let L := Multiply E L Lh in
      let* ucL := ScalarMultP E u cL in
      let L := Multiply E L ucL in                                         (* 171 *)
      let* R := must (VectorExp E gL aR) in                                (* 174 *)
      let* Rh := must (VectorExp E hR bL) in
      let R := Multiply E R Rh in
      let* ucR := ScalarMultP E u cR in
      let R := Multiply E R ucR in                                         (* 177 *)
      let x := fst (HashBP sha L R) in                                     (* 180 *)
      let xinv := ModInverse x ORDER in                                    (* 181 *)
      let* gp := vectorScalarExp gL xinv in                                (* 184 *)
      let* gp2 := vectorScalarExp gR (Some x) in
      let* g' := ign_vec (VectorECAdd E gp gp2) in                         (* 186 *)
      let* hp := vectorScalarExp hL (Some x) in                            (* 188 *)
      let* hp2 := vectorScalarExp hR xinv in
      let* h' := ign_vec (VectorECAdd E hp hp2) in                         (* 190 *)
      let x2 := bmod (x * x) ORDER in                                      (* 193 *)
      let x2inv := ModInverse x2 ORDER in
      let P' := ScalarMult E L x2 in
      let P' := Multiply E P' P in
      let* Rx2inv := ScalarMultP E R x2inv in
      let P' := Multiply E P' Rx2inv in                                    (* 197 *)
      let* ap := VectorScalarMul aL (Some x) in                            (* 200 *)
      let* ap2 := VectorScalarMul aR xinv in
      let* a' := ign_vec (VectorAdd ap ap2) in
      let* bp := VectorScalarMul bL xinv in                                (* 204 *)
      let* bp2 := VectorScalarMul bR (Some x) in
      let* b' := ign_vec (VectorAdd bp bp2) in
      let* proof := computeBipRecursive fuel' a' b' g' h' u P' n' (Ls ++ [L]) (Rs ++ [R]) in
      Ok (IPProof n (ip_Ls proof) (ip_Rs proof) (ip_U proof) (ip_P proof) (ip_Gg proof) (ip_Hh proof)
            (ip_A proof) (ip_B proof) (ip_Params proof))                   (* 213 *)
  end.

(** bip.go:105-132, proveInnerProduct *)
Definition proveInnerProduct (a b : list Z) (P : point) (params : ip_params) : res ip_proof :=
  let n := len a in
  let m := len b in
  if negb (n =? m) then Err
  else
    let* x := hashIP (pp_Gg params) (pp_Hh params) P (pp_Cc params) (pp_N params) in
    let* ux := ScalarMultP E (pp_Uu params) x in
    let uxc := ScalarMult E ux (pp_Cc params) in
    let PP := Multiply E P uxc in
    let* proof := computeBipRecursive (S (length a)) a b (pp_Gg params) (pp_Hh params) ux PP n [] [] in
    Ok (IPProof (ip_N proof) (ip_Ls proof) (ip_Rs proof) (ip_U proof) (ip_P proof) (ip_Gg proof) (ip_Hh proof)
          (ip_A proof) (ip_B proof)
          (IPParams (pp_N params) (pp_Cc params) (pp_Uu params) (pp_H params) (pp_Gg params) (pp_Hh params) PP)).

(** bip.go:232-249, the loop of Verify; the last component is the object
    Params.P points to, mutated in place (247-248) *)
Fixpoint ipVerify_loop (Ls Rs : list point) (nprime : Z) (g h : list point) (P : point)
    : res (list point * list point * point) :=
  match Ls with
  | [] => Ok (g, h, P)
  | L :: Ls' =>
      match Rs with
      | [] => Panic                                                        (* proof.Rs[i] *)
      | R :: Rs' =>
          let n' := Z.quot nprime 2 in
          let x := fst (HashBP sha L R) in
          let xinv := ModInverse x ORDER in
          let* gL := slice_to g n' in
          let* gR := slice_from g n' in
          let* gp := vectorScalarExp gL xinv in
          let* gp2 := vectorScalarExp gR (Some x) in
          let* g' := ign_vec (VectorECAdd E gp gp2) in
          let* hL := slice_to h n' in
          let* hR := slice_from h n' in
          let* hp := vectorScalarExp hL (Some x) in
          let* hp2 := vectorScalarExp hR xinv in
          let* h' := ign_vec (VectorECAdd E hp hp2) in
          let x2 := bmod (x * x) ORDER in
          let x2inv := ModInverse x2 ORDER in
          let P' := Multiply E P (ScalarMult E L x2) in
          let* Rx2inv := ScalarMultP E R x2inv in
          let P' := Multiply E P' Rx2inv in
          ipVerify_loop Ls' Rs' n' g' h' P'
      end
  end.

(** the proof with Params.P replaced *)
Definition set_P (proof : ip_proof) (P : point) : ip_proof :=
  let q := ip_Params proof in
  IPProof (ip_N proof) (ip_Ls proof) (ip_Rs proof) (ip_U proof) (ip_P proof) (ip_Gg proof) (ip_Hh proof)
    (ip_A proof) (ip_B proof)
    (IPParams (pp_N q) (pp_Cc q) (pp_Uu q) (pp_H q) (pp_Gg q) (pp_Hh q) P).

(** bip.go:220-266, Verify: the result and the proof object after the call.
    The receiver is a copy, but Params.P is a pointer, so that the caller's
    proof changes.  (When Ls is empty the field P of the proof made by
    proveInnerProduct is the same object; nothing reads it and the model
    leaves it alone.) *)
Definition ipVerify (proof : ip_proof) : res (bool * ip_proof) :=
  let q := ip_Params proof in
  let* (g, h, P) := ipVerify_loop (ip_Ls proof) (ip_Rs proof) (ip_N proof) (pp_Gg q) (pp_Hh q) (pp_P q) in
  let ab := bmod (ip_A proof * ip_B proof) ORDER in                        (* 252-253 *)
  let* g0 := index g 0 in
  let rhs := ScalarMult E g0 (ip_A proof) in
  let* h0 := index h 0 in
  let hb := ScalarMult E h0 (ip_B proof) in
  let rhs := Multiply E rhs hb in
  let rhs := Multiply E rhs (ScalarMult E (ip_U proof) ab) in
  let nP := Neg E P P in                                                   (* 260, in place *)
  let nP := Multiply E nP rhs in                                           (* 261, in place *)
  Ok (IsZero nP, set_P proof nP).

(** ** bp.go *)
(** bp.go:83: math.Log2 is exact on powers of two; for the minimum int64 it is
    NaN, whose conversion to int64 is the minimum int64 on amd64 *)
Definition log2_int64 (b : Z) : Z := if b <? 0 then - 2 ^ 63 else Z.log2 b.

(** bp.go:75-97, Setup (a nil generator panics at once, see [generators]) *)
Definition Setup (b : Z) : res bp_params :=
  if negb (IsPowerOfTwo b) then Err
  else
    let G := ScalarBaseMult E 1 in
    let* H := must (MapToGroup sha SEEDH) in
    let N := log2_int64 b in
    if negb (IsPowerOfTwo N) then Err
    else if 32 <? N then Err
    else if N <? 0 then Panic                                              (* make *)
    else
      let* Gg := generators tag_g (Z.to_nat N) 0 in
      let* Hh := generators tag_h (Z.to_nat N) 0 in
      Ok (BPParams N G H Gg Hh).

(** bp.go:354-371, updateGenerators: hprime[i .. i+n-1] *)
Fixpoint updateGenerators_loop (Hh : list point) (yinv expy : option Z) (n : nat) : res (list point) :=
  match n with
  | O => Ok []
  | S n' =>
      match Hh with
      | [] => Panic
      | p :: Hh' =>
          let* q := ScalarMultP E p expy in
          let* e := deref expy in                                          (* bn.Multiply(expy, yinv) *)
          let* yi := deref yinv in
          let* r := updateGenerators_loop Hh' yinv (Some (e * yi)) n' in
          Ok (q :: r)
      end
  end.
Definition updateGenerators (Hh : list point) (y N : Z) : res (list point) :=
  if N <=? 0 then Panic                                                    (* make, hprime[0] *)
  else
    let yinv := ModInverse y ORDER in
    match Hh with
    | [] => Panic
    | h0 :: Hh' => let* r := updateGenerators_loop Hh' yinv yinv (Z.to_nat N - 1) in Ok (h0 :: r)
    end.

(** bp.go:376-388, computeAR *)
Fixpoint computeAR (x : list Z) : res (list Z) :=
  match x with
  | [] => Ok []
  | xi :: x' =>
      if xi =? 0 then let* r := computeAR x' in Ok (-1 :: r)
      else if xi =? 1 then let* r := computeAR x' in Ok (0 :: r)
      else Err
  end.

(** bp.go:390-398, commitVectorBig, and bp.go:403-413, commitVector (the same
    on int64 vectors) *)
Fixpoint commitVector_loop (R : point) (aL aR : list Z) (g h : list point) (n : nat) : res point :=
  match n with
  | O => Ok R
  | S n' =>
      match g, aL, h, aR with
      | gi :: g', li :: aL', hi :: h', ri :: aR' =>
          commitVector_loop (Multiply E (Multiply E R (ScalarMult E gi li)) (ScalarMult E hi ri)) aL' aR' g' h' n'
      | _, _, _, _ => Panic
      end
  end.
Definition commitVector (aL aR : list Z) (alpha : Z) (H : point) (g h : list point) (n : Z) : res point :=
  commitVector_loop (ScalarMult E H alpha) aL aR g h (Z.to_nat n).

(** bp.go:418-445, delta *)
Definition delta (N y z : Z) : res Z :=
  let z2 := bmod (z * z) ORDER in
  let z3 := bmod (z2 * z) ORDER in
  let* v1 := VectorCopy 1 N in
  let* vy := powerOf y N in
  let* sp1y := must (ScalarProduct v1 vy) in
  let* p2n := powerOf 2 N in
  let* sp12 := must (ScalarProduct v1 p2n) in
  let result := bmod (z - z2) ORDER in
  let result := bmod (result * sp1y) ORDER in
  Ok (bmod (result - z3 * sp12) ORDER).

(** bp.go:104-239, Prove, on the random values of the tape *)
Definition Prove (secret : Z) (params : bp_params) (t : tape) : res bp_proof :=
  let N := sp_N params in
  let H := sp_H params in
  let gamma := r_gamma t in
  let V := CommitG1 E secret gamma H in                                    (* 114 *)
  if N <? 0 then Panic                                                     (* Decompose: make *)
  else
  let aL := Decompose secret 2 (Z.to_nat N) in
  let* aR := ign_vec (computeAR aL) in
  let alpha := r_alpha t in
  let* A := commitVector aL aR alpha H (sp_Gg params) (sp_Hh params) N in  (* 120 *)
  let sL := r_sL t in
  let sR := r_sR t in
  let rho := r_rho t in
  let* Sc := commitVector sL sR rho H (sp_Gg params) (sp_Hh params) N in    (* 126 *)
  let '(y, z) := HashBP sha A Sc in                                        (* 129 *)
  let tau1 := r_tau1 t in
  let tau2 := r_tau2 t in
  let* vz := VectorCopy z N in
  let* vy := powerOf y N in
  let* naL := VectorConvertToBig aL N in
  let* aLmvz := ign_vec (VectorSub naL vz) in                              (* 146 *)
  let* ynsR := ign_vec (VectorMul vy sR) in
  let* sp1 := must (ScalarProduct aLmvz ynsR) in                           (* 152 *)
  let* naR := VectorConvertToBig aR N in
  let* aRzn := ign_vec (VectorAdd naR vz) in
  let* ynaRzn := ign_vec (VectorMul vy aRzn) in
  let* p2n := powerOf 2 N in
  let zsquared := z * z in
  let* z22n := VectorScalarMul p2n (Some zsquared) in
  let* ynaRzn := ign_vec (VectorAdd ynaRzn z22n) in                        (* 164 *)
  let* sp2 := must (ScalarProduct sL ynaRzn) in
  let t1 := bmod (sp1 + sp2) ORDER in                                      (* 169 *)
  let* t2 := must (ScalarProduct sL ynsR) in
  let t2 := bmod t2 ORDER in
  let T1 := CommitG1 E t1 tau1 H in                                        (* 176 *)
  let T2 := CommitG1 E t2 tau2 H in                                        (* 179 *)
  let x := fst (HashBP sha T1 T2) in                                       (* 182 *)
  let* sLx := VectorScalarMul sL (Some x) in
  let* bl := ign_vec (VectorAdd aLmvz sLx) in                              (* 190 *)
  let* sRx := VectorScalarMul sR (Some x) in
  let* aRzn := ign_vec (VectorAdd aRzn sRx) in
  let* ynaRzn := ign_vec (VectorMul vy aRzn) in
  let* br := ign_vec (VectorAdd ynaRzn z22n) in                            (* 198 *)
  let* tprime := must (ScalarProduct bl br) in                             (* 201 *)
  let taux := tau2 * (x * x) in
  let taux := taux + tau1 * x in
  let taux := taux + z * z * gamma in
  let taux := bmod taux ORDER in                                           (* 207 *)
  let mu := rho * x in
  let mu := mu + alpha in
  let mu := bmod mu ORDER in                                               (* 212 *)
  let* hprime := updateGenerators (sp_Hh params) y N in                    (* 215 *)
  let* ipp := setupInnerProduct (Some H) (Some (sp_Gg params)) (Some hprime) tprime N in
  let* commit := commitInnerProduct (sp_Gg params) hprime bl br in         (* 223 *)
  let* proofip := must (proveInnerProduct bl br commit ipp) in             (* 224 *)
  Ok (BPProof V A Sc T1 T2 taux mu tprime proofip commit params).

(** bp.go:244-334, Verify: the result and the proof object after the call *)
Definition Verify (proof : bp_proof) : res (bool * bp_proof) :=
  let params := bp_Params proof in
  let N := sp_N params in
  let x := fst (HashBP sha (bp_T1 proof) (bp_T2 proof)) in
  let '(y, z) := HashBP sha (bp_A proof) (bp_S proof) in
  let* hprime := updateGenerators (sp_Hh params) y N in                    (* 251 *)
  let lhs := CommitG1 E (bp_Tprime proof) (bp_Taux proof) (sp_H params) in (* 258 *)
  let z2 := bmod (z * z) ORDER in
  let x2 := bmod (x * x) ORDER in
  let rhs := ScalarMult E (bp_V proof) z2 in                               (* 266 *)
  let* d := delta N y z in
  let gdelta := ScalarBaseMult E d in
  let rhs := Multiply E rhs gdelta in
  let T1x := ScalarMult E (bp_T1 proof) x in
  let T2x2 := ScalarMult E (bp_T2 proof) x2 in
  let rhs := Multiply E rhs T1x in
  let rhs := Multiply E rhs T2x2 in
  let lhs := Neg E lhs lhs in                                              (* 281 *)
  let rhs := Multiply E rhs lhs in
  let c65 := IsZero rhs in                                                 (* 283 *)
  let Sx := ScalarMult E (bp_S proof) x in
  let ASx := Add (bp_A proof) Sx in                                        (* 290 *)
  let mz := ORDER - z in
  let* vmz := VectorCopy mz N in
  let* gpmz := must (VectorExp E (sp_Gg params) vmz) in                    (* 295 *)
  let* vz := VectorCopy z N in
  let* vy := powerOf y N in
  let* zyn := ign_vec (VectorMul vy vz) in
  let* p2n := powerOf 2 N in
  let zsquared := z * z in
  let* z22n := VectorScalarMul p2n (Some zsquared) in
  let* zynz22n := ign_vec (VectorAdd zyn z22n) in                          (* 307 *)
  let lP := Add ASx gpmz in                                                (* 310 *)
  let* hprimeexp := must (VectorExp E hprime zynz22n) in                   (* 313 *)
  let lP := Add lP hprimeexp in                                            (* 315 *)
  let rP := ScalarMult E (sp_H params) (bp_Mu proof) in                    (* 320 *)
  let rP := Multiply E rP (bp_Commit proof) in
  let lP := Neg E lP lP in                                                 (* 324 *)
  let rP := Add rP lP in                                                   (* 325 *)
  let c67 := IsZero rP in
  let* (ok, ip') := ipVerify (bp_IP proof) in                              (* 329 *)
  let proof' := BPProof (bp_V proof) (bp_A proof) (bp_S proof) (bp_T1 proof) (bp_T2 proof) (bp_Taux proof)
                  (bp_Mu proof) (bp_Tprime proof) ip' (bp_Commit proof) params in
  Ok (c65 && c67 && ok, proof').

(** ** bprp.go *)
(** bprp.go:28-33, bprp; bprp.go:38-41, ProofBPRP *)
Record gparams := GParams { gp_A : Z; gp_B : Z; gp_BP1 : bp_params; gp_BP2 : bp_params }.
Record gproof := GProof { gpr_P1 : bp_proof; gpr_P2 : bp_proof }.

(** bprp.go:47-61, SetupGeneric *)
Definition SetupGeneric (a b : Z) : res gparams :=
  let* BP1 := Setup MAX_RANGE_END in
  let* BP2 := Setup MAX_RANGE_END in
  Ok (GParams a b BP1 BP2).

(** bprp.go:69-91, ProveGeneric, with one tape for each half *)
Definition ProveGeneric (secret : Z) (params : gparams) (t1 t2 : tape) : res gproof :=
  let p2 := MAX_RANGE_END in
  let xb := secret - gp_B params in
  let xb := xb + p2 in
  let* P1 := Prove xb (gp_BP1 params) t1 in
  let xa := secret - gp_A params in
  let* P2 := Prove xa (gp_BP2 params) t2 in
  Ok (GProof P1 P2).

(** bprp.go:96-107, Verify: the result and the proof object after the call *)
Definition VerifyGeneric (proof : gproof) : res (bool * gproof) :=
  let* (ok1, P1) := Verify (gpr_P1 proof) in
  if negb ok1 then Ok (false, GProof P1 (gpr_P2 proof))
  else
    let* (ok2, P2) := Verify (gpr_P2 proof) in
    Ok (ok1 && ok2, GProof P1 P2).
End Model.
