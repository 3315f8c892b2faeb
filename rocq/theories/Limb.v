(** Natural numbers as little-endian lists of the 63-bit machine integers of
    the standard library (Coq.Numbers.Cyclic.Int63), with Montgomery's
    multiplication.  Nothing here models the program: these functions only make
    the one computation of NonDegen.v feasible inside the kernel.

    Every operation is exact for all arguments: where an implementation would
    rely on a bound, the result is tested and a slow correct answer is used
    otherwise, so that no size invariant has to be proved. *)
From Coq Require Import ZArith Lia List Bool Uint63.
Import ListNotations.
Open Scope Z_scope.

Definition wb : Z := 2 ^ 63.
Definition u (x : int) : Z := to_Z x.
Lemma u_bound x : 0 <= u x < wb.
Proof. exact (to_Z_bounded x). Qed.
Lemma wbE : wB = wb. Proof. reflexivity. Qed.

Fixpoint lval (l : list int) : Z :=
  match l with
  | [] => 0
  | a :: l => u a + wb * lval l
  end.

Definition cz (b : bool) : Z := if b then 1 else 0.
(** x + y + c *)
Definition adc (x y : int) (c : bool) : int * bool :=
  match (if c then addcarryc x y else addc x y) with
  | C0 r => (r, false)
  | C1 r => (r, true)
  end.
Lemma adcE x y c : u (fst (adc x y c)) + wb * cz (snd (adc x y c)) = u x + u y + cz c.
Proof.
unfold adc. destruct c.
- pose proof (addcarryc_spec x y) as H. destruct (addcarryc x y) as [r|r]; unfold interp_carry in H; rewrite ?wbE in H; unfold u, cz; cbn [fst snd]; lia.
- pose proof (addc_spec x y) as H. destruct (addc x y) as [r|r]; unfold interp_carry in H; rewrite ?wbE in H; unfold u, cz; cbn [fst snd]; lia.
Qed.
(** x - y - c *)
Definition sbc (x y : int) (c : bool) : int * bool :=
  match (if c then subcarryc x y else subc x y) with
  | C0 r => (r, false)
  | C1 r => (r, true)
  end.
Lemma sbcE x y c : u (fst (sbc x y c)) - wb * cz (snd (sbc x y c)) = u x - u y - cz c.
Proof.
unfold sbc. destruct c.
- pose proof (subcarryc_spec x y) as H. destruct (subcarryc x y) as [r|r]; unfold interp_carry in H; rewrite ?wbE in H; unfold u, cz; cbn [fst snd]; lia.
- pose proof (subc_spec x y) as H. destruct (subc x y) as [r|r]; unfold interp_carry in H; rewrite ?wbE in H; unfold u, cz; cbn [fst snd]; lia.
Qed.

(** addition *)
Definition one_if (c : bool) : list int := if c then [1%uint63] else [].
Fixpoint linc (a : list int) (c : bool) : list int :=
  if c then
    match a with
    | [] => [1%uint63]
    | x :: a => let '(r, c) := adc x 0%uint63 true in r :: linc a c
    end
  else a.
Lemma linc_false a : linc a false = a. Proof. destruct a; reflexivity. Qed.
Lemma u0 : u 0%uint63 = 0. Proof. reflexivity. Qed.
Lemma u1 : u 1%uint63 = 1. Proof. reflexivity. Qed.
Lemma lincE a c : lval (linc a c) = lval a + cz c.
Proof.
revert c. induction a as [|x a IH]; intros [|].
- simpl linc. cbn [lval]. rewrite u1. unfold cz. lia.
- rewrite linc_false. unfold cz. lia.
- simpl linc. pose proof (adcE x 0%uint63 true) as H. destruct (adc x 0 true) as [r c]. cbn [fst] in H; cbn [snd] in H.
  cbn [lval]. rewrite IH. rewrite u0 in H. unfold cz in *. destruct c; lia.
- rewrite linc_false. unfold cz. lia.
Qed.
Fixpoint ladd (a b : list int) (c : bool) : list int :=
  match a, b with
  | [], _ => linc b c
  | _, [] => linc a c
  | x :: a, y :: b => let '(r, c) := adc x y c in r :: ladd a b c
  end.
Lemma laddE a : forall b c, lval (ladd a b c) = lval a + lval b + cz c.
Proof.
induction a as [|x a IH]; intros [|y b] c; cbn [ladd]; rewrite ?lincE; try (cbn [lval]; lia).
pose proof (adcE x y c) as H. destruct (adc x y c) as [r c']. cbn [fst] in H; cbn [snd] in H.
cbn [lval]. rewrite IH. lia.
Qed.
(** subtraction: the difference and whether there is a final borrow *)
Fixpoint ldec (a : list int) (c : bool) : list int * bool :=
  if c then
    match a with
    | [] => ([], true)
    | x :: a => let '(r, c) := sbc x 0%uint63 true in let '(l, d) := ldec a c in (r :: l, d)
    end
  else (a, false).
Lemma ldecE a : forall c, snd (ldec a c) = false -> lval (fst (ldec a c)) = lval a - cz c.
Proof.
induction a as [|x a IH]; intros [|]; cbn [ldec]; cbn [fst]; cbn [snd]; try (unfold cz; intros; lia); try discriminate.
pose proof (sbcE x 0%uint63 true) as H. destruct (sbc x 0 true) as [r c]. specialize (IH c).
destruct (ldec a c) as [l d]. cbn [fst] in *; cbn [snd] in *. intros E. specialize (IH E).
cbn [lval]. rewrite IH. rewrite u0 in H. unfold cz in *. destruct c; lia.
Qed.
Fixpoint lsub (a b : list int) (c : bool) : list int * bool :=
  match a, b with
  | _, [] => ldec a c
  | [], _ => ([], true)
  | x :: a, y :: b => let '(r, c) := sbc x y c in let '(l, d) := lsub a b c in (r :: l, d)
  end.
Lemma lsubE a : forall b c, snd (lsub a b c) = false -> lval (fst (lsub a b c)) = lval a - lval b - cz c.
Proof.
induction a as [|x a IH]; intros [|y b] c; cbn [lsub]; intros E.
- rewrite (ldecE _ _ E). cbn [lval]. lia.
- discriminate.
- rewrite (ldecE _ _ E). cbn [lval]. lia.
- pose proof (sbcE x y c) as H. destruct (sbc x y c) as [r c']. specialize (IH b c').
  destruct (lsub a b c') as [l d]. cbn [fst] in *; cbn [snd] in *. specialize (IH E).
  cbn [lval]. rewrite IH. lia.
Qed.

(** x y + a + c as a pair (high, low) *)
Definition mac (x y a c : int) : int * int :=
  let '(h, l) := mulc x y in
  let '(l, c1) := adc l a false in
  let '(l, c2) := adc l c false in
  let h := if c1 then (h + 1)%uint63 else h in
  let h := if c2 then (h + 1)%uint63 else h in
  (h, l).
Lemma mulcE x y : u x * u y = wb * u (fst (mulc x y)) + u (snd (mulc x y)).
Proof. pose proof (mulc_spec x y) as H. rewrite wbE in H. unfold u. lia. Qed.
Lemma addmod h b : u h + cz b < wb -> u (if b then (h + 1)%uint63 else h) = u h + cz b.
Proof.
destruct b; unfold cz; intros H; [|lia].
unfold u. rewrite add_spec, wbE. change (to_Z 1) with 1. apply Z.mod_small. pose proof (u_bound h). unfold u in *. lia.
Qed.
Lemma macE x y a c : wb * u (fst (mac x y a c)) + u (snd (mac x y a c)) = u x * u y + u a + u c.
Proof.
unfold mac. pose proof (mulcE x y) as M. destruct (mulc x y) as [h l]. cbn [fst] in *; cbn [snd] in *.
pose proof (adcE l a false) as A. destruct (adc l a false) as [l1 c1]. cbn [fst] in *; cbn [snd] in *.
pose proof (adcE l1 c false) as B. destruct (adc l1 c false) as [l2 c2]. cbn [fst] in *; cbn [snd] in *.
change (cz false) with 0 in *.
pose proof (u_bound x) as Bx. pose proof (u_bound y) as By. pose proof (u_bound a) as Ba. pose proof (u_bound c) as Bc.
pose proof (u_bound l2) as Bl. pose proof (u_bound h) as Bh.
assert (T : wb * (u h + cz c1 + cz c2) + u l2 = u x * u y + u a + u c) by lia.
assert (U : u x * u y <= (wb - 1) * (wb - 1)) by (apply Z.mul_le_mono_nonneg; lia).
assert (L : u h + cz c1 + cz c2 < wb).
{ assert (W : wb = 2 ^ 63) by reflexivity. clearbody wb || idtac.
  apply (Zmult_lt_reg_r _ _ wb); [rewrite W; lia|]. nia. }
assert (0 <= cz c2) by (destruct c2; unfold cz; lia).
assert (0 <= cz c1) by (destruct c1; unfold cz; lia).
rewrite addmod; rewrite addmod; lia.
Qed.
Definition nz (c : int) : list int := if eqb c 0%uint63 then [] else [c].
Lemma nzE c : lval (nz c) = u c.
Proof.
unfold nz. destruct (eqb c 0) eqn:E.
- apply eqb_correct in E. rewrite E. reflexivity.
- cbn [lval]. lia.
Qed.
(** acc + a b + c *)
Fixpoint lmac (a : int) (b acc : list int) (c : int) : list int :=
  match b with
  | [] =>
      match acc with
      | [] => nz c
      | z :: acc => let '(r, k) := adc z c false in r :: linc acc k
      end
  | y :: b =>
      match acc with
      | [] =>
          match mulc a y with
          | (h, l) =>
              match addc l c with
              | C0 l => l :: lmac a b [] h
              | C1 l => l :: lmac a b [] (h + 1)%uint63
              end
          end
      | z :: acc =>
          match mulc a y with
          | (h, l) =>
              match addc l z with
              | C0 l =>
                  match addc l c with
                  | C0 l => l :: lmac a b acc h
                  | C1 l => l :: lmac a b acc (h + 1)%uint63
                  end
              | C1 l =>
                  match addc l c with
                  | C0 l => l :: lmac a b acc (h + 1)%uint63
                  | C1 l => l :: lmac a b acc (h + 1 + 1)%uint63
                  end
              end
          end
      end
  end.
Lemma lmac_cc a y b z acc c : lmac a (y :: b) (z :: acc) c = let '(h, l) := mac a y z c in l :: lmac a b acc h.
Proof.
cbn [lmac]. unfold mac, adc. destruct (mulc a y) as [h l].
destruct (addc l z) as [l1|l1]; destruct (addc l1 c) as [l2|l2]; reflexivity.
Qed.
Lemma addc_0r l : addc l 0%uint63 = C0 l.
Proof.
pose proof (addc_spec l 0%uint63) as H. destruct (addc l 0) as [r|r]; unfold interp_carry in H; change (to_Z 0) with 0 in H.
- f_equal. apply to_Z_inj. lia.
- pose proof (u_bound l). pose proof (u_bound r). unfold u in *. rewrite wbE in H. lia.
Qed.
Lemma lmac_cn a y b c : lmac a (y :: b) [] c = let '(h, l) := mac a y 0%uint63 c in l :: lmac a b [] h.
Proof.
cbn [lmac]. unfold mac, adc. destruct (mulc a y) as [h l]. rewrite addc_0r.
destruct (addc l c) as [l2|l2]; reflexivity.
Qed.
Lemma lmacE a b : forall acc c, lval (lmac a b acc c) = lval acc + u a * lval b + u c.
Proof.
induction b as [|y b IH]; intros [|z acc] c; rewrite ?lmac_cc, ?lmac_cn.
- cbn [lmac]. rewrite nzE. cbn [lval]. lia.
- cbn [lmac]. pose proof (adcE z c false) as H. destruct (adc z c false) as [r k]. cbn [fst snd] in H.
  cbn [lval]. rewrite lincE. change (cz false) with 0 in H. lia.
- pose proof (macE a y 0%uint63 c) as H. destruct (mac a y 0 c) as [h l]. cbn [fst snd] in H.
  cbn [lval]. rewrite IH. cbn [lval]. rewrite u0 in H. lia.
- pose proof (macE a y z c) as H. destruct (mac a y z c) as [h l]. cbn [fst snd] in H.
  cbn [lval]. rewrite IH. lia.
Qed.

(** conversion from Z *)
Fixpoint limbs (n : nat) (z : Z) : list int :=
  match n with
  | O => []
  | S n => of_Z z :: limbs n (z / wb)
  end.
Lemma limbsE n : forall z, 0 <= z < wb ^ Z.of_nat n -> lval (limbs n z) = z.
Proof.
induction n as [|n IH]; intros z Hz; cbn [limbs lval].
- change (wb ^ Z.of_nat 0) with 1 in Hz. lia.
- assert (W : 0 < wb) by reflexivity.
  rewrite IH.
  + unfold u. rewrite of_Z_spec, wbE. pose proof (Z.div_mod z wb). lia.
  + rewrite Nat2Z.inj_succ, Z.pow_succ_r in Hz by lia. split; [apply Z.div_pos; lia|]. apply Z.div_lt_upper_bound; lia.
Qed.

(** ** Montgomery arithmetic *)
Section Mont.
Variable p : Z.            (* the modulus *)
Variable np : list int.    (* its limbs *)
Variable n0 : int.         (* - 1/p mod 2^63 *)
Variable iw : Z.           (* 1/2^63 mod p *)
Variables k1 k2 : list int. (* multiples of p *)
Hypothesis p0 : 0 < p < wb ^ 5.
Hypothesis npE : lval np = p.
Hypothesis iwE : (iw * wb) mod p = 1 mod p.
Hypothesis k1E : lval k1 mod p = 0.
Hypothesis k2E : lval k2 mod p = 0.

Definition eqp (a b : Z) : Prop := a mod p = b mod p.
(** one round: (acc + a b) / 2^63 mod p *)
Definition mround (a : int) (b acc : list int) : list int :=
  let t := lmac a b acc 0%uint63 in
  match t with
  | [] => []
  | x :: _ =>
      let m := (x * n0)%uint63 in
      match lmac m np t 0%uint63 with
      | [] => []
      | y :: r => if eqb y 0%uint63 then r else limbs 5 ((lval t * iw) mod p)
      end
  end.
Lemma mroundE a b acc : eqp (wb * lval (mround a b acc)) (lval acc + u a * lval b).
Proof.
unfold mround, eqp. pose proof (lmacE a b acc 0%uint63) as T. rewrite u0, Z.add_0_r in T. rewrite <- T.
destruct (lmac a b acc 0) as [|x t] eqn:Et; [simpl lval; f_equal; lia|].
rewrite <- Et in *. set (m := (x * n0)%uint63).
pose proof (lmacE m np (lmac a b acc 0) 0%uint63) as R. rewrite u0, Z.add_0_r, npE in R.
destruct (lmac m np (lmac a b acc 0) 0) as [|y r].
- cbn [lval] in R |- *. rewrite Z.mul_0_r.
  replace (lval (lmac a b acc 0)) with ((- u m) * p) by lia. rewrite Z.mod_mul by lia. apply Z.mod_0_l. lia.
- destruct (eqb y 0) eqn:E.
  + apply eqb_correct in E. cbn [lval] in R. rewrite E, u0, Z.add_0_l in R. rewrite R. apply Z.mod_add. lia.
  + rewrite limbsE.
    * rewrite Z.mul_mod_idemp_r by lia.
      replace (wb * (lval (lmac a b acc 0) * iw)) with (lval (lmac a b acc 0) * (iw * wb)) by ring.
      rewrite <- Z.mul_mod_idemp_r by lia. rewrite iwE. rewrite Z.mul_mod_idemp_r by lia. rewrite Z.mul_1_r. reflexivity.
    * pose proof (Z.mod_pos_bound (lval (lmac a b acc 0) * iw) p). change (Z.of_nat 5) with 5. lia.
Qed.
Fixpoint mloop (n : nat) (a b acc : list int) : list int :=
  match n with
  | O => acc
  | S n =>
      match a with
      | [] => mloop n [] b (mround 0%uint63 b acc)
      | x :: a => mloop n a b (mround x b acc)
      end
  end.
(** a b / 2^315 mod p *)
Definition mmul (a b : list int) : list int :=
  if (Nat.leb (length a) 5) then mloop 5 a b [] else limbs 5 ((lval a * lval b * iw ^ 5) mod p).
Lemma eqp_add a b c d : eqp a b -> eqp c d -> eqp (a + c) (b + d).
Proof. unfold eqp. intros H K. rewrite Z.add_mod, H, K, <- Z.add_mod by lia. reflexivity. Qed.
Lemma eqp_mul a b c d : eqp a b -> eqp c d -> eqp (a * c) (b * d).
Proof. unfold eqp. intros H K. rewrite Z.mul_mod, H, K, <- Z.mul_mod by lia. reflexivity. Qed.
Lemma mloopE n : forall a b acc, (length a <= n)%nat -> eqp (wb ^ Z.of_nat n * lval (mloop n a b acc)) (lval acc + lval a * lval b).
Proof.
induction n as [|n IH]; intros a b acc H.
- destruct a; [|simpl in H; lia]. cbn [mloop lval]. change (wb ^ Z.of_nat 0) with 1. unfold eqp. f_equal. lia.
- assert (S1 : wb ^ Z.of_nat (S n) = wb * wb ^ Z.of_nat n) by (rewrite Nat2Z.inj_succ, Z.pow_succ_r by lia; reflexivity).
  destruct a as [|x a]; cbn [mloop].
  + assert (K : eqp (wb ^ Z.of_nat n * lval (mloop n [] b (mround 0 b acc))) (lval (mround 0 b acc) + lval [] * lval b)) by (apply IH; simpl; lia).
    cbn [lval] in K |- *. pose proof (mroundE 0%uint63 b acc) as R. rewrite u0 in R.
    unfold eqp in *. rewrite S1, <- Z.mul_assoc, <- Z.mul_mod_idemp_r, K, Z.mul_mod_idemp_r by lia.
    rewrite ?Z.mul_0_l, ?Z.add_0_r in *. exact R.
  + simpl length in H. assert (K : eqp (wb ^ Z.of_nat n * lval (mloop n a b (mround x b acc))) (lval (mround x b acc) + lval a * lval b)) by (apply IH; lia).
    cbn [lval]. pose proof (mroundE x b acc) as R.
    unfold eqp in *. rewrite S1, <- Z.mul_assoc, <- Z.mul_mod_idemp_r, K, Z.mul_mod_idemp_r by lia.
    replace (wb * (lval (mround x b acc) + lval a * lval b)) with (wb * lval (mround x b acc) + wb * lval a * lval b) by ring.
    replace (lval acc + (u x + wb * lval a) * lval b) with (lval acc + u x * lval b + wb * lval a * lval b) by ring.
    apply (eqp_add _ _ _ _ R (eq_refl _)).
Qed.
Lemma iw5 n : eqp (iw ^ Z.of_nat n * wb ^ Z.of_nat n) 1.
Proof.
induction n as [|n IH]; [reflexivity|].
rewrite !Nat2Z.inj_succ, !Z.pow_succ_r by lia.
replace (iw * iw ^ Z.of_nat n * (wb * wb ^ Z.of_nat n)) with ((iw * wb) * (iw ^ Z.of_nat n * wb ^ Z.of_nat n)) by ring.
apply (eqp_mul _ 1 _ 1 iwE IH).
Qed.
Lemma mmulE a b : eqp (wb ^ 5 * lval (mmul a b)) (lval a * lval b).
Proof.
unfold mmul. destruct (Nat.leb (length a) 5) eqn:E.
- apply Nat.leb_le in E. pose proof (mloopE 5 a b [] E) as M. cbn [lval] in M. rewrite Z.add_0_l in M. exact M.
- rewrite limbsE by (pose proof (Z.mod_pos_bound (lval a * lval b * iw ^ 5) p); change (Z.of_nat 5) with 5; lia).
  unfold eqp. rewrite Z.mul_mod_idemp_r by lia.
  replace (wb ^ 5 * (lval a * lval b * iw ^ 5)) with (lval a * lval b * (iw ^ 5 * wb ^ 5)) by ring.
  rewrite <- (Z.mul_1_r (lval a * lval b)) at 2. exact (eqp_mul _ _ _ _ (eq_refl _) (iw5 5)).
Qed.
Definition madd (a b : list int) : list int := ladd a b false.
Lemma maddE a b : lval (madd a b) = lval a + lval b.
Proof. unfold madd. rewrite laddE. change (cz false) with 0. lia. Qed.
Definition msub (a b : list int) : list int :=
  let '(r, d) := lsub (ladd a k1 false) b false in
  if d then
    let '(r, d) := lsub (ladd a k2 false) b false in
    if d then limbs 5 ((lval a - lval b) mod p) else r
  else r.
Lemma msubE a b : eqp (lval (msub a b)) (lval a - lval b).
Proof.
unfold msub, eqp. pose proof (lsubE (ladd a k1 false) b false) as S1. destruct (lsub (ladd a k1 false) b false) as [r d].
cbn [fst] in S1; cbn [snd] in S1. destruct d.
- pose proof (lsubE (ladd a k2 false) b false) as S2. destruct (lsub (ladd a k2 false) b false) as [r2 d2].
  cbn [fst] in S2; cbn [snd] in S2. destruct d2.
  + rewrite limbsE by (pose proof (Z.mod_pos_bound (lval a - lval b) p); change (Z.of_nat 5) with 5; lia). apply Z.mod_mod. lia.
  + rewrite (S2 eq_refl), laddE. change (cz false) with 0.
    replace (lval a + lval k2 + 0 - lval b - 0) with (lval a - lval b + lval k2) by ring.
    rewrite <- Z.add_mod_idemp_r, k2E, Z.add_0_r by lia. reflexivity.
- rewrite (S1 eq_refl), laddE. change (cz false) with 0.
  replace (lval a + lval k1 + 0 - lval b - 0) with (lval a - lval b + lval k1) by ring.
  rewrite <- Z.add_mod_idemp_r, k1E, Z.add_0_r by lia. reflexivity.
Qed.
End Mont.
