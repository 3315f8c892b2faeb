(** * Lemmas for C69 *)
From Coq Require Import ZArith List Bool Lia.
From Verif Require Import Base P256 Vector Bulletproofs SpecBP BB CCS08 SpecCCS SpecCodec CodecProofs SpecRand Rand RandProofs RandTape SpecTape.
Import ListNotations.
Open Scope Z_scope.

Lemma Int_ok max s x r : 1 < max -> Forall byte s -> rand_Int max s = Ok (x, r) -> 0 <= x < max /\ Forall byte r.
Proof.
  intros M H E. destruct (rand_Int_spec max s M H) as [[i [[_ [F _]] E']]|[_ E']]; rewrite E' in E; [|easy].
  injection E as <- <-. split; [easy|]. now apply bytes_skipn.
Qed.
Lemma Int_all max x : 1 < max -> 0 <= x < max -> exists b, Forall byte b /\ forall r, Forall byte r -> rand_Int max (b ++ r) = Ok (x, r).
Proof.
  intros M X. set (n := Z.log2_up max). set (k := Z.to_nat ((n + 7) / 8)).
  assert (P : 0 < n) by (apply Z.log2_up_pos; lia).
  assert (U : max <= 2 ^ n) by (apply Z.log2_up_spec; lia).
  assert (K : n <= 8 * Z.of_nat k).
  { unfold k. pose proof (Z.div_mod (n + 7) 8). pose proof (Z.mod_pos_bound (n + 7) 8).
    rewrite Z2Nat.id by (apply Z.div_pos; lia). lia. }
  assert (V : x < 256 ^ Z.of_nat k).
  { change 256 with (2 ^ 8). rewrite <- Z.pow_mul_r by lia.
    assert (2 ^ n <= 2 ^ (8 * Z.of_nat k)) by (apply Z.pow_le_mono_r; lia). lia. }
  destruct (to_block_spec k x) as [L [B E]]; [lia|].
  exists (to_block k x). split; [easy|]. intros r R.
  assert (T : Forall byte (to_block k x ++ r)) by now apply Forall_app.
  assert (C : block k 0 (to_block k x ++ r) = to_block k x).
  { unfold block. rewrite Nat.mul_0_r. cbn [skipn]. rewrite firstn_app, L, Nat.sub_diag. cbn. rewrite app_nil_r.
    apply firstn_all2. lia. }
  assert (D : candidate n (to_block k x) = x) by (unfold candidate; rewrite E; apply Z.mod_small; lia).
  assert (LL : (k * 1 <= length (to_block k x ++ r))%nat) by (rewrite app_length, L; lia).
  pose proof (rand_Int_spec max (to_block k x ++ r) M T) as Q. cbv zeta in Q. fold n in Q. fold k in Q.
  destruct Q as [[i [[_ [F G]] ->]]|[F _]].
  - destruct i as [|i]. 2: { exfalso. apply (G 0%nat); [lia|]. rewrite C, D. lia. }
    rewrite C, D. rewrite Nat.mul_1_r, skipn_app, L, Nat.sub_diag. rewrite skipn_all2 by lia. easy.
  - exfalso. apply (F 0%nat LL). rewrite C, D. lia.
Qed.
Lemma draws_ok max n : 1 < max -> forall s l r, Forall byte s -> draws max n s = Ok (l, r) ->
  length l = n /\ Forall (fun x => 0 <= x < max) l /\ Forall byte r.
Proof.
  intros M. induction n as [|n IH]; intros s l r H E; cbn [draws] in E.
  - injection E as <- <-. easy.
  - destruct (rand_Int max s) as [[x s1]| |] eqn:E1; cbn [bind] in E; try easy.
    destruct (Int_ok _ _ _ _ M H E1) as [X H1].
    destruct (draws max n s1) as [[l1 s2]| |] eqn:E2; cbn [bind] in E; try easy. injection E as <- <-.
    destruct (IH _ _ _ H1 E2) as [A [B C]]. cbn. split; [lia|]. split; [now constructor|easy].
Qed.
Lemma draws_all max : 1 < max -> forall l, Forall (fun x => 0 <= x < max) l ->
  exists b, Forall byte b /\ forall r, Forall byte r -> draws max (length l) (b ++ r) = Ok (l, r).
Proof.
  intros M. induction 1 as [|x l X L [b [B E]]]. { exists []. split; [constructor|easy]. }
  destruct (Int_all max x M X) as [b1 [B1 E1]]. exists (b1 ++ b). split; [now apply Forall_app|].
  intros r R. cbn [length draws]. rewrite <- app_assoc, E1 by now apply Forall_app. cbn [bind]. now rewrite E.
Qed.
Lemma order1 : 1 < ORDER. Proof. now vm_compute. Qed.
Lemma bnorder1 : 1 < bnOrder. Proof. now vm_compute. Qed.

Ltac step E :=
  let x := fresh "x" in let s := fresh "s" in let Q := fresh "Q" in
  match type of E with bind ?a _ = _ => destruct a as [[x s]| |] eqn:Q; cbn [bind] in E; try easy end;
  match type of Q with
  | rand_Int ORDER _ = _ => apply Int_ok in Q; [|exact order1|easy]
  | rand_Int bnOrder _ = _ => apply Int_ok in Q; [|exact bnorder1|easy]
  | sampleRandomVector _ _ = _ => apply draws_ok in Q; [|exact order1|easy]
  | _ => idtac
  end; try (destruct Q as [? Q]); try (destruct Q as [? Q]).
Lemma draw_tape_ok N s t r : Forall byte s -> draw_tape N s = Ok (t, r) -> tape_ok t N /\ bp_range t.
Proof.
  intros H E. unfold draw_tape in E. do 7 step E. injection E as <- <-. unfold tape_ok, bp_range. cbn. easy.
Qed.
Lemma draw_tape_all N t : tape_ok t N -> bp_range t -> exists b, Forall byte b /\
  forall r, Forall byte r -> draw_tape N (b ++ r) = Ok (t, r).
Proof.
  destruct t as [g a sL sR rho t1 t2]. intros [L1 L2] [Hg [Ha [HL [HR [Hr [H1 H2]]]]]]. cbn in *. subst N.
  destruct (Int_all ORDER g order1 Hg) as [b1 [B1 E1]]. destruct (Int_all ORDER a order1 Ha) as [b2 [B2 E2]].
  destruct (draws_all ORDER order1 sL HL) as [b3 [B3 E3]]. destruct (draws_all ORDER order1 sR HR) as [b4 [B4 E4]].
  destruct (Int_all ORDER rho order1 Hr) as [b5 [B5 E5]]. destruct (Int_all ORDER t1 order1 H1) as [b6 [B6 E6]].
  destruct (Int_all ORDER t2 order1 H2) as [b7 [B7 E7]].
  exists (b1 ++ b2 ++ b3 ++ b4 ++ b5 ++ b6 ++ b7). split; [now rewrite !Forall_app|]. intros r R.
  unfold draw_tape, sampleRandomVector. rewrite <- !app_assoc.
  rewrite E1 by now rewrite !Forall_app. cbn [bind]. rewrite E2 by now rewrite !Forall_app. cbn [bind].
  rewrite E3 by now rewrite !Forall_app. cbn [bind]. rewrite <- L2, E4 by now rewrite !Forall_app. cbn [bind].
  rewrite E5 by now rewrite !Forall_app. cbn [bind]. rewrite E6 by now rewrite !Forall_app. cbn [bind].
  rewrite E7 by easy. easy.
Qed.
Lemma draw_set_ok s t r : Forall byte s -> draw_tapeSet s = Ok (t, r) -> set_range t.
Proof.
  intros H E. unfold draw_tapeSet in E. do 4 step E. injection E as <- <-. unfold set_range. cbn. easy.
Qed.
Lemma draw_set_all t : set_range t -> exists b, Forall byte b /\ forall r, Forall byte r -> draw_tapeSet (b ++ r) = Ok (t, r).
Proof.
  destruct t as [m v s t]. intros [Hm [Hv [Hs Ht]]]. cbn in *.
  destruct (Int_all bnOrder m bnorder1 Hm) as [b1 [B1 E1]]. destruct (Int_all bnOrder v bnorder1 Hv) as [b2 [B2 E2]].
  destruct (Int_all bnOrder s bnorder1 Hs) as [b3 [B3 E3]]. destruct (Int_all bnOrder t bnorder1 Ht) as [b4 [B4 E4]].
  exists (b1 ++ b2 ++ b3 ++ b4). split; [now rewrite !Forall_app|]. intros r R.
  unfold draw_tapeSet. rewrite <- !app_assoc.
  rewrite E1 by now rewrite !Forall_app. cbn [bind]. rewrite E2 by now rewrite !Forall_app. cbn [bind].
  rewrite E3 by now rewrite !Forall_app. cbn [bind]. rewrite E4 by easy. easy.
Qed.
Lemma draw_digits_ok l : forall s ds r, Forall byte s -> draw_digits l s = Ok (ds, r) ->
  length ds = l /\ Forall (fun '(v, s, t) => 0 <= v < bnOrder /\ 0 <= s < bnOrder /\ 0 <= t < bnOrder) ds /\ Forall byte r.
Proof.
  induction l as [|l IH]; intros s ds r H E; cbn [draw_digits] in E. { now injection E as <- <-. }
  do 3 step E. destruct (draw_digits l s2) as [[ds' s']| |] eqn:D; cbn [bind] in E; try easy. injection E as <- <-.
  destruct (IH _ _ _ Q1 D) as [A [B C]]. cbn. split; [lia|]. split; [|easy]. now constructor.
Qed.
Lemma draw_digits_all ds : Forall (fun '(v, s, t) => 0 <= v < bnOrder /\ 0 <= s < bnOrder /\ 0 <= t < bnOrder) ds ->
  exists b, Forall byte b /\ forall r, Forall byte r -> draw_digits (length ds) (b ++ r) = Ok (ds, r).
Proof.
  induction 1 as [|[[v s] t] ds [Hv [Hs Ht]] _ [b [B E]]]. { exists []. split; [constructor|easy]. }
  destruct (Int_all bnOrder v bnorder1 Hv) as [b2 [B2 E2]].
  destruct (Int_all bnOrder s bnorder1 Hs) as [b3 [B3 E3]]. destruct (Int_all bnOrder t bnorder1 Ht) as [b4 [B4 E4]].
  exists (b2 ++ b3 ++ b4 ++ b). split; [now rewrite !Forall_app|]. intros r R. cbn [length draw_digits].
  rewrite <- !app_assoc. rewrite E2 by now rewrite !Forall_app. cbn [bind].
  rewrite E3 by now rewrite !Forall_app. cbn [bind]. rewrite E4 by now rewrite !Forall_app. cbn [bind].
  rewrite E by easy. easy.
Qed.
Lemma draw_ul_ok l s t r : Forall byte s -> draw_tapeUL l s = Ok (t, r) -> tapeUL_ok t (Z.of_nat l) /\ ul_range t.
Proof.
  intros H E. unfold draw_tapeUL in E. step E. destruct (draw_digits l s0) as [[ds s']| |] eqn:D; cbn [bind] in E; try easy.
  injection E as <- <-. destruct (draw_digits_ok _ _ _ _ Q D) as [A [B _]]. unfold tapeUL_ok, ul_range. cbn. rewrite A. easy.
Qed.
Lemma draw_ul_all l t : tapeUL_ok t (Z.of_nat l) -> ul_range t -> exists b, Forall byte b /\
  forall r, Forall byte r -> draw_tapeUL l (b ++ r) = Ok (t, r).
Proof.
  destruct t as [m ds]. intros L [Hm Hd]. unfold tapeUL_ok in L. cbn in *. apply Nat2Z.inj in L. subst l.
  destruct (Int_all bnOrder m bnorder1 Hm) as [b1 [B1 E1]]. destruct (draw_digits_all ds Hd) as [b2 [B2 E2]].
  exists (b1 ++ b2). split; [now rewrite !Forall_app|]. intros r R. unfold draw_tapeUL. rewrite <- !app_assoc.
  rewrite E1 by now rewrite !Forall_app. cbn [bind]. now rewrite E2.
Qed.
Lemma set_range_old t : set_range t -> tapeSet_range t.
Proof. unfold set_range, tapeSet_range. lia. Qed.
Lemma ul_range_old t : ul_range t -> tape_range t.
Proof.
  intros [A B]. split; [lia|]. unfold digits_range. eapply Forall_impl; [|exact B]. intros [[v s] u]. cbn. lia.
Qed.

(** seven numbers, the second one after a block which is not below the order *)
Definition ex_draws : list Z :=
  let b x := repeat 0 31 ++ [x] in b 1 ++ repeat 255 32 ++ b 2 ++ b 3 ++ b 4 ++ b 5 ++ b 6 ++ b 7 ++ [9].
Lemma ex_draws_bytes : Forall byte ex_draws.
Proof. unfold ex_draws, byte. cbn [repeat app]. repeat (constructor; [lia|]). constructor. Qed.
Lemma ex_tapes : draw_tape 1 ex_draws = Ok (Tape 1 2 [3] [4] 5 6 7, [9]) /\ draw_tape 2 ex_draws = Err /\
  (exists r, draw_tapeSet ex_draws = Ok (TapeSet 1 2 3 4, r)) /\
  draw_tapeUL 2 ex_draws = Ok (TapeUL 1 [(2, 3, 4); (5, 6, 7)], [9]).
Proof. split; [now vm_compute|]. split; [now vm_compute|]. split; [eexists; now vm_compute|now vm_compute]. Qed.
