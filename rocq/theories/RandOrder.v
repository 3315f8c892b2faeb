(** * Lemmas for C69: the order of the draws *)
From Coq Require Import ZArith List Bool Lia.
From Verif Require Import Base P256 Vector Bulletproofs SpecBP BB CCS08 SpecCodec SpecRand Rand RandProofs RandTape RandTapeProofs SpecOrder.
Import ListNotations.
Open Scope Z_scope.

Lemma filter_none {A} (f : A -> bool) l : (forall x, In x l -> f x = false) -> filter f l = [].
Proof. induction l as [|a l IH]; intros H; [easy|]. cbn. rewrite H by now left. apply IH. intros x X. apply H. now right. Qed.
Lemma blocks_split k i s : (0 < k)%nat -> (k * i <= length s)%nat ->
  blocks k s = map (fun j => block k j s) (seq 0 i) ++ blocks k (skipn (k * i) s).
Proof.
  intros K L. unfold blocks. rewrite skipn_length.
  replace (length s / k)%nat with (i + (length s - k * i) / k)%nat.
  2: { replace (length s) with (length s - k * i + i * k)%nat at 2 by lia. rewrite Nat.div_add by lia. lia. }
  rewrite seq_app, map_app. f_equal. cbn [plus]. rewrite <- (Nat.add_0_r i) at 1.
  generalize ((length s - k * i) / k)%nat as m. generalize 0%nat as a.
  intros a m. revert a. induction m as [|m IH]; intros a; [easy|]. cbn [seq map]. rewrite block_skip. f_equal.
  rewrite <- IH. f_equal. f_equal. lia.
Qed.
Lemma accepted_Int max s : 1 < max -> Forall byte s ->
  match rand_Int max s with
  | Ok (x, r) => accepted max s = x :: accepted max r
  | Err => accepted max s = []
  | Panic => False
  end.
Proof.
  intros M H. pose proof (rand_Int_spec max s M H) as Q. cbv zeta in Q. unfold accepted.
  set (n := Z.log2_up max) in *. set (k := Z.to_nat ((n + 7) / 8)) in *.
  assert (P : 0 < n) by (apply Z.log2_up_pos; lia).
  assert (K : (0 < k)%nat) by (assert (0 < (n + 7) / 8) by (apply Z.div_str_pos; lia); unfold k; lia).
  assert (NN : forall l, 0 <= candidate n l) by (intros l; apply Z.mod_pos_bound, Z.pow_pos_nonneg; lia).
  destruct Q as [[i [[L [F G]] ->]]|[F ->]].
  - rewrite (blocks_split k (S i) s K L), map_app, filter_app, seq_S, map_app, map_app, filter_app. cbn [plus map].
    rewrite filter_none.
    2: { intros x X. rewrite map_map in X. apply in_map_iff in X. destruct X as [j [<- J]]. apply in_seq in J.
         apply Z.ltb_ge. specialize (G j). specialize (NN (block k j s)). destruct (Z.lt_ge_cases (candidate n (block k j s)) max); [|easy].
         exfalso. apply G; lia. }
    cbn [app filter map]. destruct (Z.ltb_spec (candidate n (block k i s)) max); [easy|lia].
  - apply filter_none. intros x X. unfold blocks in X. rewrite map_map in X. apply in_map_iff in X. destruct X as [j [<- J]].
    apply in_seq in J. apply Z.ltb_ge. specialize (F j). specialize (NN (block k j s)).
    destruct (Z.lt_ge_cases (candidate n (block k j s)) max); [|easy]. exfalso. apply F; [|lia].
    pose proof (Nat.mul_div_le (length s) k). nia.
Qed.
(** a program which takes the first numbers of the list *)
Definition takes {A} (max : Z) (s : list Z) (d : res (A * list Z)) (n : nat) (out : A -> list Z) : Prop :=
  match d with
  | Ok (x, r) => Forall byte r /\ length (out x) = n /\ accepted max s = out x ++ accepted max r
  | Err => (length (accepted max s) < n)%nat
  | Panic => False
  end.
Lemma takes_Int max s : 1 < max -> Forall byte s -> takes max s (rand_Int max s) 1 (fun x => [x]).
Proof.
  intros M H. pose proof (accepted_Int max s M H) as Q. unfold takes.
  destruct (rand_Int max s) as [[x r]| |] eqn:E; [|rewrite Q; cbn; lia|easy].
  split; [|easy]. now apply Int_ok in E.
Qed.
Lemma takes_ret {A} max s (x : A) out : out x = [] -> Forall byte s -> takes max s (Ok (x, s)) 0 out.
Proof. intros E H. unfold takes. rewrite E. easy. Qed.
Lemma takes_bind {A B} max s (d : res (A * list Z)) (f : A -> list Z -> res (B * list Z)) n1 n2 o1 (o2 : A -> B -> list Z) out :
  takes max s d n1 o1 -> (forall x r, Forall byte r -> takes max r (f x r) n2 (o2 x)) ->
  (forall x r y r', f x r = Ok (y, r') -> out y = o1 x ++ o2 x y) ->
  takes max s (bind d (fun '(x, r) => f x r)) (n1 + n2) out.
Proof.
  intros T F O. destruct d as [[x r]| |]; cbn [bind] in *; [|cbn in *; lia|easy].
  destruct T as [R [L E]]. specialize (F x r R). specialize (O x r). unfold takes in F |- *. destruct (f x r) as [[y r']| |]; [| |easy].
  - destruct F as [R' [L' E']]. rewrite (O y r' eq_refl), app_length, E, E', app_assoc. split; [easy|]. split; [lia|easy].
  - rewrite E, app_length. lia.
Qed.
Lemma takes_draws max n : 1 < max -> forall s, Forall byte s -> takes max s (draws max n s) n (fun l => l).
Proof.
  intros M. induction n as [|n IH]; intros s H; cbn [draws]; [now apply takes_ret|].
  apply (takes_bind max s (rand_Int max s) (fun x s => bind (draws max n s) (fun '(l, s) => Ok (x :: l, s))) 1 n (fun x => [x]) (fun _ l => tl l)).
  - now apply takes_Int.
  - intros x r R. specialize (IH r R). unfold takes in *. destruct (draws max n r) as [[l r']| |]; cbn [bind]; easy.
  - intros x r y r' E. destruct (draws max n r) as [[l r'']| |]; cbn [bind] in E; try easy. now injection E as <- <-.
Qed.
Lemma draw_tape_order N s : Forall byte s ->
  match draw_tape N s with
  | Ok (t, r) => accepted secp_N s = (r_gamma t :: r_alpha t :: r_sL t ++ r_sR t ++ [r_rho t; r_tau1 t; r_tau2 t]) ++ accepted secp_N r
  | Err => (length (accepted secp_N s) < 2 * N + 5)%nat
  | Panic => False
  end.
Proof.
  intros H. unfold draw_tape, sampleRandomVector. change secp_N with ORDER.
  pose proof order1 as M.
  pose proof (takes_Int ORDER s M H) as T1. unfold takes in T1. destruct (rand_Int ORDER s) as [[g s1]| |]; cbn [bind]; [|lia|easy].
  destruct T1 as [H1 [_ ->]].
  pose proof (takes_Int ORDER s1 M H1) as T2. unfold takes in T2. destruct (rand_Int ORDER s1) as [[a s2]| |]; cbn [bind]; [|rewrite app_length; cbn [length]; lia|easy].
  destruct T2 as [H2 [_ ->]].
  pose proof (takes_draws ORDER N M s2 H2) as T3. unfold takes in T3. destruct (draws ORDER N s2) as [[l1 s3]| |]; cbn [bind]; [|rewrite !app_length; cbn [length]; lia|easy].
  destruct T3 as [H3 [L3 ->]].
  pose proof (takes_draws ORDER N M s3 H3) as T4. unfold takes in T4. destruct (draws ORDER N s3) as [[l2 s4]| |]; cbn [bind]; [|rewrite !app_length; cbn [length]; lia|easy].
  destruct T4 as [H4 [L4 ->]].
  pose proof (takes_Int ORDER s4 M H4) as T5. unfold takes in T5. destruct (rand_Int ORDER s4) as [[x5 s5]| |]; cbn [bind]; [|rewrite !app_length; cbn [length]; lia|easy].
  destruct T5 as [H5 [_ ->]].
  pose proof (takes_Int ORDER s5 M H5) as T6. unfold takes in T6. destruct (rand_Int ORDER s5) as [[x6 s6]| |]; cbn [bind]; [|rewrite !app_length; cbn [length]; lia|easy].
  destruct T6 as [H6 [_ ->]].
  pose proof (takes_Int ORDER s6 M H6) as T7. unfold takes in T7. destruct (rand_Int ORDER s6) as [[x7 s7]| |]; cbn [bind]; [|rewrite !app_length; cbn [length]; lia|easy].
  destruct T7 as [H7 [_ ->]]. cbn. now rewrite <- !app_assoc.
Qed.
Lemma draw_set_order s : Forall byte s ->
  match draw_tapeSet s with
  | Ok (t, r) => accepted bnOrder s = [ts_m t; ts_v t; ts_s t; ts_t t] ++ accepted bnOrder r
  | Err => (length (accepted bnOrder s) < 4)%nat
  | Panic => False
  end.
Proof.
  intros H. unfold draw_tapeSet. pose proof bnorder1 as M.
  pose proof (takes_Int bnOrder s M H) as T1. unfold takes in T1. destruct (rand_Int bnOrder s) as [[g s1]| |]; cbn [bind]; [|lia|easy].
  destruct T1 as [H1 [_ ->]].
  pose proof (takes_Int bnOrder s1 M H1) as T2. unfold takes in T2. destruct (rand_Int bnOrder s1) as [[a s2]| |]; cbn [bind]; [|rewrite app_length; cbn [length]; lia|easy].
  destruct T2 as [H2 [_ ->]].
  pose proof (takes_Int bnOrder s2 M H2) as T3. unfold takes in T3. destruct (rand_Int bnOrder s2) as [[x5 s5]| |]; cbn [bind]; [|rewrite !app_length; cbn [length]; lia|easy].
  destruct T3 as [H5 [_ ->]].
  pose proof (takes_Int bnOrder s5 M H5) as T6. unfold takes in T6. destruct (rand_Int bnOrder s5) as [[x6 s6]| |]; cbn [bind]; [|rewrite !app_length; cbn [length]; lia|easy].
  destruct T6 as [H6 [_ ->]]. easy.
Qed.
Lemma takes_digits l : forall s, Forall byte s -> takes bnOrder s (draw_digits l s) (3 * l) (flat_map (fun '(v, s, t) => [v; s; t])).
Proof.
  induction l as [|l IH]; intros s H; cbn [draw_digits]; [now apply takes_ret|]. pose proof bnorder1 as M.
  pose proof (takes_Int bnOrder s M H) as T1. unfold takes in *. destruct (rand_Int bnOrder s) as [[g s1]| |]; cbn [bind]; [|lia|easy].
  destruct T1 as [H1 [_ ->]].
  pose proof (takes_Int bnOrder s1 M H1) as T2. unfold takes in T2. destruct (rand_Int bnOrder s1) as [[a s2]| |]; cbn [bind]; [|rewrite app_length; cbn [length]; lia|easy].
  destruct T2 as [H2 [_ ->]].
  pose proof (takes_Int bnOrder s2 M H2) as T3. unfold takes in T3. destruct (rand_Int bnOrder s2) as [[x5 s5]| |]; cbn [bind]; [|rewrite !app_length; cbn [length]; lia|easy].
  destruct T3 as [H5 [_ ->]]. specialize (IH s5 H5).
  destruct (draw_digits l s5) as [[ds s6]| |]; cbn [bind]; [|rewrite !app_length; cbn [length]; lia|easy].
  destruct IH as [H6 [L ->]]. cbn [flat_map app length]. split; [easy|]. split; [lia|easy].
Qed.
Lemma draw_ul_order l s : Forall byte s ->
  match draw_tapeUL l s with
  | Ok (t, r) => accepted bnOrder s = (tu_m t :: flat_map (fun '(v, s, t) => [v; s; t]) (tu_digits t)) ++ accepted bnOrder r
  | Err => (length (accepted bnOrder s) < 3 * l + 1)%nat
  | Panic => False
  end.
Proof.
  intros H. unfold draw_tapeUL. pose proof bnorder1 as M.
  pose proof (takes_Int bnOrder s M H) as T1. unfold takes in *. destruct (rand_Int bnOrder s) as [[g s1]| |]; cbn [bind]; [|lia|easy].
  destruct T1 as [H1 [_ ->]]. pose proof (takes_digits l s1 H1) as D. unfold takes in D.
  destruct (draw_digits l s1) as [[ds s6]| |]; cbn [bind]; [|rewrite !app_length; cbn [length]; lia|easy].
  destruct D as [_ [_ ->]]. easy.
Qed.
