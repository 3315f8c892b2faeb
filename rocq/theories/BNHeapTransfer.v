(** * From the separation logic of HeapLogic.v to statements about stores *)
From Coq Require Import ZArith List Bool Arith Lia Permutation.
From Verif Require Import Base BB BN256 BNHeap HeapLogic BNHeapProofs SpecHeap.
Import ListNotations.
Open Scope Z_scope.
Local Transparent c1 c2 c6 c12 ccp ctp cglob.

Lemma live_iff s l : live_cell s l <-> live s l.
Proof.
  unfold live_cell, in_pool, live, bns; destruct (pool s) as [bs|].
  - split; intros [H1 H2]; split; auto; [intros Hi; apply H2; exists bs; auto|intros (b & E & Hi); injection E as <-; auto].
  - split; intros [H1 H2]; split; auto; intros (b & E & _); discriminate.
Qed.
Lemma good_iff s : good s <-> pool_ok s.
Proof.
  unfold good, pool_ok, bns; destruct (pool s) as [bs|].
  - split; [intros H; apply H; reflexivity|intros H b E; injection E as <-; exact H].
  - split; [intros _; split; [constructor|intros ? []]|intros _ b E; discriminate].
Qed.

(** ** All live cells *)
Definition isin (W : list loc) (l : loc) : bool := existsb (Nat.eqb l) W.
Lemma isin_In W l : isin W l = true <-> In l W.
Proof.
  unfold isin; rewrite existsb_exists; split; [intros (x & Hx & E); apply Nat.eqb_eq in E; subst; exact Hx|].
  intros H; exists l; rewrite Nat.eqb_refl; auto.
Qed.
(** the live cells which are not in [W] *)
Definition rest (s : store) (W : list loc) : cells :=
  map (fun l => (l, mem s l)) (filter (fun l => negb (isin (bns s) l) && negb (isin W l)) (seq 0 (next s))).
Lemma in_rest s W l v : In (l, v) (rest s W) <-> live s l /\ ~ In l W /\ v = mem s l.
Proof.
  unfold rest; rewrite in_map_iff; split.
  - intros (l' & E & H); injection E as -> <-; apply filter_In in H; destruct H as [H1 H2].
    apply in_seq in H1; apply andb_true_iff in H2; destruct H2 as [H2 H3]; apply negb_true_iff in H2, H3.
    rewrite <- !isin_In; split; [split; [lia|rewrite <- isin_In; congruence]|split; [congruence|reflexivity]].
  - intros ([H1 H2] & H3 & ->); exists l; split; [reflexivity|]; apply filter_In; split; [apply in_seq; lia|].
    rewrite <- isin_In in H2, H3; apply andb_true_iff; split; apply negb_true_iff; [destruct (isin (bns s) l)|destruct (isin W l)]; congruence.
Qed.
Lemma rest_fst s W : map fst (rest s W) = filter (fun l => negb (isin (bns s) l) && negb (isin W l)) (seq 0 (next s)).
Proof. unfold rest; rewrite map_map; apply map_id. Qed.
Lemma rest_nodup s W : NoDup (map fst (rest s W)).
Proof. rewrite rest_fst; apply NoDup_filter, seq_NoDup. Qed.
Lemma holds_rest s W : pool_ok s -> holds s (rest s W).
Proof. intros H; split; [exact H|split; [apply rest_nodup|]]; intros l v Hi; apply in_rest in Hi; destruct Hi as (Ha & _ & ->); auto. Qed.

(** ** Chunks and kinds *)
Definition fits {O V} (K : kind O V) (C : O -> V -> cells) : Prop :=
  (forall m e, C e (val K m e) = map (fun l => (l, m l)) (locs K e)) /\
  (forall e v, map fst (C e v) = locs K e) /\
  (forall m e v, (forall l z, In (l, z) (C e v) -> m l = z) -> val K m e = v).
Lemma fits1 : fits kBig c1.
Proof. split; [reflexivity|split; [reflexivity|]]; intros m e v H; apply H; left; reflexivity. Qed.
Lemma fits2 : fits kGF2 c2.
Proof.
  split; [reflexivity|split; [reflexivity|]]; intros m e [x y] H; cbn in *; f_equal; apply H; auto.
Qed.
Lemma fits_app {O V} (K : kind O V) C (HF : fits K C) m e v X : (forall l z, In (l, z) (C e v ++ X) -> m l = z) ->
  val K m e = v /\ (forall l z, In (l, z) X -> m l = z).
Proof.
  intros H; split; [apply HF; intros l z Hi; apply H, in_or_app; left; exact Hi|].
  intros l z Hi; apply H, in_or_app; right; exact Hi.
Qed.
Lemma fits6 : fits kGF6 c6.
Proof.
  destruct fits2 as (F1 & F2 & _); split; [|split].
  - intros m e; unfold c6, kGF6; cbn [c6x c6y c6z val locs]; rewrite !F1, !map_app; reflexivity.
  - intros e v; unfold c6; rewrite !map_app, !F2; reflexivity.
  - intros m e [x y z] H; unfold c6 in H; cbn [c6x c6y c6z] in H.
    apply (fits_app _ _ fits2) in H; destruct H as [H1 H]; apply (fits_app _ _ fits2) in H; destruct H as [H2 H].
    rewrite <- (app_nil_r (c2 _ _)) in H; apply (fits_app _ _ fits2) in H; destruct H as [H3 _].
    unfold kGF6; cbn [val]; rewrite H1, H2, H3; reflexivity.
Qed.
Lemma fits12 : fits kGF12 c12.
Proof.
  destruct fits6 as (F1 & F2 & _); split; [|split].
  - intros m e; unfold c12, kGF12; cbn [c12x c12y val locs]; rewrite !F1, map_app; reflexivity.
  - intros e v; unfold c12; rewrite !map_app, !F2; reflexivity.
  - intros m e [x y] H; unfold c12 in H; cbn [c12x c12y] in H.
    apply (fits_app _ _ fits6) in H; destruct H as [H1 H].
    rewrite <- (app_nil_r (c6 _ _)) in H; apply (fits_app _ _ fits6) in H; destruct H as [H2 _].
    unfold kGF12; cbn [val]; rewrite H1, H2; reflexivity.
Qed.
Lemma fitsC : fits kCurve ccp.
Proof.
  split; [reflexivity|split; [reflexivity|]]; intros m e [x y z t] H; cbn in *; f_equal; apply H; auto.
Qed.
Lemma fitsT : fits kTwist ctp.
Proof.
  destruct fits2 as (F1 & F2 & _); split; [|split].
  - intros m e; unfold ctp, kTwist; cbn [tpx tpy tpz tpt val locs]; rewrite !F1, !map_app; reflexivity.
  - intros e v; unfold ctp; rewrite !map_app, !F2; reflexivity.
  - intros m e [x y z t] H; unfold ctp in H; cbn [tpx tpy tpz tpt] in H.
    do 3 (apply (fits_app _ _ fits2) in H; destruct H as [?H H]).
    rewrite <- (app_nil_r (c2 _ _)) in H; apply (fits_app _ _ fits2) in H; destruct H as [H3 _].
    unfold kTwist; cbn [val]; congruence.
Qed.

Section Kinds.
Context {O V : Type} (K : kind O V) (C : O -> V -> cells) (HF : fits K C).
Lemma in_C_val m e l z : In (l, z) (C e (val K m e)) <-> In l (locs K e) /\ z = m l.
Proof.
  destruct HF as (F1 & _ & _); rewrite F1, in_map_iff; split.
  - intros (l' & E & H); injection E as -> <-; auto.
  - intros [H ->]; exists l; auto.
Qed.
Lemma split_obj s e : good s -> object K s e -> Permutation (rest s []) (C e (val K (mem s) e) ++ rest s (locs K e)).
Proof.
  intros Hg [Hn Hl]; destruct HF as (F1 & F2 & _).
  assert (ND : NoDup (map fst (C e (val K (mem s) e) ++ rest s (locs K e)))).
  { rewrite map_app, F2, rest_fst.
    assert (H : forall l, In l (locs K e) -> ~ In l (filter (fun l => negb (isin (bns s) l) && negb (isin (locs K e) l)) (seq 0 (next s)))).
    { intros l Hi Hf; rewrite <- rest_fst in Hf; apply in_map_iff in Hf; destruct Hf as ([l' v] & E & Hf); cbn in E; subst.
      apply in_rest in Hf; tauto. }
    revert H; generalize (NoDup_filter (fun l => negb (isin (bns s) l) && negb (isin (locs K e) l)) (seq_NoDup (next s) 0)).
    generalize (filter (fun l => negb (isin (bns s) l) && negb (isin (locs K e) l)) (seq 0 (next s))); intros F HN H.
    clear -Hn HN H; induction (locs K e) as [|x xs IH]; [exact HN|]; inversion Hn; subst; cbn; constructor.
    - intros Hi; apply in_app_or in Hi; destruct Hi as [Hi|Hi]; [auto|exact (H x (or_introl eq_refl) Hi)].
    - apply IH; [assumption|]; intros l Hl; apply H; right; exact Hl. }
  apply NoDup_Permutation; [apply (NoDup_map_inv fst), rest_nodup|apply (NoDup_map_inv fst), ND|].
  intros [l v]; rewrite in_app_iff, in_C_val, !in_rest; split.
  - intros (H1 & _ & ->); destruct (isin (locs K e) l) eqn:E; [left; apply isin_In in E; auto|right].
    rewrite <- isin_In; rewrite E; auto.
  - intros [[H ->]|(H1 & _ & ->)]; [|auto]; split; [apply live_iff, Hl, H|auto].
Qed.
Lemma incl_apart s a W : object K s a -> (forall l, In l W -> ~ In l (locs K a)) -> incl (C a (val K (mem s) a)) (rest s W).
Proof.
  intros [Hn Hl] Ha [l v] Hi; apply in_C_val in Hi; destruct Hi as [Hi ->]; apply in_rest.
  split; [apply live_iff, Hl, Hi|split; [|reflexivity]]; intros Hw; exact (Ha l Hw Hi).
Qed.
Lemma opnd_of s e a : object K s a -> same_or_apart K e a -> opnd C e (val K (mem s) e) (rest s (locs K e)) a (val K (mem s) a).
Proof. intros Ho [->|Ha]; [left; auto|right; apply incl_apart; assumption]. Qed.
Lemma val_of s e v X : holds s (C e v ++ X) -> val K (mem s) e = v /\ object K s e.
Proof.
  intros (H1 & H2 & H3); destruct HF as (F1 & F2 & F3); split.
  - apply F3; intros l z Hi; apply H3, in_or_app; left; exact Hi.
  - split.
    + rewrite map_app, F2 in H2; clear -H2; induction (locs K e) as [|x xs IH]; constructor; inversion H2; subst; [|auto].
      intros Hi; match goal with H : ~ In _ _ |- _ => apply H end; apply in_or_app; left; exact Hi.
    + intros l Hl; rewrite <- (F2 e v) in Hl; apply in_map_iff in Hl; destruct Hl as ([l' z] & E & Hi); cbn in E; subst.
      apply live_iff, (H3 l z), in_or_app; left; exact Hi.
Qed.
Lemma frame_of s s' e v : holds s' (C e v ++ rest s (locs K e)) -> changes_only (locs K e) s s'.
Proof.
  intros H; pose proof (val_of _ _ _ _ H) as [_ [_ Hl]]; destruct H as (H1 & H2 & H3).
  split; [apply good_iff, H1|]; intros l Hi.
  destruct (isin (locs K e) l) eqn:E.
  - apply isin_In in E; split; [apply Hl, E|tauto].
  - assert (Hn : ~ In l (locs K e)) by (rewrite <- isin_In; congruence).
    destruct (H3 l (mem s l)) as [Ha Hb]; [apply in_or_app; right; apply in_rest; split; [apply live_iff, Hi|auto]|].
    split; [apply live_iff, Ha|auto].
Qed.
Lemma fresh_of s s' e v : holds s' (C e v ++ rest s []) -> forall l, In l (locs K e) -> ~ live_cell s l.
Proof.
  intros (H1 & H2 & H3) l Hl Hv; destruct HF as (F1 & F2 & _); rewrite map_app, F2 in H2.
  assert (Hi : In l (map fst (rest s []))).
  { apply in_map_iff; exists (l, mem s l); split; [reflexivity|]; apply in_rest; split; [apply live_iff, Hv|auto]. }
  clear -H2 Hl Hi; induction (locs K e) as [|x xs IH]; [destruct Hl|]; cbn in H2; inversion H2; subst.
  destruct Hl as [->|Hl]; [|apply IH; assumption].
  match goal with H : ~ In _ _ |- _ => apply H end; apply in_or_app; right; exact Hi.
Qed.
Lemma frame_nil s s' X : holds s' (X ++ rest s []) -> changes_only [] s s'.
Proof.
  intros H; apply holds_drop in H; destruct H as (H1 & H2 & H3); split; [apply good_iff, H1|]; intros l Hi.
  destruct (H3 l (mem s l)) as [Ha Hb]; [apply in_rest; split; [apply live_iff, Hi|auto]|].
  split; [apply live_iff, Ha|auto].
Qed.
End Kinds.
Lemma holds_all s : good s -> holds s (rest s []).
Proof. intros H; apply holds_rest, (proj1 (good_iff s)), H. Qed.
(** run a program specified in the logic *)
Lemma run {A} (m : prog A) Q s : good s -> wp m Q (rest s []) -> exists r s' G', m s = Some (r, s') /\ holds s' G' /\ Q r G'.
Proof. intros Hg H; apply H, holds_all, Hg. Qed.

Lemma incl_globals s W : package_variables s -> (forall l, In l W -> ~ (l < 25)%nat) -> incl cglob (rest s W).
Proof.
  intros (Hl & H1 & H2 & H3 & H4 & H5 & H6 & H7 & H8 & H9 & H10) HW.
  assert (I : forall O V (K : kind O V) C (HF : fits K C) o, forallb (fun l => Nat.ltb l 25) (locs K o) = true ->
    incl (C o (val K (mem s) o)) (rest s W)).
  { intros O V K C HF o Hb; rewrite forallb_forall in Hb; intros [l v] Hi; apply (in_C_val K C HF) in Hi; destruct Hi as [Hi ->].
    apply Hb, Nat.ltb_lt in Hi; apply in_rest; split; [apply live_iff, Hl, Hi|split; [|reflexivity]]; intros Hw; exact (HW l Hw Hi). }
  unfold cglob; rewrite <- H1, <- H2, <- H3, <- H4, <- H5, <- H6, <- H7, <- H8, <- H9, <- H10.
  repeat apply incl_app;
    first [apply (I _ _ kGF2 c2 fits2) | apply (I _ _ kBig c1 fits1) | apply (I _ _ kTwist ctp fitsT) | apply (I _ _ kCurve ccp fitsC)]; reflexivity.
Qed.

(** ** Transfer *)
Lemma transfer0 {O V} (K : kind O V) C (HF : fits K C) m f : spec0 C m f none -> computes0 K m (fun v r => r = f v).
Proof.
  intros H s e Hg Ho; destruct (run (m e) (fun _ G => G = C e (f (val K (mem s) e)) ++ rest s (locs K e)) s Hg) as (r & s' & G' & E & Hs & ->).
  - eapply H; [apply (split_obj K C HF); assumption|intros ? []|reflexivity].
  - destruct r; exists s'; split; [exact E|split; [apply (val_of K C HF _ _ _ _ Hs)|apply (frame_of K C HF _ _ _ _ Hs)]].
Qed.
Lemma transfer1 {O V} (K : kind O V) C (HF : fits K C) m f : spec1 C m f none -> computes1 K m (fun v r => r = f v).
Proof.
  intros H s e a Hg Ho Ha Hsa; destruct (run (m e a) (fun _ G => G = C e (f (val K (mem s) a)) ++ rest s (locs K e)) s Hg) as (r & s' & G' & E & Hs & ->).
  - eapply H; [apply (split_obj K C HF); assumption|apply (opnd_of K C HF); assumption|intros ? []|reflexivity].
  - destruct r; exists s'; split; [exact E|split; [apply (val_of K C HF _ _ _ _ Hs)|apply (frame_of K C HF _ _ _ _ Hs)]].
Qed.
Lemma transfer2 {O V} (K : kind O V) C (HF : fits K C) m f : spec2 C m f none -> computes2 K m (fun v w r => r = f v w).
Proof.
  intros H s e a b Hg Ho Ha Hb Hsa Hsb;
    destruct (run (m e a b) (fun _ G => G = C e (f (val K (mem s) a) (val K (mem s) b)) ++ rest s (locs K e)) s Hg) as (r & s' & G' & E & Hs & ->).
  - eapply H; [apply (split_obj K C HF); assumption|apply (opnd_of K C HF); assumption|apply (opnd_of K C HF); assumption|intros ? []|reflexivity].
  - destruct r; exists s'; split; [exact E|split; [apply (val_of K C HF _ _ _ _ Hs)|apply (frame_of K C HF _ _ _ _ Hs)]].
Qed.
Lemma transfer1x {O V O' V'} (K : kind O V) C (HF : fits K C) (K' : kind O' V') C' (HF' : fits K' C') m f :
  (forall x vx, spec1 C (fun e a => m e a x) (fun a => f a vx) (C' x vx)) -> computes1x K K' m (fun v w r => r = f v w).
Proof.
  intros H s e a x Hg Ho Ha Hx Hsa Hsx;
    destruct (run (m e a x) (fun _ G => G = C e (f (val K (mem s) a) (val K' (mem s) x)) ++ rest s (locs K e)) s Hg) as (r & s' & G' & E & Hs & ->).
  - eapply (H x (val K' (mem s) x)); [apply (split_obj K C HF); assumption|apply (opnd_of K C HF); assumption| |reflexivity].
    apply (incl_apart K' C' HF'); assumption.
  - destruct r; exists s'; split; [exact E|split; [apply (val_of K C HF _ _ _ _ Hs)|apply (frame_of K C HF _ _ _ _ Hs)]].
Qed.
Lemma transfer1g {O V} (K : kind O V) C (HF : fits K C) m f : spec1 C m f cglob -> computes1g K m (fun v r => r = f v).
Proof.
  intros H s e a Hg Hp Hn Ho Ha Hsa; destruct (run (m e a) (fun _ G => G = C e (f (val K (mem s) a)) ++ rest s (locs K e)) s Hg) as (r & s' & G' & E & Hs & ->).
  - eapply H; [apply (split_obj K C HF); assumption|apply (opnd_of K C HF); assumption|apply incl_globals; assumption|reflexivity].
  - destruct r; exists s'; split; [exact E|split; [apply (val_of K C HF _ _ _ _ Hs)|apply (frame_of K C HF _ _ _ _ Hs)]].
Qed.
Lemma transfer1_apart {O V} (K : kind O V) C (HF : fits K C) m f :
  (forall (Q : unit -> cells -> Prop) G G' e ve a va, Permutation G (C e ve ++ G') -> incl (C a va) G' -> Q tt (C e (f ve va) ++ G') -> wp (m e a) Q G) ->
  computes1_apart K m (fun e v r => r = f e v).
Proof.
  intros H s e a Hg Ho Ha Hsa;
    destruct (run (m e a) (fun _ G => G = C e (f (val K (mem s) e) (val K (mem s) a)) ++ rest s (locs K e)) s Hg) as (r & s' & G' & E & Hs & ->).
  - eapply H; [apply (split_obj K C HF); assumption|apply (incl_apart K C HF); assumption|reflexivity].
  - destruct r; exists s'; split; [exact E|split; [apply (val_of K C HF _ _ _ _ Hs)|apply (frame_of K C HF _ _ _ _ Hs)]].
Qed.
Lemma transfer1_self {O V} (K : kind O V) C (HF : fits K C) m f :
  (forall (Q : unit -> cells -> Prop) G G' e ve, Permutation G (C e ve ++ G') -> Q tt (C e (f ve) ++ G') -> wp (m e) Q G) ->
  computes0 K m (fun v r => r = f v).
Proof. intros H; apply (transfer0 K C HF); intros; eapply H; eassumption. Qed.
Lemma transfer2_apart {O V} (K : kind O V) C (HF : fits K C) m f :
  (forall (Q : unit -> cells -> Prop) G G' e ve a va b vb, Permutation G (C e ve ++ G') -> incl (C a va) G' -> opnd C e ve G' b vb ->
    Q tt (C e (f ve va vb) ++ G') -> wp (m e a b) Q G) ->
  computes2_apart K m (fun e v w r => r = f e v w).
Proof.
  intros H s e a b Hg Ho Ha Hb Hsa Hsb;
    destruct (run (m e a b) (fun _ G => G = C e (f (val K (mem s) e) (val K (mem s) a) (val K (mem s) b)) ++ rest s (locs K e)) s Hg) as (r & s' & G' & E & Hs & ->).
  - eapply H; [apply (split_obj K C HF); assumption|apply (incl_apart K C HF); assumption|apply (opnd_of K C HF); assumption|reflexivity].
  - destruct r; exists s'; split; [exact E|split; [apply (val_of K C HF _ _ _ _ Hs)|apply (frame_of K C HF _ _ _ _ Hs)]].
Qed.
Lemma transfer2_self {O V} (K : kind O V) C (HF : fits K C) m f :
  (forall (Q : unit -> cells -> Prop) G G' e ve b vb, Permutation G (C e ve ++ G') -> opnd C e ve G' b vb ->
    Q tt (C e (f ve vb) ++ G') -> wp (m e e b) Q G) ->
  computes2_self K m (fun v w r => r = f v w).
Proof.
  intros H s e b Hg Ho Hb Hsb;
    destruct (run (m e e b) (fun _ G => G = C e (f (val K (mem s) e) (val K (mem s) b)) ++ rest s (locs K e)) s Hg) as (r & s' & G' & E & Hs & ->).
  - eapply H; [apply (split_obj K C HF); assumption|apply (opnd_of K C HF); assumption|reflexivity].
  - destruct r; exists s'; split; [exact E|split; [apply (val_of K C HF _ _ _ _ Hs)|apply (frame_of K C HF _ _ _ _ Hs)]].
Qed.
Lemma transferT {O V} (K : kind O V) C (HF : fits K C) m f :
  (forall (Q : bool -> cells -> Prop) G a va, incl (C a va) G -> Q (f va) G -> wp (m a) Q G) -> tests K m f.
Proof.
  intros H s e Hg Ho; destruct (run (m e) (fun r G => r = f (val K (mem s) e) /\ G = rest s []) s Hg) as (r & s' & G' & E & Hs & -> & ->).
  - eapply H; [apply (incl_apart K C HF); [assumption|intros ? []]|auto].
  - exists s'; split; [exact E|apply (frame_nil s s' []), Hs].
Qed.
Lemma transfer_makes {O V} (K : kind O V) C (HF : fits K C) (m : prog O) s (R : V -> Prop) : good s ->
  (forall Q : O -> cells -> Prop, (forall e v, R v -> Q e (C e v ++ rest s [])) -> wp m Q (rest s [])) -> makes K m s R.
Proof.
  intros Hg H; destruct (run m (fun e G => exists v, R v /\ G = C e v ++ rest s []) s Hg) as (e & s' & G' & E & Hs & v & Hv & ->).
  - apply H; eauto.
  - destruct (val_of K C HF _ _ _ _ Hs) as [Ev Ho]; exists e, s'; split; [exact E|split; [exact Ho|split; [apply (fresh_of K C HF _ _ _ _ Hs)|]]].
    split; [rewrite Ev; exact Hv|eapply frame_nil; exact Hs].
Qed.

(** ** Exported methods *)
From Verif Require Import BNHeapTower BNHeapCurve BNHeapPair BNHeapFinal BNHeapApi.
Definition restr {O V} (K : kind O V) (s : store) (e : option O) : cells :=
  match e with Some o => rest s (locs K o) | None => rest s [] end.
Section Exported.
Context {O V : Type} (K : kind O V) (C : O -> V -> cells) (HF : fits K C).
Lemma recv_of s e v0 : good s -> receiver K s e -> recv C v0 e (content K s e v0) (rest s []) (restr K s e).
Proof. intros Hg Hr; destruct e as [o|]; cbn [recv content restr receiver] in *; [apply (split_obj K C HF); assumption|auto]. Qed.
Lemma opnd'_of s e v0 a : object K s a -> receiver_same_or_apart K e a ->
  opnd' C e (content K s e v0) (restr K s e) a (val K (mem s) a).
Proof.
  intros Ha Hs; destruct e as [o|]; cbn [receiver_same_or_apart restr content] in *.
  - destruct Hs as [->|Hs]; [left; auto|right; apply (incl_apart K C HF); assumption].
  - right; apply (incl_apart K C HF); [assumption|intros ? []].
Qed.
Lemma incl_of s e a : object K s a -> receiver_apart K e a -> incl (C a (val K (mem s) a)) (restr K s e).
Proof.
  intros Ha Hs; destruct e as [o|]; cbn [receiver_apart restr] in *; apply (incl_apart K C HF); try assumption; intros ? [].
Qed.
Lemma returns_of s e v (m : prog O) : good s -> no_pool s ->
  (forall Q : O -> cells -> Prop, (forall p, match e with Some o => p = o | None => True end -> Q p (C p v ++ restr K s e)) -> wpn m Q (rest s [])) ->
  returns K m s e v.
Proof.
  intros Hg Hn H.
  destruct (H (fun p G => match e with Some o => p = o | None => True end /\ G = C p v ++ restr K s e)) with (s := s)
    as (p & s' & G' & E & Hp & _ & Hs & Hpe & ->); [auto|exact Hn|apply holds_all, Hg|].
  destruct (val_of K C HF _ _ _ _ Hs) as [Ev Ho].
  exists p, s'; split; [exact E|split; [exact Ev|split; [exact Ho|split; [exact Hp|]]]].
  destruct e as [o|]; cbn [restr] in Hs.
  - subst p; split; [reflexivity|apply (frame_of K C HF _ _ _ _ Hs)].
  - split; [apply (fresh_of K C HF _ _ _ _ Hs)|eapply frame_nil; exact Hs].
Qed.
End Exported.
