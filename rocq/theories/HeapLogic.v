(** * A small separation logic for the programs of BNHeap.v

    An assertion is a list of (address, content) pairs: the cells it names are
    pairwise different, allocated, not in the pool, and have these contents. *)
From Coq Require Import ZArith List Bool Arith Lia Permutation.
From Verif Require Import Base BB BN256 BNHeap.
Import ListNotations.
Open Scope Z_scope.

Definition cells := list (loc * Z).
Definition bns (s : store) : list loc := match pool s with Some l => l | None => [] end.
(** the pool holds allocated cells, each once *)
Definition pool_ok (s : store) : Prop := NoDup (bns s) /\ forall l, In l (bns s) -> (l < next s)%nat.
(** a live cell: allocated and not in the pool *)
Definition live (s : store) (l : loc) : Prop := (l < next s)%nat /\ ~ In l (bns s).
Definition holds (s : store) (G : cells) : Prop :=
  pool_ok s /\ NoDup (map fst G) /\ forall l v, In (l, v) G -> live s l /\ mem s l = v.

Definition wp {A} (m : prog A) (Q : A -> cells -> Prop) (G : cells) : Prop :=
  forall s, holds s G -> exists r s' G', m s = Some (r, s') /\ holds s' G' /\ Q r G'.

Lemma holds_perm s G G' : Permutation G G' -> holds s G -> holds s G'.
Proof.
  intros HP (H1 & H2 & H3); split; [exact H1|split].
  - eapply Permutation_NoDup; [apply Permutation_map; exact HP|exact H2].
  - intros l v Hi; apply H3; eapply Permutation_in; [symmetry; exact HP|exact Hi].
Qed.
Lemma holds_drop s X G : holds s (X ++ G) -> holds s G.
Proof.
  intros (H1 & H2 & H3); split; [exact H1|split].
  - rewrite map_app in H2; clear -H2; induction (map fst X) as [|x xs IH]; [exact H2|].
    apply IH; inversion H2; assumption.
  - intros l v Hi; apply H3; apply in_or_app; right; exact Hi.
Qed.
Lemma holds_read s G l v : holds s G -> In (l, v) G -> mem s l = v.
Proof. intros (_ & _ & H3) Hi; apply (H3 l v Hi). Qed.

Lemma wp_perm {A} (m : prog A) Q G G' : Permutation G G' -> wp m Q G' -> wp m Q G.
Proof. intros HP H s Hs; apply H; eapply holds_perm; [exact HP|exact Hs]. Qed.
Lemma wp_drop {A} (m : prog A) Q G X G' : Permutation G (X ++ G') -> wp m Q G' -> wp m Q G.
Proof. intros HP H s Hs; apply H; eapply holds_drop, holds_perm; [exact HP|exact Hs]. Qed.
Lemma wp_ret {A} (a : A) (Q : A -> cells -> Prop) G G' : Permutation G G' -> Q a G' -> wp (mret a) Q G.
Proof. intros HP H s Hs; exists a, s, G'; split; [reflexivity|split; [eapply holds_perm; eassumption|exact H]]. Qed.
Lemma wp_bind {A B} (m : prog A) (k : A -> prog B) Q G :
  wp m (fun r G' => wp (k r) Q G') G -> wp (mbind m k) Q G.
Proof.
  intros H s Hs; destruct (H s Hs) as (r & s' & G' & E & Hs' & HQ).
  destruct (HQ s' Hs') as (r2 & s2 & G2 & E2 & Hs2 & HQ2).
  exists r2, s2, G2; unfold mbind; rewrite E; auto.
Qed.
Lemma wp_conseq {A} (m : prog A) (Q Q' : A -> cells -> Prop) G :
  (forall r G', Q r G' -> Q' r G') -> wp m Q G -> wp m Q' G.
Proof. intros H Hm s Hs; destruct (Hm s Hs) as (r & s' & G' & E & Hs' & HQ); exists r, s', G'; auto. Qed.
(** a postcondition up to the order of the cells *)
Lemma wp_tail {A} (m : prog A) (Q : A -> cells -> Prop) G :
  wp m (fun r G' => exists G2, Permutation G' G2 /\ Q r G2) G -> wp m Q G.
Proof.
  intros H s Hs; destruct (H s Hs) as (r & s' & G' & E & Hs' & G2 & HP & HQ).
  exists r, s', G2; split; [exact E|split; [eapply holds_perm; eassumption|exact HQ]].
Qed.

Definition mem_val (G : cells) (l : loc) (v : Z) : Prop := In (l, v) G.
Lemma wp_rd l v (Q : Z -> cells -> Prop) G : In (l, v) G -> Q v G -> wp (rd l) Q G.
Proof. intros Hi HQ s Hs; exists v, s, G; unfold rd; rewrite (holds_read _ _ _ _ Hs Hi); auto. Qed.
Lemma wp_wr l u v (Q : unit -> cells -> Prop) (G : cells) G' : Permutation G ((l, u) :: G') -> Q tt ((l, v) :: G') -> wp (wr l v) Q G.
Proof.
  intros HP HQ s Hs; apply (holds_perm _ _ _ HP) in Hs; destruct Hs as (H1 & H2 & H3).
  eexists tt, _, ((l, v) :: G'); split; [reflexivity|split; [|exact HQ]].
  split; [exact H1|split; [exact H2|]].
  assert (Hl : live s l) by (apply (H3 l u); left; reflexivity).
  intros l' v' Hi; cbn [mem].
  inversion H2 as [|? ? Hn _]; subst; cbn [fst] in Hn.
  destruct Hi as [Hi|Hi].
  - injection Hi as <- <-; split; [exact Hl|unfold upd; rewrite Nat.eqb_refl; reflexivity].
  - destruct (H3 l' v' (or_intror Hi)) as [Ha Hb]; split; [exact Ha|].
    unfold upd; destruct (Nat.eqb_spec l' l) as [->|_]; [|exact Hb].
    exfalso; apply Hn, (in_map fst _ _ Hi).
Qed.

Lemma wp_Get (Q : loc -> cells -> Prop) (G : cells) : (forall l v, Q l ((l, v) :: G)) -> wp hGet Q G.
Proof.
  intros HQ s (H1 & H2 & H3).
  assert (Hnew : ~ In (next s) (map fst G)).
  { intros Hi; apply in_map_iff in Hi; destruct Hi as ([l v] & E & Hi); cbn in E; subst.
    destruct (H3 _ _ Hi) as [[Hl _] _]; lia. }
  assert (Hfresh : forall p c, (p = None \/ p = Some []) -> bns s = [] ->
     holds (Store (upd (mem s) (next s) 0) (S (next s)) p c) ((next s, 0) :: G)).
  { intros p c Hp Hb; assert (Hb2 : bns (Store (upd (mem s) (next s) 0) (S (next s)) p c) = []).
    { unfold bns; cbn; destruct Hp as [->| ->]; reflexivity. }
    split; [|split].
    - split; rewrite Hb2; [constructor|intros ? []].
    - cbn; constructor; assumption.
    - intros l v [Hi|Hi]; unfold live; rewrite Hb2; cbn [mem next].
      + injection Hi as <- <-; split; [split; [lia|intros []]|unfold upd; rewrite Nat.eqb_refl; reflexivity].
      + destruct (H3 _ _ Hi) as [[Hl _] Hm]; split; [split; [lia|intros []]|].
        unfold upd; destruct (Nat.eqb_spec l (next s)) as [->|_]; [lia|exact Hm]. }
  unfold hGet; destruct (pool s) as [[|l bs]|] eqn:Ep.
  - eexists _, _, _; split; [reflexivity|split; [|apply HQ]].
    apply Hfresh; [right; reflexivity|unfold bns; rewrite Ep; reflexivity].
  - eexists _, _, ((l, mem s l) :: G); split; [reflexivity|split; [|apply HQ]].
    unfold holds, pool_ok, live, bns in *; rewrite Ep in *; cbn [pool next mem].
    destruct H1 as [Hnd Hlt]; inversion Hnd as [|? ? Hn Hnd']; subst.
    split; [split; [exact Hnd'|intros l' Hi; apply Hlt; right; exact Hi]|split].
    + cbn; constructor; [|exact H2].
      intros Hi; apply in_map_iff in Hi; destruct Hi as ([l' v'] & E & Hi); cbn in E; subst.
      destruct (H3 _ _ Hi) as [[_ Hl] _]; apply Hl; left; reflexivity.
    + intros l' v' [Hi|Hi].
      * injection Hi as <- <-; split; [split; [apply Hlt; left; reflexivity|exact Hn]|reflexivity].
      * destruct (H3 _ _ Hi) as [[Hl Hl2] Hm]; split; [split; [exact Hl|intros X; apply Hl2; right; exact X]|exact Hm].
  - eexists _, _, _; split; [reflexivity|split; [|apply HQ]].
    apply Hfresh; [left; reflexivity|unfold bns; rewrite Ep; reflexivity].
Qed.
Lemma wp_Put l v (Q : unit -> cells -> Prop) (G : cells) G' : Permutation G ((l, v) :: G') -> Q tt G' -> wp (hPut l) Q G.
Proof.
  intros HP HQ s Hs; apply (holds_perm _ _ _ HP) in Hs; destruct Hs as (H1 & H2 & H3).
  inversion H2 as [|? ? Hn H2']; subst; cbn [fst] in Hn.
  unfold hPut; destruct (pool s) as [bs|] eqn:Ep; eexists tt, _, G'; (split; [reflexivity|split; [|exact HQ]]).
  - unfold holds, pool_ok, live, bns in *; rewrite Ep in *; cbn [pool next mem].
    destruct H1 as [Hnd Hlt]; destruct (H3 l v (or_introl eq_refl)) as [[Ha Hb] _].
    split; [split; [constructor; assumption|intros l' [<-|Hi]; [exact Ha|apply Hlt; exact Hi]]|split; [exact H2'|]].
    intros l' v' Hi; destruct (H3 l' v' (or_intror Hi)) as [[Hc Hd] He]; split; [split; [exact Hc|]|exact He].
    intros [<-|X]; [apply Hn, (in_map fst _ _ Hi)|exact (Hd X)].
  - split; [exact H1|split; [exact H2'|intros l' v' Hi; apply H3; right; exact Hi]].
Qed.

(** a call with a pool of its own, from a caller without pool *)
Lemma holds_nil_pool s p c G : pool s = None -> (p = None \/ p = Some []) -> holds s G ->
  holds (Store (mem s) (next s) p c) G.
Proof.
  intros Hp Hq (H1 & H2 & H3); unfold holds, pool_ok, live, bns in *; rewrite Hp in *; cbn [pool next mem].
  assert (E : match p with Some l => l | None => [] end = []) by (destruct Hq as [->| ->]; reflexivity).
  rewrite E; auto.
Qed.
(** the same, for programs which run without a pool (the exported functions) *)
Definition wpn {A} (m : prog A) (Q : A -> cells -> Prop) (G : cells) : Prop :=
  forall s, pool s = None -> holds s G ->
  exists r s' G', m s = Some (r, s') /\ pool s' = None /\ count s' = count s /\ holds s' G' /\ Q r G'.
Lemma holds_no_pool s p c G : holds s G -> p = None -> holds (Store (mem s) (next s) p c) G.
Proof.
  intros (H1 & H2 & H3) ->; unfold holds, pool_ok, live, bns in *; cbn [pool next mem].
  split; [split; [constructor|intros ? []]|split; [exact H2|]].
  intros l v Hi; destruct (H3 l v Hi) as [[Ha _] Hb]; split; [split; [exact Ha|intros []]|exact Hb].
Qed.
Lemma wpn_new_pool {A} (m : prog A) Q G : wp m Q G -> wpn (with_new_pool m) Q G.
Proof.
  intros H s Hp Hs; destruct (H (Store (mem s) (next s) (Some []) 0)) as (r & s' & G' & E & Hs' & HQ).
  { apply holds_nil_pool; auto. }
  eexists r, _, G'; unfold with_new_pool; rewrite E; split; [reflexivity|]; cbn [pool count].
  split; [exact Hp|]; split; [reflexivity|]; split; [apply holds_no_pool; auto|exact HQ].
Qed.
Lemma wpn_nil_pool {A} (m : prog A) Q G : wp m Q G -> wpn (with_nil_pool m) Q G.
Proof.
  intros H s Hp Hs; destruct (H (Store (mem s) (next s) None 0)) as (r & s' & G' & E & Hs' & HQ).
  { apply holds_nil_pool; auto. }
  eexists r, _, G'; unfold with_nil_pool; rewrite E; split; [reflexivity|]; cbn [pool count].
  split; [exact Hp|]; split; [reflexivity|]; split; [apply holds_no_pool; auto|exact HQ].
Qed.
Lemma wpn_bind {A B} (m : prog A) (k : A -> prog B) Q G :
  wpn m (fun r G' => wpn (k r) Q G') G -> wpn (mbind m k) Q G.
Proof.
  intros H s Hp Hs; destruct (H s Hp Hs) as (r & s' & G' & E & Hp' & Hc & Hs' & HQ).
  destruct (HQ s' Hp' Hs') as (r2 & s2 & G2 & E2 & Hp2 & Hc2 & Hs2 & HQ2).
  exists r2, s2, G2; unfold mbind; rewrite E; rewrite Hc2; auto.
Qed.
Lemma wpn_ret {A} (a : A) (Q : A -> cells -> Prop) G G' : Permutation G G' -> Q a G' -> wpn (mret a) Q G.
Proof.
  intros HP H s Hp Hs; exists a, s, G'; split; [reflexivity|]; split; [exact Hp|].
  split; [reflexivity|split; [eapply holds_perm; eassumption|exact H]].
Qed.
Lemma wpn_perm {A} (m : prog A) Q G G' : Permutation G G' -> wpn m Q G' -> wpn m Q G.
Proof. intros HP H s Hp Hs; apply H; [exact Hp|eapply holds_perm; [exact HP|exact Hs]]. Qed.
Lemma wpn_conseq {A} (m : prog A) (Q Q' : A -> cells -> Prop) G :
  (forall r G', Q r G' -> Q' r G') -> wpn m Q G -> wpn m Q' G.
Proof. intros H Hm s Hp Hs; destruct (Hm s Hp Hs) as (r & s' & G' & E & Hp' & Hc & Hs' & HQ); exists r, s', G'; auto 7. Qed.

(** ** Leaving cells behind *)
Lemma wp_tail_drop {A} (m : prog A) (Q : A -> cells -> Prop) G :
  wp m (fun r G' => exists G2 X, Permutation G' (G2 ++ X) /\ Q r G2) G -> wp m Q G.
Proof.
  intros H s Hs; destruct (H s Hs) as (r & s' & G' & E & Hs' & G2 & X & HP & HQ).
  exists r, s', G2; split; [exact E|split; [|exact HQ]].
  apply (holds_drop s' X), (holds_perm s' G'); [rewrite HP; apply Permutation_app_comm|exact Hs'].
Qed.
Lemma pm_last {A} (X : list A) : Permutation X (X ++ []).
Proof. rewrite app_nil_r; reflexivity. Qed.

(** ** Programs started with no pool or an empty one: integers obtained from it are new *)
Definition wpe {A} (m : prog A) (Q : A -> cells -> Prop) (G : cells) : Prop :=
  forall s, bns s = [] -> holds s G -> exists r s' G', m s = Some (r, s') /\ holds s' G' /\ Q r G'.
Lemma wpe_wp {A} (m : prog A) Q G : wp m Q G -> wpe m Q G.
Proof. intros H s _; apply H. Qed.
Lemma wpe_perm {A} (m : prog A) Q G G' : Permutation G G' -> wpe m Q G' -> wpe m Q G.
Proof. intros HP H s Hb Hs; apply H; [exact Hb|eapply holds_perm; [exact HP|exact Hs]]. Qed.
Lemma wpe_tail_drop {A} (m : prog A) (Q : A -> cells -> Prop) G :
  wpe m (fun r G' => exists G2 X, Permutation G' (G2 ++ X) /\ Q r G2) G -> wpe m Q G.
Proof.
  intros H s Hb Hs; destruct (H s Hb Hs) as (r & s' & G' & E & Hs' & G2 & X & HP & HQ).
  exists r, s', G2; split; [exact E|split; [|exact HQ]].
  apply (holds_drop s' X), (holds_perm s' G'); [rewrite HP; apply Permutation_app_comm|exact Hs'].
Qed.
Lemma wpe_Get {B} (k : loc -> prog B) Q G :
  (forall l, wpe (k l) Q ((l, 0) :: G)) -> wpe (mbind hGet k) Q G.
Proof.
  intros H s Hb Hs.
  assert (E : exists p c, hGet s = Some (next s, Store (upd (mem s) (next s) 0) (S (next s)) p c) /\ (p = None \/ p = Some [])).
  { unfold hGet, bns in *; destruct (pool s) as [[|l bs]|]; [|discriminate|]; eexists _, _; split; try reflexivity; auto. }
  destruct E as (p & c & E & Hp).
  destruct Hs as (H1 & H2 & H3).
  destruct (H (next s) (Store (upd (mem s) (next s) 0) (S (next s)) p c)) as (r & s' & G' & E' & HQ).
  - unfold bns; cbn; destruct Hp as [->| ->]; reflexivity.
  - assert (Hb2 : bns (Store (upd (mem s) (next s) 0) (S (next s)) p c) = []).
    { unfold bns; cbn; destruct Hp as [->| ->]; reflexivity. }
    split; [|split].
    + split; rewrite Hb2; [constructor|intros ? []].
    + cbn; constructor; [|exact H2].
      intros Hi; apply in_map_iff in Hi; destruct Hi as ([l v] & El & Hi); cbn in El; subst.
      destruct (H3 _ _ Hi) as [[Hl _] _]; lia.
    + intros l v [Hi|Hi]; unfold live; rewrite Hb2; cbn [mem next].
      * injection Hi as <- <-; split; [split; [lia|intros []]|unfold upd; rewrite Nat.eqb_refl; reflexivity].
      * destruct (H3 _ _ Hi) as [[Hl _] Hm]; split; [split; [lia|intros []]|].
        unfold upd; destruct (Nat.eqb_spec l (next s)) as [->|_]; [lia|exact Hm].
  - exists r, s', G'; unfold mbind; rewrite E; auto.
Qed.
Lemma wpe_bind_wr {B} (l : loc) u v (k : unit -> prog B) Q G G' :
  Permutation G ((l, u) :: G') -> wpe (k tt) Q ((l, v) :: G') -> wpe (mbind (wr l v) k) Q G.
Proof.
  intros HP H s Hb Hs.
  destruct (wp_wr l u v (fun _ G2 => G2 = (l, v) :: G') G G' HP eq_refl s Hs) as (r & s' & G2 & E & Hs' & ->).
  assert (Hb' : bns s' = []) by (unfold wr in E; injection E as _ <-; exact Hb).
  destruct r; destruct (H s' Hb' Hs') as (r2 & s2 & G3 & E2 & HQ).
  exists r2, s2, G3; unfold mbind; rewrite E; auto.
Qed.
Lemma mbind_assoc {A B C} (m : prog A) (f : A -> prog B) (g : B -> prog C) s :
  mbind (mbind m f) g s = mbind m (fun a => mbind (f a) g) s.
Proof. unfold mbind; destruct (m s) as [[? ?]|]; reflexivity. Qed.
Lemma wpe_assoc {A B C} (m : prog A) (f : A -> prog B) (g : B -> prog C) Q G :
  wpe (mbind m (fun a => mbind (f a) g)) Q G -> wpe (mbind (mbind m f) g) Q G.
Proof. intros H s Hb Hs; rewrite mbind_assoc; apply H; assumption. Qed.
Lemma wpe_ret_bind {A B} (a : A) (g : A -> prog B) Q G : wpe (g a) Q G -> wpe (mbind (mret a) g) Q G.
Proof. intros H s Hb Hs; apply H; assumption. Qed.
Lemma wpe_ret {A} (a : A) (Q : A -> cells -> Prop) G : Q a G -> wpe (mret a) Q G.
Proof. intros H; apply wpe_wp; eapply wp_ret; [apply Permutation_refl|exact H]. Qed.

(** ** Programs that panic *)
Definition pan {A} (m : prog A) (G : cells) : Prop := forall s, holds s G -> m s = None.
Lemma pan_perm {A} (m : prog A) G G' : Permutation G G' -> pan m G' -> pan m G.
Proof. intros HP H s Hs; apply H; eapply holds_perm; [exact HP|exact Hs]. Qed.
Lemma pan_panic {A} G : pan (@mpanic A) G.
Proof. intros s _; reflexivity. Qed.
Lemma pan_bind {A B} (m : prog A) (k : A -> prog B) G : wp m (fun r G' => pan (k r) G') G -> pan (mbind m k) G.
Proof.
  intros H s Hs; destruct (H s Hs) as (r & s' & G' & E & Hs' & HQ); unfold mbind; rewrite E; apply HQ, Hs'.
Qed.
Lemma pan_left {A B} (m : prog A) (k : A -> prog B) G : pan m G -> pan (mbind m k) G.
Proof. intros H s Hs; unfold mbind; rewrite (H s Hs); reflexivity. Qed.

(** ** Calls with a pool of their own *)
Lemma wpn_new_pool_e {A} (m : prog A) Q G : wpe m Q G -> wpn (with_new_pool m) Q G.
Proof.
  intros H s Hp Hs; destruct (H (Store (mem s) (next s) (Some []) 0)) as (r & s' & G' & E & Hs' & HQ).
  { reflexivity. }
  { apply holds_nil_pool; auto. }
  eexists r, _, G'; unfold with_new_pool; rewrite E; split; [reflexivity|]; cbn [pool count].
  split; [exact Hp|]; split; [reflexivity|]; split; [apply holds_no_pool; auto|exact HQ].
Qed.
Lemma wpn_nil_pool_e {A} (m : prog A) Q G : wpe m Q G -> wpn (with_nil_pool m) Q G.
Proof.
  intros H s Hp Hs; destruct (H (Store (mem s) (next s) None 0)) as (r & s' & G' & E & Hs' & HQ).
  { reflexivity. }
  { apply holds_nil_pool; auto. }
  eexists r, _, G'; unfold with_nil_pool; rewrite E; split; [reflexivity|]; cbn [pool count].
  split; [exact Hp|]; split; [reflexivity|]; split; [apply holds_no_pool; auto|exact HQ].
Qed.
Lemma wpn_tail_drop {A} (m : prog A) (Q : A -> cells -> Prop) G :
  wpn m (fun r G' => exists G2 X, Permutation G' (G2 ++ X) /\ Q r G2) G -> wpn m Q G.
Proof.
  intros H s Hp Hs; destruct (H s Hp Hs) as (r & s' & G' & E & Hp' & Hc & Hs' & G2 & X & HP & HQ).
  exists r, s', G2; split; [exact E|]; split; [exact Hp'|]; split; [exact Hc|]; split; [|exact HQ].
  apply (holds_drop s' X), (holds_perm s' G'); [rewrite HP; apply Permutation_app_comm|exact Hs'].
Qed.

(** ** Chunks: the cells of an object with a given content *)
Definition c1 (l : loc) (v : Z) : cells := [(l, v)].
Definition c2 (e : o2) (v : gfP2) : cells := c1 (p2x e) (c2x v) ++ c1 (p2y e) (c2y v).
Definition c6 (e : o6) (v : gfP6) : cells := c2 (p6x e) (c6x v) ++ c2 (p6y e) (c6y v) ++ c2 (p6z e) (c6z v).
Definition c12 (e : o12) (v : gfP12) : cells := c6 (p12x e) (c12x v) ++ c6 (p12y e) (c12y v).
Definition ccp (e : ocp) (v : curvePoint) : cells :=
  c1 (pcx e) (cpx v) ++ c1 (pcy e) (cpy v) ++ c1 (pcz e) (cpz v) ++ c1 (pct e) (cpt v).
Definition ctp (e : otp) (v : twistPoint) : cells :=
  c2 (ptx e) (tpx v) ++ c2 (pty e) (tpy v) ++ c2 (ptz e) (tpz v) ++ c2 (ptt e) (tpt v).
(** the package variables *)
Definition cglob : cells :=
  c2 gl_xi6 xiToPMinus1Over6 ++ c2 gl_xi3 xiToPMinus1Over3 ++ c2 gl_xi2 xiToPMinus1Over2 ++
  c2 gl_xi23 xiTo2PMinus2Over3 ++ c1 gl_s3 xiToPSquaredMinus1Over3 ++ c1 gl_2s3 xiTo2PSquaredMinus2Over3 ++
  c1 gl_s6 xiToPSquaredMinus1Over6 ++ c2 gl_twistB twistB ++ ctp gl_twistGen twistGen ++ ccp gl_curveGen curveGen.
(** an operand: the receiver itself, or an object in the remaining cells *)
Definition opnd {O V} (C : O -> V -> cells) (e : O) (ve : V) (G : cells) (a : O) (va : V) : Prop :=
  (a = e /\ va = ve) \/ incl (C a va) G.

Lemma c2_open e v G : c2 e v ++ G = c1 (p2x e) (c2x v) ++ c1 (p2y e) (c2y v) ++ G.
Proof. reflexivity. Qed.
Lemma c6_open e v G : c6 e v ++ G = c2 (p6x e) (c6x v) ++ c2 (p6y e) (c6y v) ++ c2 (p6z e) (c6z v) ++ G.
Proof. reflexivity. Qed.
Lemma c12_open e v G : c12 e v ++ G = c6 (p12x e) (c12x v) ++ c6 (p12y e) (c12y v) ++ G.
Proof. reflexivity. Qed.
Lemma ccp_open e v G : ccp e v ++ G = c1 (pcx e) (cpx v) ++ c1 (pcy e) (cpy v) ++ c1 (pcz e) (cpz v) ++ c1 (pct e) (cpt v) ++ G.
Proof. reflexivity. Qed.
Lemma ctp_open e v G : ctp e v ++ G = c2 (ptx e) (tpx v) ++ c2 (pty e) (tpy v) ++ c2 (ptz e) (tpz v) ++ c2 (ptt e) (tpt v) ++ G.
Proof. reflexivity. Qed.

(** ** Permutation and inclusion of lists made of chunks *)
Lemma pm_here {A} (X G : list A) : Permutation (X ++ G) (X ++ G).
Proof. reflexivity. Qed.
Lemma pm_next {A} (X Y G G' : list A) : Permutation G (X ++ G') -> Permutation (Y ++ G) (X ++ (Y ++ G')).
Proof. intros H; rewrite H, !app_assoc; apply Permutation_app_tail, Permutation_app_comm. Qed.
Lemma pm_trans {A} (X G R T : list A) : Permutation G (X ++ R) -> Permutation R T -> Permutation G (X ++ T).
Proof. intros H1 H2; rewrite H1, H2; reflexivity. Qed.
Lemma incl_here {A} (X G : list A) : incl X (X ++ G).
Proof. apply incl_appl, incl_refl. Qed.
Lemma incl_next {A} (X Y G : list A) : incl X G -> incl X (Y ++ G).
Proof. apply incl_appr. Qed.
Ltac incl_piece := intros H; eapply incl_tran; [|exact H]; intros x Hx; cbn in Hx |- *; intuition (subst; auto 30).
Lemma incl_2x a v G : incl (c2 a v) G -> incl (c1 (p2x a) (c2x v)) G. Proof. incl_piece. Qed.
Lemma incl_2y a v G : incl (c2 a v) G -> incl (c1 (p2y a) (c2y v)) G. Proof. incl_piece. Qed.
Lemma incl_6x a v G : incl (c6 a v) G -> incl (c2 (p6x a) (c6x v)) G. Proof. incl_piece. Qed.
Lemma incl_6y a v G : incl (c6 a v) G -> incl (c2 (p6y a) (c6y v)) G. Proof. incl_piece. Qed.
Lemma incl_6z a v G : incl (c6 a v) G -> incl (c2 (p6z a) (c6z v)) G. Proof. incl_piece. Qed.
Lemma incl_12x a v G : incl (c12 a v) G -> incl (c6 (p12x a) (c12x v)) G. Proof. incl_piece. Qed.
Lemma incl_12y a v G : incl (c12 a v) G -> incl (c6 (p12y a) (c12y v)) G. Proof. incl_piece. Qed.
Lemma incl_cx a v G : incl (ccp a v) G -> incl (c1 (pcx a) (cpx v)) G. Proof. incl_piece. Qed.
Lemma incl_cy a v G : incl (ccp a v) G -> incl (c1 (pcy a) (cpy v)) G. Proof. incl_piece. Qed.
Lemma incl_cz a v G : incl (ccp a v) G -> incl (c1 (pcz a) (cpz v)) G. Proof. incl_piece. Qed.
Lemma incl_ct a v G : incl (ccp a v) G -> incl (c1 (pct a) (cpt v)) G. Proof. incl_piece. Qed.
Lemma incl_tx a v G : incl (ctp a v) G -> incl (c2 (ptx a) (tpx v)) G. Proof. incl_piece. Qed.
Lemma incl_ty a v G : incl (ctp a v) G -> incl (c2 (pty a) (tpy v)) G. Proof. incl_piece. Qed.
Lemma incl_tz a v G : incl (ctp a v) G -> incl (c2 (ptz a) (tpz v)) G. Proof. incl_piece. Qed.
Lemma incl_tt a v G : incl (ctp a v) G -> incl (c2 (ptt a) (tpt v)) G. Proof. incl_piece. Qed.
Ltac glob_piece := intros H; eapply incl_tran; [|exact H]; unfold cglob;
  repeat (first [apply incl_refl | apply incl_here | apply incl_next]).
Lemma incl_xi6 G : incl cglob G -> incl (c2 gl_xi6 xiToPMinus1Over6) G. Proof. glob_piece. Qed.
Lemma incl_xi3 G : incl cglob G -> incl (c2 gl_xi3 xiToPMinus1Over3) G. Proof. glob_piece. Qed.
Lemma incl_xi2 G : incl cglob G -> incl (c2 gl_xi2 xiToPMinus1Over2) G. Proof. glob_piece. Qed.
Lemma incl_xi23 G : incl cglob G -> incl (c2 gl_xi23 xiTo2PMinus2Over3) G. Proof. glob_piece. Qed.
Lemma incl_s3 G : incl cglob G -> incl (c1 gl_s3 xiToPSquaredMinus1Over3) G. Proof. glob_piece. Qed.
Lemma incl_2s3 G : incl cglob G -> incl (c1 gl_2s3 xiTo2PSquaredMinus2Over3) G. Proof. glob_piece. Qed.
Lemma incl_s6 G : incl cglob G -> incl (c1 gl_s6 xiToPSquaredMinus1Over6) G. Proof. glob_piece. Qed.
Lemma incl_twistGen G : incl cglob G -> incl (ctp gl_twistGen twistGen) G. Proof. glob_piece. Qed.
Lemma incl_curveGen G : incl cglob G -> incl (ccp gl_curveGen curveGen) G. Proof. glob_piece. Qed.

(** ** Rules for the operations on integers *)
Lemma incl_In l v G : incl (c1 l v) G -> In (l, v) G.
Proof. intros H; apply H; left; reflexivity. Qed.
Section Rules.
Variable Q : unit -> cells -> Prop.
Variables G G' : cells.
Variables z x y : loc.
Variables vz vx vy : Z.
Hypothesis HP : Permutation G (c1 z vz ++ G').
Hypothesis Hx : incl (c1 x vx) G.
Hypothesis Hy : incl (c1 y vy) G.
Ltac rule HQ := first [apply wp_bind; eapply wp_rd; [apply incl_In; eassumption|]; cbv beta; rule HQ
                      | eapply wp_wr; [exact HP|exact HQ]].
Lemma wp_bSetInt v : Q tt (c1 z v ++ G') -> wp (bSetInt64 z v) Q G.
Proof. intros HQ; unfold bSetInt64; eapply wp_wr; [exact HP|exact HQ]. Qed.
Lemma wp_bSet : Q tt (c1 z vx ++ G') -> wp (bSet z x) Q G.
Proof. intros HQ; unfold bSet; apply wp_bind; eapply wp_rd; [apply incl_In, Hx|]; eapply wp_wr; [exact HP|exact HQ]. Qed.
Lemma wp_bNeg : Q tt (c1 z (- vx) ++ G') -> wp (bNeg z x) Q G.
Proof. intros HQ; unfold bNeg; apply wp_bind; eapply wp_rd; [apply incl_In, Hx|]; eapply wp_wr; [exact HP|exact HQ]. Qed.
Lemma wp_bLsh n : Q tt (c1 z (2 ^ n * vx) ++ G') -> wp (bLsh z x n) Q G.
Proof. intros HQ; unfold bLsh; apply wp_bind; eapply wp_rd; [apply incl_In, Hx|]; eapply wp_wr; [exact HP|exact HQ]. Qed.
Lemma wp_bMod : Q tt (c1 z (bmod vx bn_P) ++ G') -> wp (bMod z x) Q G.
Proof. intros HQ; unfold bMod; apply wp_bind; eapply wp_rd; [apply incl_In, Hx|]; eapply wp_wr; [exact HP|exact HQ]. Qed.
Ltac two HQ := apply wp_bind; eapply wp_rd; [apply incl_In, Hx|]; apply wp_bind; eapply wp_rd; [apply incl_In, Hy|];
  eapply wp_wr; [exact HP|exact HQ].
Lemma wp_bAdd : Q tt (c1 z (vx + vy) ++ G') -> wp (bAdd z x y) Q G.
Proof. intros HQ; unfold bAdd; two HQ. Qed.
Lemma wp_bSub : Q tt (c1 z (vx - vy) ++ G') -> wp (bSub z x y) Q G.
Proof. intros HQ; unfold bSub; two HQ. Qed.
Lemma wp_bMul : Q tt (c1 z (vx * vy) ++ G') -> wp (bMul z x y) Q G.
Proof. intros HQ; unfold bMul; two HQ. Qed.
End Rules.
Lemma wp_bModInverse (Q : bool -> cells -> Prop) G G' z x vz vx :
  Permutation G (c1 z vz ++ G') -> incl (c1 x vx) G ->
  match ModInverse vx bn_P with
  | Some i => Q true (c1 z i ++ G')
  | None => Q false (c1 z vz ++ G')
  end -> wp (bModInverse z x) Q G.
Proof.
  intros HP Hx HQ; unfold bModInverse; apply wp_bind; eapply wp_rd; [apply incl_In, Hx|].
  destruct (ModInverse vx bn_P) as [i|].
  - apply wp_bind; eapply wp_wr; [exact HP|]; eapply wp_ret; [apply Permutation_refl|exact HQ].
  - eapply wp_ret; [exact HP|exact HQ].
Qed.
Lemma wp_read (Q : Z -> cells -> Prop) G x vx : incl (c1 x vx) G -> Q vx G -> wp (rd x) Q G.
Proof. intros Hx; apply wp_rd, incl_In, Hx. Qed.
Lemma wp_GetC (Q : loc -> cells -> Prop) G : (forall l v, Q l (c1 l v ++ G)) -> wp hGet Q G.
Proof. intros H; apply wp_Get; exact H. Qed.
Lemma wp_PutC (Q : unit -> cells -> Prop) G G' l v : Permutation G (c1 l v ++ G') -> Q tt G' -> wp (hPut l) Q G.
Proof. intros HP; apply wp_Put with (v := v); exact HP. Qed.

Lemma wp_mloop (Inv : nat -> cells -> Prop) body n (Q : unit -> cells -> Prop) G :
  Inv n G -> (forall i G', (i < n)%nat -> Inv (S i) G' -> wp (body (Z.of_nat i)) (fun _ G2 => Inv i G2) G') ->
  (forall G', Inv 0%nat G' -> Q tt G') -> wp (mloop body n) Q G.
Proof.
  intros HI Hb HQ; revert G HI; induction n as [|n IH]; intros G HI; cbn [mloop].
  - eapply wp_ret; [apply Permutation_refl|apply HQ, HI].
  - apply wp_bind; eapply wp_conseq; [|apply Hb; [lia|exact HI]].
    intros r G2 H2; apply IH; [|exact H2]. intros i G3 Hi; apply Hb; lia.
Qed.

Lemma wpe_GetC {B} (k : loc -> prog B) Q G :
  (forall l, wpe (k l) Q (c1 l 0 ++ G)) -> wpe (mbind hGet k) Q G.
Proof. exact (wpe_Get k Q G). Qed.
Lemma wpe_SetInt {B} (l : loc) u v (k : unit -> prog B) Q G G' :
  Permutation G (c1 l u ++ G') -> wpe (k tt) Q (c1 l v ++ G') -> wpe (mbind (bSetInt64 l v) k) Q G.
Proof. apply wpe_bind_wr. Qed.

#[global] Opaque c1 c2 c6 c12 ccp ctp cglob.
