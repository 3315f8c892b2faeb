(** * Primality certificates (Pocklington), checked with integer arithmetic only. *)
From Coq Require Import ZArith Znumtheory Zpow_facts Lia List Bool.
From mathcomp Require Import all_ssreflect all_algebra finfield.
From Verif Require Import Fp.
Set Implicit Arguments.
Unset Strict Implicit.
Unset Printing Implicit Defensive.
Import GRing.Theory.
Delimit Scope Z_scope with Z.
Local Open Scope Z_scope.

(** x^e reduced mod N with the quotients supplied *)
Fixpoint pw (N b : Z) (e : positive) (hs : list Z) : Z * list Z :=
  match e with
  | xH => (b, hs)
  | xO e' => let '(x, hs) := pw N b e' hs in
             match hs with
             | cons q hs' => (x * x - q * N, hs')
             | nil => (x * x, nil)
             end
  | xI e' => let '(x, hs) := pw N b e' hs in
             match hs with
             | cons q (cons q' hs') => ((x * x - q * N) * b - q' * N, hs')
             | _ => (x * x * b, nil)
             end
  end.

Definition cong (N a b : Z) := exists k, a = b + k * N.
Lemma cong_mul N a b c d : cong N a b -> cong N c d -> cong N (a * c) (b * d).
Proof. move=> [k ->] [l ->]. exists (b * l + k * d + k * l * N). ring. Qed.
Lemma cong_sub N a b q : cong N a b -> cong N (a - q * N) b.
Proof. move=> [k ->]. exists (k - q). ring. Qed.
Lemma cong_refl N a : cong N a a. Proof. exists 0. ring. Qed.

Lemma pw_ok N b e hs : cong N (pw N b e hs).1 (b ^ Zpos e).
Proof.
have R x := cong_refl N x.
elim: e hs => [e IH|e IH|] hs.
- have -> : b ^ Zpos e~1 = b ^ Zpos e * b ^ Zpos e * b.
    by rewrite Pos2Z.inj_xI Z.pow_add_r ?Z.pow_twice_r ?Z.pow_1_r.
  move: (b ^ Zpos e) (IH hs) => w {IH} /=. case: (pw N b e hs) => x [|q [|q' hs']] /= H.
  all: repeat (apply: cong_mul || apply: cong_sub || exact: R || exact: H).
- have -> : b ^ Zpos e~0 = b ^ Zpos e * b ^ Zpos e.
    by rewrite Pos2Z.inj_xO ?Z.pow_twice_r.
  move: (b ^ Zpos e) (IH hs) => w {IH} /=. case: (pw N b e hs) => x [|q hs'] /= H.
  all: repeat (apply: cong_mul || apply: cong_sub || exact: R || exact: H).
- rewrite Z.pow_1_r. exact: R.
Qed.

Lemma pock_step N q b u p : (1 < N)%Z -> Znumtheory.prime q -> Znumtheory.prime p -> (p | N) ->
  cong N (b ^ q) 1 -> cong N (u * (b - 1)) 1 -> (q | p - 1).
Proof.
move=> N1 hq hp pN [k E] [l U].
have q2 := prime_ge_2 _ hq. have p2 := prime_ge_2 _ hp.
set c := phi p b.
have N0 : phi p N = 0%R. by apply/(phi_eq0 hp); apply: Zdivide_mod.
have cq : (c ^+ (Z.to_nat q) = 1)%R.
  by rewrite -phi_powZ ?E ?phi_add ?phi_mul ?N0 ?mulr0 ?addr0 ?phi1 //; lia.
have c1 : (c <> 1)%R.
  move=> H. have : phi p (u * (b - 1)) = 1%R by rewrite U phi_add // phi_mul // N0 mulr0 addr0 phi1.
  rewrite phi_mul // phi_sub // -/c H phi1 // subrr mulr0 => /eqP. by rewrite eq_sym oner_eq0.
have c0 : (c != 0)%R.
  apply/eqP => H. move: cq. rewrite H expr0n. case: eqP => [|_ /eqP]; first by lia.
  by rewrite eq_sym oner_eq0.
have cp : (c ^+ (Z.to_nat p).-1 = 1)%R.
  apply: (mulfI c0). rewrite -exprS mulr1 prednK; last by apply/ltP; lia.
  have := expf_card c. by rewrite (card_F hp).
have : (Z.to_nat q %| (Z.to_nat p).-1)%N.
  apply/negPn/negP => nd.
  have cop : coprime (Z.to_nat q) (Z.to_nat p).-1 by rewrite prime_coprime // (prime_Z_nat hq).
  apply: c1. have qp : (0 < Z.to_nat q)%N by apply/ltP; lia.
  case: (egcdnP (Z.to_nat p).-1 qp) => kq kp e _.
  have : (c ^+ (kq * Z.to_nat q) = c ^+ (kp * (Z.to_nat p).-1 + gcdn (Z.to_nat q) (Z.to_nat p).-1))%R by rewrite e.
  rewrite (eqP cop) exprD mulnC exprM cq expr1n mulnC exprM cp expr1n mul1r expr1. by move=> <-.
move/dvdnZ. rewrite Z2Nat.id; last by lia.
have -> : Z.of_nat (Z.to_nat p).-1 = p - 1 by lia. by [].
Qed.

(** a number all of whose prime divisors exceed its square root is prime *)
Lemma prime_by_sqrt N : (1 < N)%Z ->
  (forall p, Znumtheory.prime p -> (p | N) -> (N < p * p)%Z) -> Znumtheory.prime N.
Proof.
move=> N1 H.
have n1 : (1 < Z.to_nat N)%N by apply/ltP; lia.
have pd := pdiv_prime n1. have dd := pdiv_dvd (Z.to_nat N).
have hp : Znumtheory.prime (Z.of_nat (pdiv (Z.to_nat N))) by apply: prime_nat_Z.
have dN : (Z.of_nat (pdiv (Z.to_nat N)) | N) by move/dvdnZ: dd; rewrite Z2Nat.id //; lia.
have L := H _ hp dN.
have : prime.prime (Z.to_nat N).
  apply/negPn/negP => np. have := ltn_pdiv2_prime (ltnW n1) => /(_ _) K.
  have : (pdiv (Z.to_nat N) ^ 2 <= Z.to_nat N)%N.
    rewrite leqNgt. apply/negP => /K. by rewrite (negbTE np).
  move/leP. rewrite expnS expn1 -multE. lia.
move/prime_nat_Z. rewrite Z2Nat.id //. lia.
Qed.

(** one entry of a certificate: q, b, an inverse of b-1 and quotients *)
Record entry : Type := Entry { eq_ : Z; eb : Z; eu : Z; ehs : list Z }.
Definition entry_ok (N : Z) (t : entry) : bool :=
  match eq_ t with Zpos e => (pw N (eb t) e (ehs t)).1 =? 1 | _ => false end
  && ((eu t * (eb t - 1) - 1) mod N =? 0).

Lemma entry_dvd N t p : (1 < N)%Z -> entry_ok N t -> Znumtheory.prime (eq_ t) ->
  Znumtheory.prime p -> (p | N) -> (eq_ t | p - 1).
Proof.
move=> N1 /andP []. case: t => q b u hs /=. case: q => // e /Z.eqb_eq E /Z.eqb_eq U hq hp pN.
apply: (@pock_step N _ b u) => //.
- have := pw_ok N b e hs. rewrite E => -[k Hk]. exists (- k). lia.
- move/Z.mod_divide: U => [|k Hk]; first by lia. exists k. lia.
Qed.

Definition prodq (l : list entry) : Z := fold_right (fun t a => eq_ t * a) 1 l.

Fixpoint primes_of (l : list entry) : Prop :=
  match l with nil => True | cons t l' => Znumtheory.prime (eq_ t) /\ primes_of l' end.
Definition fresh (q : Z) (l : list entry) : bool := forallb (fun t => ~~ (eq_ t =? q)) l.
Fixpoint distinct (l : list entry) : bool :=
  match l with nil => true | cons t l' => fresh (eq_ t) l' && distinct l' end.

Lemma fresh_rp q l : Znumtheory.prime q -> primes_of l -> fresh q l -> rel_prime (prodq l) q.
Proof.
move=> hq. elim: l => [|t l IH] /=; first by move=> _ _; apply: rel_prime_1.
move=> [ht hl] /andP [/negP ne fr]. apply: rel_prime_sym. apply: rel_prime_mult.
- apply: prime_rel_prime => // D. apply: ne. apply/Z.eqb_eq.
  by rewrite (prime_div_prime _ _ hq ht D).
- apply: rel_prime_sym. exact: IH.
Qed.

Lemma prod_dvd N l p : (1 < N)%Z -> all (entry_ok N) l -> primes_of l -> distinct l ->
  Znumtheory.prime p -> (p | N) -> (prodq l | p - 1).
Proof.
move=> N1 + + + hp pN. elim: l => [|t l IH] /=; first by move=> *; exists (p - 1); ring.
move=> /andP [ok okl] [ht hl] /andP [fr ds].
have D1 := entry_dvd N1 ok ht hp pN. have D2 := IH okl hl ds.
have rp := fresh_rp ht hl fr.
case: D1 => k Hk. case: D2 => m Hm.
have : (prodq l | k).
  apply: (Gauss _ (eq_ t)); last exact: rp. exists m. lia.
case=> m' Hm'. exists m'. rewrite Hk Hm'. ring.
Qed.

Lemma pock N l : (1 < N)%Z -> primes_of l -> distinct l && (N <? prodq l * prodq l) = true ->
  all (entry_ok N) l = true -> Znumtheory.prime N.
Proof.
move=> N1 hl /andP [ds /Z.ltb_lt B] ok. apply: prime_by_sqrt => // p hp pN.
have := prod_dvd N1 ok hl ds hp pN. have p2 := prime_ge_2 _ hp.
have pos : (0 < prodq l)%Z.
  elim: {B ok ds} l hl => [|t l IH] //= [ht hl]. have := prime_ge_2 _ ht. have := IH hl. nia.
move/Z.divide_pos_le. nia.
Qed.

(** small primes, by trial division *)
Fixpoint tdiv (n d : Z) (k : nat) : bool :=
  match k with
  | O => false
  | S k' => if n <? d * d then true else if n mod d =? 0 then false else tdiv n (d + 1) k'
  end.
Lemma tdiv_ok n d k : (1 < n)%Z -> (2 <= d)%Z -> (forall c, 2 <= c < d -> ~ (c | n)) -> tdiv n d k = true -> Znumtheory.prime n.
Proof.
move=> n1. elim: k d => [|k IH] d d2 H //=.
case: Z.ltb_spec => L.
  move=> _. apply: prime_by_sqrt => // p hp pn.
  have p2 := prime_ge_2 _ hp.
  case: (Z.lt_ge_cases p d) => [pd|pd]; first by case: (H p) => //; lia.
  nia.
case: Z.eqb_spec => // M. apply: IH; first by lia.
move=> c Hc. case: (Z.eq_dec c d) => [->|ne]; last by apply: H; lia.
by move/Zdivide_mod.
Qed.
Lemma tdiv_prime n k : (1 < n)%Z -> tdiv n 2 k = true -> Znumtheory.prime n.
Proof. move=> n1. apply: tdiv_ok => //; lia. Qed.
