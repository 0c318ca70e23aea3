(** Sums over coefficient tables in exact arithmetic, and their derivatives. *)
From Coq Require Import ZArith Reals Lra Lia List Bool.
From Coquelicot Require Import Coquelicot.
From Verif Require Import Py ExactReal.
Import ListNotations.
Open Scope R_scope.

Fixpoint rsum {X} (g : X -> R) (l : list X) : R :=
  match l with [] => 0 | x :: l' => g x + rsum g l' end.

Lemma rsum_ext {X} (f g : X -> R) l : (forall x, f x = g x) -> rsum f l = rsum g l.
Proof. intros H; induction l as [|x l IH]; cbn; [reflexivity | now rewrite H, IH]. Qed.
Lemma rsum_scal {X} c (g : X -> R) l : rsum (fun x => c * g x) l = c * rsum g l.
Proof. induction l as [|x l IH]; cbn; [ring | rewrite IH; ring]. Qed.
Lemma rsum_opp {X} (g : X -> R) l : rsum (fun x => - g x) l = - rsum g l.
Proof. induction l as [|x l IH]; cbn; [ring | rewrite IH; ring]. Qed.

(** ** The [for] loops of the model are sums *)

Lemma for_each_sum1 {X} (body : xr -> X -> res xr) (g : X -> R) l a :
  (forall a x, body (Fin a) x = Ok (Fin (a + g x))) ->
  for_each l (Fin a) body = Ok (Fin (a + rsum g l)).
Proof.
  intros H; revert a; induction l as [|x l IH]; intros a; cbn [for_each rsum].
  - now rewrite Rplus_0_r.
  - rewrite H; cbn [bind]. rewrite IH. do 2 f_equal. ring.
Qed.

Lemma for_each_sum2 {X} (body : xr * xr -> X -> res (xr * xr)) (g1 g2 : X -> R) l a b :
  (forall a b x, body (Fin a, Fin b) x = Ok (Fin (a + g1 x), Fin (b + g2 x))) ->
  for_each l (Fin a, Fin b) body = Ok (Fin (a + rsum g1 l), Fin (b + rsum g2 l)).
Proof.
  intros H; revert a b; induction l as [|x l IH]; intros a b; cbn [for_each rsum].
  - now rewrite !Rplus_0_r.
  - rewrite H; cbn [bind]. rewrite IH. now rewrite !Rplus_assoc.
Qed.

Lemma for_each_sum4 {X} (body : xr * xr * xr * xr -> X -> res (xr * xr * xr * xr))
    (g1 g2 g3 g4 : X -> R) l a b c d :
  (forall a b c d x, body (Fin a, Fin b, Fin c, Fin d) x
     = Ok (Fin (a + g1 x), Fin (b + g2 x), Fin (c + g3 x), Fin (d + g4 x))) ->
  for_each l (Fin a, Fin b, Fin c, Fin d) body
  = Ok (Fin (a + rsum g1 l), Fin (b + rsum g2 l), Fin (c + rsum g3 l), Fin (d + rsum g4 l)).
Proof.
  intros H; revert a b c d; induction l as [|x l IH]; intros a b c d; cbn [for_each rsum].
  - now rewrite !Rplus_0_r.
  - rewrite H; cbn [bind]. rewrite IH. now rewrite !Rplus_assoc.
Qed.

(** ** Terms n a^I b^J and their derivatives *)

(** k (k-1) ... (k-n+1) *)
Fixpoint ff (k : Z) (n : nat) : R :=
  match n with O => 1 | S n' => IZR k * ff (k - 1) n' end.

Lemma ff_S k n : ff k n * IZR (k - Z.of_nat n) = ff k (S n).
Proof.
  revert k; induction n as [|n IH]; intros k.
  - cbn. rewrite Z.sub_0_r. ring.
  - cbn [ff]. rewrite Rmult_assoc. cbn [ff] in IH. rewrite <- IH.
    do 3 f_equal. lia.
Qed.

Definition tm (i j : nat) (a b : R) (x : dec * (Z * Z)) : R :=
  D (fst x) * ff (fst (snd x)) i * ff (snd (snd x)) j
  * powerRZ a (fst (snd x) - Z.of_nat i) * powerRZ b (snd (snd x) - Z.of_nat j).
Definition S2 (tab : list (dec * (Z * Z))) (i j : nat) (a b : R) : R := rsum (tm i j a b) tab.

Definition tm1 (j : nat) (b : R) (x : dec * Z) : R :=
  D (fst x) * ff (snd x) j * powerRZ b (snd x - Z.of_nat j).
Definition S1 (tab : list (dec * Z)) (j : nat) (b : R) : R := rsum (tm1 j b) tab.

Lemma is_derive_powerRZ n x : x <> 0 ->
  is_derive (fun y => powerRZ y n) x (IZR n * powerRZ x (n - 1)).
Proof.
  intros Hx; destruct n as [|q|q].
  - cbn [powerRZ]. replace (0 * _) with 0 by ring. apply (@is_derive_const R_AbsRing).
  - cbn [powerRZ].
    replace (IZR (Z.pos q) * powerRZ x (Z.pos q - 1))
      with (INR (Pos.to_nat q) * 1 * x ^ Nat.pred (Pos.to_nat q)).
    { apply (is_derive_pow (fun y => y) (Pos.to_nat q) x 1). apply (@is_derive_id R_AbsRing). }
    rewrite Rmult_1_r, INR_IZR_INZ, positive_nat_Z. f_equal.
    rewrite pow_powerRZ. f_equal. lia.
  - cbn [powerRZ].
    apply is_derive_ext_loc with (fun y => / y ^ Pos.to_nat q).
    { apply filter_forall. reflexivity. }
    replace (IZR (Z.neg q) * powerRZ x (Z.neg q - 1))
      with (- (INR (Pos.to_nat q) * 1 * x ^ Nat.pred (Pos.to_nat q)) / (x ^ Pos.to_nat q) ^ 2).
    { apply is_derive_inv.
      - apply (is_derive_pow (fun y => y) (Pos.to_nat q) x 1). apply (@is_derive_id R_AbsRing).
      - now apply pow_nonzero. }
    rewrite Rmult_1_r, INR_IZR_INZ, positive_nat_Z.
    change (Z.neg q) with (- Z.pos q)%Z. rewrite opp_IZR.
    replace (- Z.pos q - 1)%Z with (- (Z.pos q + 1))%Z by lia.
    rewrite powerRZ_neg'. rewrite powerRZ_add by easy. cbn [powerRZ].
    destruct (Pos2Nat.is_succ q) as [k Hk]; rewrite Hk. cbn [Nat.pred pow].

    assert (x ^ k <> 0) by now apply pow_nonzero.
    change (Pos.to_nat 1) with 1%nat. cbn [pow]. field. now split.
Qed.

Lemma is_derive_eq (f : R -> R) (x l l' : R) : is_derive f x l -> l = l' -> is_derive f x l'.
Proof. now intros H <-. Qed.

Lemma is_derive_extR (f g : R -> R) (x l : R) :
  (forall t, f t = g t) -> is_derive f x l -> is_derive g x l.
Proof. exact (is_derive_ext f g x l). Qed.

Lemma tm_da i j a b x : a <> 0 -> is_derive (fun a => tm i j a b x) a (tm (S i) j a b x).
Proof.
  intros Ha. unfold tm. destruct x as [n [I J]]; cbn [fst snd].
  apply is_derive_extR with
    (fun a => (D n * ff I i * ff J j * powerRZ b (J - Z.of_nat j)) * powerRZ a (I - Z.of_nat i)).
  { intros t. ring. }
  rewrite <- (ff_S I i).
  eapply is_derive_eq.
  - apply is_derive_scal. now apply is_derive_powerRZ.
  - replace (I - Z.of_nat (S i))%Z with (I - Z.of_nat i - 1)%Z by lia. ring.
Qed.

Lemma tm_db i j a b x : b <> 0 -> is_derive (fun b => tm i j a b x) b (tm i (S j) a b x).
Proof.
  intros Hb. unfold tm. destruct x as [n [I J]]; cbn [fst snd].
  apply is_derive_extR with
    (fun b => (D n * ff I i * ff J j * powerRZ a (I - Z.of_nat i)) * powerRZ b (J - Z.of_nat j)).
  { intros t. ring. }
  rewrite <- (ff_S J j).
  eapply is_derive_eq.
  - apply is_derive_scal. now apply is_derive_powerRZ.
  - replace (J - Z.of_nat (S j))%Z with (J - Z.of_nat j - 1)%Z by lia. ring.
Qed.

Lemma tm1_db j b x : b <> 0 -> is_derive (fun b => tm1 j b x) b (tm1 (S j) b x).
Proof.
  intros Hb. unfold tm1. destruct x as [n J]; cbn [fst snd].
  rewrite <- (ff_S J j).
  replace (D n * (ff J j * IZR (J - Z.of_nat j)) * powerRZ b (J - Z.of_nat (S j)))
    with ((D n * ff J j) * (IZR (J - Z.of_nat j) * powerRZ b (J - Z.of_nat j - 1))).
  - apply is_derive_scal. now apply is_derive_powerRZ.
  - replace (J - Z.of_nat (S j))%Z with (J - Z.of_nat j - 1)%Z by lia. ring.
Qed.

Lemma rsum_derive {X} (g g' : R -> X -> R) l t :
  (forall x, is_derive (fun t => g t x) t (g' t x)) ->
  is_derive (fun t => rsum (g t) l) t (rsum (g' t) l).
Proof.
  intros H; induction l as [|x l IH]; cbn [rsum].
  - apply (@is_derive_const R_AbsRing).
  - now apply (@is_derive_plus R_AbsRing).
Qed.

Lemma S2_da tab i j a b : a <> 0 -> is_derive (fun a => S2 tab i j a b) a (S2 tab (S i) j a b).
Proof.
  intros Ha. unfold S2. apply (rsum_derive (fun a => tm i j a b) (fun a => tm (S i) j a b)).
  intros x. now apply tm_da.
Qed.
Lemma S2_db tab i j a b : b <> 0 -> is_derive (fun b => S2 tab i j a b) b (S2 tab i (S j) a b).
Proof.
  intros Hb. unfold S2. apply (rsum_derive (tm i j a) (tm i (S j) a)).
  intros x. now apply tm_db.
Qed.
Lemma S1_db tab j b : b <> 0 -> is_derive (fun b => S1 tab j b) b (S1 tab (S j) b).
Proof.
  intros Hb. unfold S1. apply (rsum_derive (tm1 j) (tm1 (S j))). intros x. now apply tm1_db.
Qed.

(** Chain rule, in the form used for the regions. *)
Lemma comp_derive (g : R -> R) (f : R -> R) t g' f' :
  is_derive g (f t) g' -> is_derive f t f' -> is_derive (fun t => g (f t)) t (f' * g').
Proof. intros H1 H2. exact (is_derive_comp g f t g' f' H1 H2). Qed.

(** The rules of differentiation with real-number operations in the conclusion. *)
Lemma Dconst (c x : R) : is_derive (fun _ => c) x 0.
Proof. apply (@is_derive_const R_AbsRing). Qed.
Lemma Did (x : R) : is_derive (fun y => y) x 1.
Proof. apply (@is_derive_id R_AbsRing). Qed.
Lemma Dplus (f g : R -> R) (x f' g' : R) : is_derive f x f' -> is_derive g x g' ->
  is_derive (fun y => f y + g y) x (f' + g').
Proof. intros; now apply (@is_derive_plus R_AbsRing R_NormedModule). Qed.
Lemma Dminus (f g : R -> R) (x f' g' : R) : is_derive f x f' -> is_derive g x g' ->
  is_derive (fun y => f y - g y) x (f' - g').
Proof. intros; now apply (@is_derive_minus R_AbsRing R_NormedModule). Qed.
Lemma Dopp (f : R -> R) (x f' : R) : is_derive f x f' -> is_derive (fun y => - f y) x (- f').
Proof. intros; now apply (@is_derive_opp R_AbsRing R_NormedModule). Qed.
Lemma Dmult (f g : R -> R) (x f' g' : R) : is_derive f x f' -> is_derive g x g' ->
  is_derive (fun y => f y * g y) x (f' * g x + f x * g').
Proof. intros; apply (is_derive_mult f g x f' g'); auto. intros; apply Rmult_comm. Qed.
Lemma Dinv (f : R -> R) (x f' : R) : is_derive f x f' -> f x <> 0 ->
  is_derive (fun y => / f y) x (- f' / (f x) ^ 2).
Proof. intros; now apply is_derive_inv. Qed.
Lemma Ddiv (f g : R -> R) (x f' g' : R) : is_derive f x f' -> is_derive g x g' -> g x <> 0 ->
  is_derive (fun y => f y / g y) x ((f' * g x - f x * g') / (g x) ^ 2).
Proof. intros; now apply is_derive_div. Qed.
Lemma Dln (x : R) : 0 < x -> is_derive ln x (/ x).
Proof. exact (is_derive_ln x). Qed.
Lemma Dpow (f : R -> R) (n : nat) (x f' : R) : is_derive f x f' ->
  is_derive (fun y => f y ^ n) x (INR n * f' * f x ^ Nat.pred n).
Proof. apply is_derive_pow. Qed.
Lemma Dsqrt (f : R -> R) (x f' : R) : is_derive f x f' -> 0 < f x ->
  is_derive (fun y => R_sqrt.sqrt (f y)) x (f' / (2 * R_sqrt.sqrt (f x))).
Proof. intros H1 H2. exact (is_derive_sqrt f x f' H1 H2). Qed.
Lemma Dexp (f : R -> R) (x f' : R) : is_derive f x f' ->
  is_derive (fun y => Rtrigo_def.exp (f y)) x (f' * Rtrigo_def.exp (f x)).
Proof. intros H1. apply (comp_derive Rtrigo_def.exp f); [apply is_derive_exp | exact H1]. Qed.
Lemma Dlnf (f : R -> R) (x f' : R) : is_derive f x f' -> 0 < f x ->
  is_derive (fun y => ln (f y)) x (f' * / f x).
Proof. intros H1 H2. apply (comp_derive ln f); [now apply Dln | exact H1]. Qed.

Ltac fin := repeat match goal with |- _ /\ _ => split end; first [assumption | lra | now apply pow_nonzero].
Ltac splits := repeat match goal with |- _ /\ _ => split end.
Ltac der_with tac :=
  let rec go :=
  match goal with
  | |- is_derive (fun y => y) _ _ => apply Did
  | |- is_derive (fun _ => ?c) _ _ => apply Dconst
  | |- is_derive (fun y => @?f y - @?g y) ?x _ => apply (Dminus f g x); go
  | |- is_derive (fun y => @?f y + @?g y) ?x _ => apply (Dplus f g x); go
  | |- is_derive (fun y => @?f y / @?g y) ?x _ => apply (Ddiv f g x); [go | go | cbv beta; first [assumption | lra]]
  | |- is_derive (fun y => - @?f y) ?x _ => apply (Dopp f x); go
  | |- is_derive (fun y => @?f y * @?g y) ?x _ => apply (Dmult f g x); go
  | |- is_derive (fun y => ln y) ?x _ => apply Dln; lra
  | |- is_derive (fun y => (@?f y) ^ ?n) ?x _ => apply (Dpow f n x); go
  | |- is_derive (fun y => R_sqrt.sqrt (@?f y)) ?x _ => apply (Dsqrt f x); [go | cbv beta; first [assumption | lra]]
  | |- is_derive (fun y => Rtrigo_def.exp (@?f y)) ?x _ => apply (Dexp f x); go
  | |- _ => tac tt
  end in go.
