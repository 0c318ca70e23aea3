(** Verified enclosures of the equations of state and of the saturation line,
    and the covering argument that turns them into statements about all states. *)
From Coq Require Import ZArith QArith Reals Lra Lia List Bool.
From Verif Require Import Py ExactReal RealSum ProofEos ProofThermo ProofSat Bound.
Import ListNotations.
Open Scope R_scope.
Local Notation ln := Rpower.ln.
Local Notation sqrt := R_sqrt.sqrt.

Definition iQ (q : Q) : itv := idiv (iZ (Qnum q)) (iZ (Zpos (Qden q))).
Lemma inc_Q q : inc (iQ q) (Q2R q).
Proof. apply inc_div; [apply inc_Z | apply inc_Z | apply IZR_neq; lia]. Qed.
Definition ipown (X : itv) (n : positive) : itv := ipow X (Zpos n).
Lemma inc_pown X x n : inc X x -> inc (ipown X n) (x ^ Pos.to_nat n).
Proof. intros H. exact (I.power_int_correct pr (Zpos n) X (Xreal.Xreal x) H). Qed.
Lemma inc_2 X x : inc X x -> inc (ipown X 2) (x ^ 2).
Proof. apply (inc_pown X x 2). Qed.
Lemma inc_4 X x : inc X x -> inc (ipown X 4) (x ^ 4).
Proof. apply (inc_pown X x 4). Qed.
Definition iopp (X : itv) : itv := I.neg X.
Lemma inc_opp X x : inc X x -> inc (iopp X) (- x).
Proof. intros H. exact (I.neg_correct X (Xreal.Xreal x) H). Qed.

Ltac enc1 := first [assumption | apply inc_Q | apply inc_Z | apply inc_add | apply inc_sub | apply inc_mul
  | apply inc_opp | apply inc_2 | apply inc_4 | apply inc_sqrt | apply inc_div | apply inc_ln | solve [auto]].
Ltac enc := repeat enc1.

(** ** Covering *)

(** Grid points are integers over 2^20. *)
Definition G : Z := 1048576.
Definition gr (z : Z) : R := IZR z / IZR G.
Definition iv (l u : Z) : itv := I.join (idiv (iZ l) (iZ G)) (idiv (iZ u) (iZ G)).
Lemma inc_gr z : inc (idiv (iZ z) (iZ G)) (gr z).
Proof. apply inc_div; [apply inc_Z | apply inc_Z | apply IZR_neq; discriminate]. Qed.
Lemma inc_joinl X Y x : inc X x -> inc (I.join X Y) x.
Proof. intros H. apply I.join_correct. now left. Qed.
Lemma inc_joinr X Y x : inc Y x -> inc (I.join X Y) x.
Proof. intros H. apply I.join_correct. now right. Qed.
Lemma inc_join X Y x y z : inc X x -> inc Y y -> x <= z <= y -> inc (I.join X Y) z.
Proof.
  intros H K L. apply inc_between with x y.
  - now apply inc_joinl.
  - now apply inc_joinr.
  - rewrite Rmin_left, Rmax_right; lra.
Qed.
Lemma inc_iv l u x : gr l <= x <= gr u -> inc (iv l u) x.
Proof. intros H. apply inc_join with (gr l) (gr u); [apply inc_gr | apply inc_gr | exact H]. Qed.

(** Bisect until the check succeeds. *)
Fixpoint cov (n : nat) (f : Z -> Z -> bool) (l u : Z) : bool :=
  if f l u then true else
  match n with
  | O => false
  | S n' => let m := ((l + u) / 2)%Z in if cov n' f l m then cov n' f m u else false
  end.
Lemma cov_ok (P : R -> Prop) f :
  (forall l u, f l u = true -> forall x, gr l <= x <= gr u -> P x) ->
  forall n l u, cov n f l u = true -> forall x, gr l <= x <= gr u -> P x.
Proof.
  intros H n. induction n as [|n IH]; intros l u C x Hx; cbn [cov] in C; destruct (f l u) eqn:E;
    try discriminate; try (now apply (H l u E)).
  set (m := ((l + u) / 2)%Z) in *.
  destruct (cov n f l m) eqn:Cl; [|discriminate].
  destruct (Rle_dec x (gr m)) as [L|L].
  - apply (IH l m Cl). lra.
  - apply (IH m u C). lra.
Qed.

(** In the plane, cutting the longer side; [sa] and [sb] say how long a side counts. *)
Fixpoint cov2 (n : nat) (f : Z -> Z -> Z -> Z -> bool) (sa sb : Z) (l u l' u' : Z) : bool :=
  if f l u l' u' then true else
  match n with
  | O => false
  | S n' =>
    if (sb * (u' - l') <? sa * (u - l))%Z
    then let m := ((l + u) / 2)%Z in
         if cov2 n' f sa sb l m l' u' then cov2 n' f sa sb m u l' u' else false
    else let m := ((l' + u') / 2)%Z in
         if cov2 n' f sa sb l u l' m then cov2 n' f sa sb l u m u' else false
  end.
Lemma cov2_ok (P : R -> R -> Prop) f sa sb :
  (forall l u l' u', f l u l' u' = true ->
     forall x y, gr l <= x <= gr u -> gr l' <= y <= gr u' -> P x y) ->
  forall n l u l' u', cov2 n f sa sb l u l' u' = true ->
    forall x y, gr l <= x <= gr u -> gr l' <= y <= gr u' -> P x y.
Proof.
  intros H n. induction n as [|n IH]; intros l u l' u' C x y Hx Hy; cbn [cov2] in C;
    destruct (f l u l' u') eqn:E; try discriminate; try (now apply (H l u l' u' E)).
  destruct (_ <? _)%Z.
  - set (m := ((l + u) / 2)%Z) in *. destruct (cov2 n f sa sb l m l' u') eqn:Cl; [|discriminate].
    destruct (Rle_dec x (gr m)) as [L|L]; [apply (IH _ _ _ _ Cl) | apply (IH _ _ _ _ C)]; lra.
  - set (m := ((l' + u') / 2)%Z) in *. destruct (cov2 n f sa sb l u l' m) eqn:Cl; [|discriminate].
    destruct (Rle_dec y (gr m)) as [L|L]; [apply (IH _ _ _ _ Cl) | apply (IH _ _ _ _ C)]; lra.
Qed.

(** ** The saturation line *)
Definition thI T := isub T (idiv (iQ 0.23855557567849) (isub T (iQ 650.17534844798))).
Definition qAI t := isub (iadd (ipown t 2) (imul (iQ 1167.0521452767) t)) (iQ 724213.16703206).
Definition qBI t := isub (iadd (imul (iopp (iQ 17.073846940092)) (ipown t 2)) (imul (iQ 12020.82470247) t)) (iQ 3232555.0322333).
Definition qCI t := iadd (isub (imul (iQ 14.91510861353) (ipown t 2)) (imul (iQ 4823.2657361591) t)) (iQ 405113.40542057).
Definition beI t :=
  idiv (imul (iZ 2) (qCI t)) (iadd (iopp (qBI t))
    (isqrt (isub (ipown (qBI t) 2) (imul (imul (iZ 4) (qAI t)) (qCI t))))).
Definition psI T := ipown (beI (thI T)) 4.

Lemma inc_ps T t : 273 <= t <= 647.1 -> inc T t -> inc (psI T) (p4R t).
Proof.
  intros H HT. unfold p4R, psI. apply inc_4.
  assert (K : inc (thI T) (th t)) by (unfold thI, th; enc; lra).
  pose proof (th_range t H) as R. pose proof (den_B _ R).
  assert (A : inc (qAI (thI T)) (qA (th t))) by (unfold qAI, qA; enc).
  assert (B : inc (qBI (thI T)) (qB (th t))) by (unfold qBI, qB; enc).
  assert (C : inc (qCI (thI T)) (qC (th t))) by (unfold qCI, qC; enc).
  unfold beI, be. enc. lra.
Qed.

(** Pressures of the saturation line between two grid temperatures *)
Definition psiv (l u : Z) : itv := I.join (psI (idiv (iZ l) (iZ G))) (psI (idiv (iZ u) (iZ G))).
Lemma inc_psiv l u t : 273 <= gr l -> gr u <= 647.1 -> gr l <= t <= gr u -> inc (psiv l u) (p4R t).
Proof.
  intros L U H. apply inc_join with (p4R (gr l)) (p4R (gr u)).
  - apply inc_ps; [lra | apply inc_gr].
  - apply inc_ps; [lra | apply inc_gr].
  - split.
    + destruct (proj1 H) as [K|K]; [apply Rlt_le, p4_incr; lra | rewrite K; lra].
    + destruct (proj2 H) as [K|K]; [apply Rlt_le, p4_incr; lra | rewrite K; lra].
Qed.

(** ** Regions 1 and 2 *)
Definition Rw : itv := iQ 0.461526.
Definition a1I P := isub (iQ 7.1) (idiv P (iQ 16.53)).
Definition b1I T := isub (idiv (iZ 1386) T) (iQ 1.222).
Definition b2I T := isub (idiv (iZ 540) T) (iQ 0.5).
Lemma inc_a1 P p : inc P p -> inc (a1I P) (a1 p).
Proof. intros H. unfold a1I, a1. enc. lra. Qed.
Lemma inc_b1 T t : 0 < t -> inc T t -> inc (b1I T) (b1 t).
Proof. intros K H. unfold b1I, b1. enc. lra. Qed.
Lemma inc_b2 T t : 0 < t -> inc T t -> inc (b2I T) (b2 t).
Proof. intros K H. unfold b2I, b2. enc. lra. Qed.
Lemma inc_g1 n i j P T p t : 0 < t -> inc P p -> inc T t ->
  inc (polyI n (dtab i j tab1) (a1I P) (b1I T)) (g1 i j p t).
Proof. intros K HP HT. apply S2I_ok; [now apply inc_a1 | now apply inc_b1]. Qed.
Lemma inc_g2 n i j P T p t : 0 < t -> inc P p -> inc T t ->
  inc (polyI n (dtab i j tab2) P (b2I T)) (g2 i j p t).
Proof. intros K HP HT. apply S2I_ok; [exact HP | now apply inc_b2]. Qed.
Lemma inc_o2 j T t : 0 < t -> inc T t -> inc (S1I tab2o j (idiv (iZ 540) T)) (o2 j t).
Proof.
  intros K HT. apply S1I_ok.
  - apply Rgt_not_eq. apply Rdiv_lt_0_compat; lra.
  - enc. lra.
Qed.
