(** Steam expands when heated: regions 2 and 5, by enclosure. *)
From Coq Require Import ZArith QArith Reals Lra Lia List Bool.
From Interval Require Import Tactic.
From Verif Require Import Py ExactReal RealSum ProofEos ProofThermo ProofSat Bound BoundF BoundEos BoundSat Bound2 Bound5.
Import ListNotations.
Open Scope R_scope.

Definition grow2 (p t : R) : Prop := 0 < 1 + p * (g2 1 0 p t - 540 / t * g2 1 1 p t).
Definition grow5 (p t : R) : Prop := 0 < 1 + p * (g5 1 0 p t - 1000 / t * g5 1 1 p t).

Definition chk2 (n : nat) (skip : Z -> itv) : Z -> Z -> Z -> Z -> bool :=
  let g := grp tab2 in
  fun l u l' u' =>
  let P := iv l u in let T := iv l' u' in
  if ipos (isub P (skip u')) then true else
  let d := deriv n g P (b2I T) in
  ipos (iadd (iZ 1) (imul P (isub (d 1%nat 0%nat) (imul (idiv (iZ 540) T) (d 1%nat 1%nat))))).

Lemma chk2_ok n skip (lim : R -> R) l u l' u' : chk2 n skip l u l' u' = true ->
  (gr l' <= gr u' -> inc (skip u') (lim (gr u'))) ->
  forall p t, gr l <= p <= gr u -> gr l' <= t <= gr u' -> 0 < t ->
  lim t <= lim (gr u') -> p <= lim t -> grow2 p t.
Proof.
  intros C HS p t Hp Ht t0 M S. unfold chk2 in C.
  assert (HT := inc_iv l' u' t Ht). assert (HP := inc_iv l u p Hp).
  destruct (ipos (isub (iv l u) (skip u'))) eqn:E.
  - exfalso. apply ipos_ok with (x := p - lim (gr u')) in E; [lra|].
    apply inc_sub; [exact HP|]. apply HS. lra.
  - refine (ipos_ok _ _ C _). cbv zeta.
    apply inc_add; [apply inc_Z|]. apply inc_mul; [exact HP|].
    apply inc_sub; [now apply inc_d2|]. apply inc_mul; [|now apply inc_d2].
    apply inc_div; [apply inc_Z | exact HT | lra].
Qed.

Lemma grow2a : cov2 24 (within 286261248 653420135 (chk2 3 psu)) 1000 1 640 262144 286261248 419430400 = true.
Proof. Time vm_compute. reflexivity. Qed.
Lemma grow2b : cov2 24 (within 286261248 653420135 (chk2 4 psu)) 30 1 640 3145728 419430400 524288000 = true.
Proof. Time vm_compute. reflexivity. Qed.
Lemma grow2c : cov2 24 (within 286261248 653420135 (chk2 5 psu)) 8 1 640 17825792 524288000 653420135 = true.
Proof. Time vm_compute. reflexivity. Qed.
Lemma grow2d : cov2 24 (within 653420134 905078375 (chk2 6 p23u)) 4 1 640 105906176 653420134 905078375 = true.
Proof. Time vm_compute. reflexivity. Qed.
Lemma grow2e : cov2 24 (within 905078374 1125279335 (chk2 5 noneu)) 2 1 640 104857600 905078374 1125279335 = true.
Proof. Time vm_compute. reflexivity. Qed.

Lemma grow_side n f l u l' u' p t :
  within 286261248 653420135 f l u l' u' = true -> f = chk2 n psu ->
  gr l <= p <= gr u -> gr l' <= t <= gr u' -> p <= p4R t -> grow2 p t.
Proof.
  intros C -> Hp Ht S. apply within_ok in C. destruct C as (L & U & C).
  replace (gr 286261248) with 273 in L by (unfold gr, G; lra).
  change (gr 653420135) with (IZR 653420135 / IZR G) in U; unfold G in U.
  apply (chk2_ok n psu p4R l u l' u' C); try assumption; try lra.
  - intros _. apply inc_ps; [lra | apply inc_gr].
  - apply p4_le; lra.
Qed.

Lemma grow2_sat p t : 273 <= t <= 623.15 -> 0.000611 <= p <= p4R t -> grow2 p t.
Proof.
  intros Ht Hp. assert (H : p <= p4R t -> grow2 p t); [|apply H; lra].
  assert (P1 : p4R 400 < 0.25) by (unfold p4R, be, qA, qB, qC, th; interval).
  assert (P2 : p4R 500 < 3) by (unfold p4R, be, qA, qB, qC, th; interval).
  assert (P3 : p4R 623.15 < 17) by (pose proof p4_ends; lra).
  destruct (Rle_dec t 400) as [A|A]; [|destruct (Rle_dec t 500) as [B|B]].
  - pose proof (p4_le t 400 ltac:(lra) A ltac:(lra)).
    refine (cov2_ok (fun p t => p <= p4R t -> grow2 p t) _ 1000 1 _ _ _ _ _ _ grow2a p t _ _).
    + intros. eapply grow_side; eauto.
    + unfold gr, G; lra.
    + unfold gr, G; lra.
  - pose proof (p4_le t 500 ltac:(lra) B ltac:(lra)).
    refine (cov2_ok (fun p t => p <= p4R t -> grow2 p t) _ 30 1 _ _ _ _ _ _ grow2b p t _ _).
    + intros. eapply grow_side; eauto.
    + unfold gr, G; lra.
    + unfold gr, G; lra.
  - pose proof (p4_le t 623.15 ltac:(lra) ltac:(lra) ltac:(lra)).
    refine (cov2_ok (fun p t => p <= p4R t -> grow2 p t) _ 8 1 _ _ _ _ _ _ grow2c p t _ _).
    + intros. eapply grow_side; eauto.
    + unfold gr, G; lra.
    + unfold gr, G; lra.
Qed.

Lemma grow2_b23 p t : 623.15 <= t <= 863.15 -> 0.000611 <= p <= p23R t -> grow2 p t.
Proof.
  intros Ht Hp. assert (H : p <= p23R t -> grow2 p t); [|apply H; lra].
  assert (P1 : p23R 863.15 < 101) by (unfold p23R; lra).
  pose proof (p23_le t 863.15 ltac:(lra) ltac:(lra)).
  refine (cov2_ok (fun p t => p <= p23R t -> grow2 p t) _ 4 1 _ _ _ _ _ _ grow2d p t _ _).
  - intros l u l' u' C x y Hx Hy S. apply within_ok in C. destruct C as (L & U & C).
    change (gr 653420134) with (IZR 653420134 / IZR G) in L; unfold G in L. change (gr 905078375) with (IZR 905078375 / IZR G) in U; unfold G in U.
    apply (chk2_ok 6 p23u p23R l u l' u' C); try assumption; try lra.
    + intros _. apply inc_p23u.
    + apply p23_le; lra.
  - unfold gr, G; lra.
  - unfold gr, G; lra.
Qed.

Lemma grow2_hot p t : 863.15 <= t <= 1073.15 -> 0.000611 <= p <= 100 -> grow2 p t.
Proof.
  intros Ht Hp.
  refine (cov2_ok (fun p t => p <= 101 -> grow2 p t) _ 2 1 _ _ _ _ _ _ grow2e p t _ _ _).
  - intros l u l' u' C x y Hx Hy S. apply within_ok in C. destruct C as (L & U & C).
    change (gr 905078374) with (IZR 905078374 / IZR G) in L; unfold G in L. change (gr 1125279335) with (IZR 1125279335 / IZR G) in U; unfold G in U.
    apply (chk2_ok 5 noneu (fun _ => 101) l u l' u' C); try assumption; try lra.
    intros _. apply inc_Z.
  - unfold gr, G; lra.
  - unfold gr, G; lra.
  - lra.
Qed.

Definition chk5 (n : nat) : Z -> Z -> Z -> Z -> bool :=
  let t10 := dtab 1 0 tab5 in let t11 := dtab 1 1 tab5 in
  fun l u l' u' =>
  let P := iv l u in let T := iv l' u' in
  let b := b5I T in
  ipos (iadd (iZ 1) (imul P (isub (polyI n t10 P b) (imul (idiv (iZ 1000) T) (polyI n t11 P b))))).
Lemma chk5_ok n l u l' u' : chk5 n l u l' u' = true ->
  forall p t, gr l <= p <= gr u -> gr l' <= t <= gr u' -> 0 < t -> grow5 p t.
Proof.
  intros C p t Hp Ht t0. unfold chk5 in C.
  assert (HT := inc_iv l' u' t Ht). assert (HP := inc_iv l u p Hp).
  refine (ipos_ok _ _ C _). cbv zeta.
  apply inc_add; [apply inc_Z|]. apply inc_mul; [exact HP|].
  apply inc_sub; [now apply inc_g5|]. apply inc_mul; [|now apply inc_g5].
  apply inc_div; [apply inc_Z | exact HT | lra].
Qed.
Lemma cov_grow5 : cov2 16 (chk5 3) 100 1 640 52428800 1125279334 2383570535 = true.
Proof. Time vm_compute. reflexivity. Qed.
Lemma grow5_all p t : 1073.15 <= t <= 2273.15 -> 0.000611 <= p <= 50 -> grow5 p t.
Proof.
  intros Ht Hp.
  refine (cov2_ok (fun p t => 0 < t -> grow5 p t) _ 100 1 _ _ _ _ _ _ cov_grow5 p t _ _ _).
  - intros l u l' u' C x y Hx Hy S. now apply (chk5_ok 3 l u l' u').
  - unfold gr, G; lra.
  - unfold gr, G; lra.
  - lra.
Qed.

Lemma v2T_pos p t : 0 < p -> grow2 p t -> 0 < v2T p t.
Proof.
  intros P H. unfold v2T, grow2 in *. generalize dependent (540 / t). intros w H. apply Rmult_lt_0_compat; [lra|].
  replace (1 / p + g2 1 0 p t - w * g2 1 1 p t)
    with ((1 + p * (g2 1 0 p t - w * g2 1 1 p t)) / p) by (field; lra).
  now apply Rdiv_lt_0_compat.
Qed.
Lemma v5T_pos p t : 0 < p -> grow5 p t -> 0 < v5T p t.
Proof.
  intros P H. unfold v5T, grow5 in *. generalize dependent (1000 / t). intros w H. apply Rmult_lt_0_compat; [lra|].
  replace (1 / p + g5 1 0 p t - w * g5 1 1 p t)
    with ((1 + p * (g5 1 0 p t - w * g5 1 1 p t)) / p) by (field; lra).
  now apply Rdiv_lt_0_compat.
Qed.
