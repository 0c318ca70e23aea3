(** Region 2: signs of volume, compressibility and heat capacities, by enclosure. *)
From Coq Require Import ZArith QArith Reals Lra Lia List Bool.
From Interval Require Import Tactic.
From Verif Require Import Py ExactReal RealSum ProofEos ProofThermo ProofSat Bound BoundF BoundEos BoundSat.
Import ListNotations.
Open Scope R_scope.

(** tau^2 (o_tt + g_tt) (p^2 g_pp - 1) - (1 + p g_p - tau p g_pt)^2 *)
Definition K2 (p t : R) : R :=
  (540 / t) ^ 2 * (o2 2 t + g2 0 2 p t) * (p ^ 2 * g2 2 0 p t - 1)
  - (1 + p * g2 1 0 p t - 540 / t * (p * g2 1 1 p t)) ^ 2.
Definition sign2 (p t : R) : Prop :=
  0 < 1 + p * g2 1 0 p t /\ o2 2 t + g2 0 2 p t < 0 /\ p ^ 2 * g2 2 0 p t - 1 < 0 /\ 0 < K2 p t.

Lemma inc_d2 n i j P T p t : 0 < t -> inc P p -> inc T t -> inc (deriv n (grp tab2) P (b2I T) i j) (g2 i j p t).
Proof. intros. apply deriv_ok; [assumption | now apply inc_b2]. Qed.

Definition check2 (n : nat) (skip : Z -> itv) : Z -> Z -> Z -> Z -> bool :=
  let g := grp tab2 in
  fun l u l' u' =>
  let P := iv l u in let T := iv l' u' in
  if ipos (isub P (skip u')) then true else
  let b := b2I T in let tau := idiv (iZ 540) T in
  let d := deriv n g P b in
  let k10 := iadd (iZ 1) (imul P (d 1%nat 0%nat)) in
  if ipos k10 then
    let k02 := iadd (S1I tab2o 2 tau) (d 0%nat 2%nat) in
    if ineg k02 then
      let k20 := isub (imul (ipown P 2) (d 2%nat 0%nat)) (iZ 1) in
      if ineg k20 then
        let g11 := imul P (d 1%nat 1%nat) in
        ipos (isub (imul (imul (ipown tau 2) k02) k20) (ipown (isub k10 (imul tau g11)) 2))
      else false
    else false
  else false.

(** [lim] bounds the pressures of interest and grows with temperature. *)
Lemma check2_ok n skip (lim : R -> R) l u l' u' : check2 n skip l u l' u' = true ->
  (gr l' <= gr u' -> inc (skip u') (lim (gr u'))) ->
  forall p t, gr l <= p <= gr u -> gr l' <= t <= gr u' -> 0 < t ->
  lim t <= lim (gr u') -> p <= lim t -> sign2 p t.
Proof.
  intros C HS p t Hp Ht t0 M S. unfold check2 in C.
  assert (HT := inc_iv l' u' t Ht). assert (HP := inc_iv l u p Hp).
  destruct (ipos (isub (iv l u) (skip u'))) eqn:E.
  - exfalso. apply ipos_ok with (x := p - lim (gr u')) in E; [lra|].
    apply inc_sub; [exact HP|]. apply HS. lra.
  - assert (IT : inc (idiv (iZ 540) (iv l' u')) (540 / t)) by (apply inc_div; [apply inc_Z | exact HT | lra]).
    assert (I10 : inc (iadd (iZ 1) (imul (iv l u) (deriv n (grp tab2) (iv l u) (b2I (iv l' u')) 1%nat 0%nat))) (1 + p * g2 1 0 p t)).
    { apply inc_add; [apply inc_Z|]. apply inc_mul; [exact HP | now apply inc_d2]. }
    assert (I02 : inc (iadd (S1I tab2o 2 (idiv (iZ 540) (iv l' u'))) (deriv n (grp tab2) (iv l u) (b2I (iv l' u')) 0%nat 2%nat)) (o2 2 t + g2 0 2 p t)).
    { apply inc_add; [now apply inc_o2 | now apply inc_d2]. }
    assert (I20 : inc (isub (imul (ipown (iv l u) 2) (deriv n (grp tab2) (iv l u) (b2I (iv l' u')) 2%nat 0%nat)) (iZ 1)) (p ^ 2 * g2 2 0 p t - 1)).
    { apply inc_sub; [|apply inc_Z]. apply inc_mul; [exact (inc_2 _ _ HP) | exact (inc_d2 n 2 0 _ _ _ _ t0 HP HT)]. }
    revert C I10 I02 I20. cbv zeta.
    generalize (iadd (iZ 1) (imul (iv l u) (deriv n (grp tab2) (iv l u) (b2I (iv l' u')) 1%nat 0%nat))) as k10.
    generalize (iadd (S1I tab2o 2 (idiv (iZ 540) (iv l' u'))) (deriv n (grp tab2) (iv l u) (b2I (iv l' u')) 0%nat 2%nat)) as k02.
    generalize (isub (imul (ipown (iv l u) 2) (deriv n (grp tab2) (iv l u) (b2I (iv l' u')) 2%nat 0%nat)) (iZ 1)) as k20.
    intros k20 k02 k10 C I10 I02 I20.
    destruct (ipos k10) eqn:E10; [|discriminate].
    destruct (ineg k02) eqn:E02; [|discriminate].
    destruct (ineg k20) eqn:E20; [|discriminate].
    repeat split.
    + exact (ipos_ok _ _ E10 I10).
    + exact (ineg_ok _ _ E02 I02).
    + exact (ineg_ok _ _ E20 I20).
    + apply (ipos_ok _ _ C). unfold K2. apply inc_sub.
      * apply inc_mul; [|exact I20]. apply inc_mul; [|exact I02]. now apply inc_2.
      * apply inc_2. apply inc_sub; [exact I10|]. apply inc_mul; [exact IT|].
        apply inc_mul; [exact HP | now apply inc_d2].
Qed.

Definition psu (z : Z) : itv := psI (idiv (iZ z) (iZ G)).
Definition p23R (t : R) : R := 348.05185628969 - 1.1671859879975 * t + 0.0010192970039326 * t ^ 2.
Definition p23u (z : Z) : itv :=
  let T := idiv (iZ z) (iZ G) in
  iadd (isub (iQ 348.05185628969) (imul (iQ 1.1671859879975) T)) (imul (iQ 0.0010192970039326) (ipown T 2)).
Definition noneu (_ : Z) : itv := iZ 101.

Definition within (a b : Z) (f : Z -> Z -> Z -> Z -> bool) : Z -> Z -> Z -> Z -> bool :=
  fun l u l' u' => if ((a <=? l')%Z && (u' <=? b)%Z) then f l u l' u' else false.
Lemma within_ok a b f l u l' u' : within a b f l u l' u' = true ->
  gr a <= gr l' /\ gr u' <= gr b /\ f l u l' u' = true.
Proof.
  unfold within. destruct (a <=? l')%Z eqn:E1; [|discriminate].
  destruct (u' <=? b)%Z eqn:E2; [|discriminate]. cbn [andb]. intros H.
  apply gr_le in E1. apply gr_le in E2. auto.
Qed.

Lemma covered2a : cov2 24 (within 286261248 653420135 (check2 3 psu)) 1000 1 640 262144 286261248 419430400 = true.
Proof. vm_compute. reflexivity. Qed.
Lemma covered2b : cov2 24 (within 286261248 653420135 (check2 4 psu)) 30 1 640 3145728 419430400 524288000 = true.
Proof. vm_compute. reflexivity. Qed.
Lemma covered2c : cov2 24 (within 286261248 653420135 (check2 5 psu)) 8 1 640 17825792 524288000 653420135 = true.
Proof. vm_compute. reflexivity. Qed.
Lemma covered2d : cov2 24 (within 653420134 905078375 (check2 6 p23u)) 4 1 640 105906176 653420134 905078375 = true.
Proof. vm_compute. reflexivity. Qed.
Lemma covered2e : cov2 24 (within 905078374 1125279335 (check2 5 noneu)) 2 1 640 104857600 905078374 1125279335 = true.
Proof. vm_compute. reflexivity. Qed.

Lemma p4_le x y : 273 <= x -> x <= y -> y <= 647.1 -> p4R x <= p4R y.
Proof. intros H [K|K] L; [apply Rlt_le, p4_incr; lra | rewrite K; lra]. Qed.
Lemma p23_le x y : 600 <= x -> x <= y -> p23R x <= p23R y.
Proof.
  intros H K. unfold p23R.
  assert (0 <= (y - x) * (0.0010192970039326 * (x + y) - 1.1671859879975)); [|lra].
  apply Rmult_le_pos; lra.
Qed.
Lemma inc_p23u z : inc (p23u z) (p23R (gr z)).
Proof.
  unfold p23u, p23R. pose proof (inc_gr z) as H. cbv zeta.
  apply inc_add; [apply inc_sub; [apply inc_Q|]|]; (apply inc_mul; [apply inc_Q|]); [exact H | exact (inc_2 _ _ H)].
Qed.

Lemma ps_side n f l u l' u' p t :
  within 286261248 653420135 f l u l' u' = true -> f = check2 n psu ->
  gr l <= p <= gr u -> gr l' <= t <= gr u' -> p <= p4R t -> sign2 p t.
Proof.
  intros C -> Hp Ht S. apply within_ok in C. destruct C as (L & U & C).
  replace (gr 286261248) with 273 in L by (unfold gr, G; lra).
  change (gr 653420135) with (IZR 653420135 / IZR G) in U; unfold G in U. 
  apply (check2_ok n psu p4R l u l' u' C); try assumption; try lra.
  - intros _. apply inc_ps; [lra | apply inc_gr].
  - apply p4_le; lra.
Qed.

Theorem signs2_sat p t : 273 <= t <= 623.15 -> 0.000611 <= p <= p4R t -> sign2 p t.
Proof.
  intros Ht Hp. assert (H : p <= p4R t -> sign2 p t); [|apply H; lra].
  assert (P1 : p4R 400 < 0.25) by (unfold p4R, be, qA, qB, qC, th; interval).
  assert (P2 : p4R 500 < 3) by (unfold p4R, be, qA, qB, qC, th; interval).
  assert (P3 : p4R 623.15 < 17) by (pose proof p4_ends; lra).
  destruct (Rle_dec t 400) as [A|A]; [|destruct (Rle_dec t 500) as [B|B]].
  - pose proof (p4_le t 400 ltac:(lra) A ltac:(lra)).
    refine (cov2_ok (fun p t => p <= p4R t -> sign2 p t) _ 1000 1 _ _ _ _ _ _ covered2a p t _ _).
    + intros. eapply ps_side; eauto.
    + unfold gr, G; lra.
    + unfold gr, G; lra.
  - pose proof (p4_le t 500 ltac:(lra) B ltac:(lra)).
    refine (cov2_ok (fun p t => p <= p4R t -> sign2 p t) _ 30 1 _ _ _ _ _ _ covered2b p t _ _).
    + intros. eapply ps_side; eauto.
    + unfold gr, G; lra.
    + unfold gr, G; lra.
  - pose proof (p4_le t 623.15 ltac:(lra) ltac:(lra) ltac:(lra)).
    refine (cov2_ok (fun p t => p <= p4R t -> sign2 p t) _ 8 1 _ _ _ _ _ _ covered2c p t _ _).
    + intros. eapply ps_side; eauto.
    + unfold gr, G; lra.
    + unfold gr, G; lra.
Qed.

Theorem signs2_b23 p t : 623.15 <= t <= 863.15 -> 0.000611 <= p <= p23R t -> sign2 p t.
Proof.
  intros Ht Hp. assert (H : p <= p23R t -> sign2 p t); [|apply H; lra].
  assert (P1 : p23R 863.15 < 101) by (unfold p23R; lra).
  pose proof (p23_le t 863.15 ltac:(lra) ltac:(lra)).
  refine (cov2_ok (fun p t => p <= p23R t -> sign2 p t) _ 4 1 _ _ _ _ _ _ covered2d p t _ _).
  - intros l u l' u' C x y Hx Hy S. apply within_ok in C. destruct C as (L & U & C).
    change (gr 653420134) with (IZR 653420134 / IZR G) in L; unfold G in L. change (gr 905078375) with (IZR 905078375 / IZR G) in U; unfold G in U.
    apply (check2_ok 6 p23u p23R l u l' u' C); try assumption; try lra.
    + intros _. apply inc_p23u.
    + apply p23_le; lra.
  - unfold gr, G; lra.
  - unfold gr, G; lra.
Qed.

Theorem signs2_hot p t : 863.15 <= t <= 1073.15 -> 0.000611 <= p <= 100 -> sign2 p t.
Proof.
  intros Ht Hp.
  refine (cov2_ok (fun p t => p <= 101 -> sign2 p t) _ 2 1 _ _ _ _ _ _ covered2e p t _ _ _).
  - intros l u l' u' C x y Hx Hy S. apply within_ok in C. destruct C as (L & U & C).
    change (gr 905078374) with (IZR 905078374 / IZR G) in L; unfold G in L. change (gr 1125279335) with (IZR 1125279335 / IZR G) in U; unfold G in U.
    apply (check2_ok 5 noneu (fun _ => 101) l u l' u' C); try assumption; try lra.
    intros _. apply inc_Z.
  - unfold gr, G; lra.
  - unfold gr, G; lra.
  - lra.
Qed.
