(** Bounds behind the region selection by (p,h) and (p,s). *)
From Coq Require Import ZArith QArith Reals Lra Lia List Bool.
From Verif Require Import Py ExactReal RealSum ProofEos ProofThermo ProofSat Bound BoundEos BoundSat Bound5.
Import ListNotations.
Open Scope R_scope.
Local Notation ln := Rpower.ln.

(** ** The coarse saturation enthalpies of region_ph *)
Definition hL0 (p : R) : R := 109.6635 * ln p + 40.3481 * p + 734.58.
Definition hV0 (p : R) : R := 45.1768 * ln p - 20.158 * p + 2804.4.
Definition hL0I P := iadd (iadd (imul (iQ 109.6635) (iln P)) (imul (iQ 40.3481) P)) (iQ 734.58).
Definition hV0I P := iadd (isub (imul (iQ 45.1768) (iln P)) (imul (iQ 20.158) P)) (iQ 2804.4).
Lemma inc_hL0 P p : 0 < p -> inc P p -> inc (hL0I P) (hL0 p).
Proof. intros. unfold hL0I, hL0. enc. Qed.
Lemma inc_hV0 P p : 0 < p -> inc P p -> inc (hV0I P) (hV0 p).
Proof. intros. unfold hV0I, hV0. enc. Qed.

Definition coarse (t : R) : Prop :=
  let p := p4R t in -100 < h1R p t - hL0 p < 100 /\ -50 < h2R p t - hV0 p < 50.
Definition coarse_check (n : nat) : Z -> Z -> bool :=
  let t01 := dtab 0 1 tab1 in let u01 := dtab 0 1 tab2 in
  fun l u =>
  if (286261248 <=? l)%Z && (u <=? 654311424)%Z then
    let T := iv l u in let P := psiv l u in
    if ipos P then
      let d := isub (h1I (polyI n t01 (a1I P) (b1I T))) (hL0I P) in
      let e := isub (h2I (S1I tab2o 1 (idiv (iZ 540) T)) (polyI n u01 P (b2I T))) (hV0I P) in
      ineg (isub d (iZ 100)) && ipos (iadd d (iZ 100)) && ineg (isub e (iZ 50)) && ipos (iadd e (iZ 50))
    else false
  else false.
Lemma coarse_check_ok n l u : coarse_check n l u = true -> forall t, gr l <= t <= gr u -> coarse t.
Proof.
  intros C t Ht. unfold coarse_check in C.
  destruct (286261248 <=? l)%Z eqn:Hl; [|discriminate].
  destruct (u <=? 654311424)%Z eqn:Hu; [|discriminate]. cbn [andb] in C.
  apply gr_le in Hl. apply gr_le in Hu.
  replace (gr 286261248) with 273 in Hl by (unfold gr, G; lra).
  replace (gr 654311424) with 624 in Hu by (unfold gr, G; lra).
  destruct (ipos (psiv l u)) eqn:CP; [|discriminate].
  rewrite !andb_true_iff in C. destruct C as (((C1 & C2) & C3) & C4).
  assert (t0 : 0 < t) by lra.
  assert (HT : inc (iv l u) t) by now apply inc_iv.
  assert (HP : inc (psiv l u) (p4R t)) by (apply inc_psiv; lra).
  pose proof (ipos_ok _ _ CP HP) as p0.
  assert (H1 := inc_h1 n _ _ _ _ t0 HP HT). assert (H2 := inc_h2 n _ _ _ _ t0 HP HT).
  assert (D := inc_sub _ _ _ _ H1 (inc_hL0 _ _ p0 HP)).
  assert (E := inc_sub _ _ _ _ H2 (inc_hV0 _ _ p0 HP)).
  pose proof (ineg_ok _ _ C1 (inc_sub _ _ _ _ D (inc_Z 100))).
  pose proof (ipos_ok _ _ C2 (inc_add _ _ _ _ D (inc_Z 100))).
  pose proof (ineg_ok _ _ C3 (inc_sub _ _ _ _ E (inc_Z 50))).
  pose proof (ipos_ok _ _ C4 (inc_add _ _ _ _ E (inc_Z 50))).
  unfold coarse. lra.
Qed.
Lemma coarse_covered : cov 14 (coarse_check 3) 286261248 654311424 = true.
Proof. vm_compute. reflexivity. Qed.
Theorem coarse_ok t : 273 <= t <= 624 -> coarse t.
Proof.
  intros H. apply (cov_ok coarse (coarse_check 3) (coarse_check_ok 3) _ _ _ coarse_covered).
  unfold gr, G. lra.
Qed.

(** ** Edges: 273.15 K, 1073.15 K, 2273.15 K *)
Definition edge_check (n : nat) : Z -> Z -> bool :=
  let t01 := dtab 0 1 tab1 in let u01 := dtab 0 1 tab2 in
  let u00 := dtab 0 0 tab2 in let w01 := dtab 0 1 tab5 in let w00 := dtab 0 0 tab5 in
  let T1 := iQ 273.15 in let T2 := iQ 1073.15 in let T5 := iQ 2273.15 in
  let o1 := S1I tab2o 1 (idiv (iZ 540) T2) in let o0 := S1I tab2o 0 (idiv (iZ 540) T2) in
  let q1 := S1I tab5o 1 (idiv (iZ 1000) T5) in let q0 := S1I tab5o 0 (idiv (iZ 1000) T5) in
  fun l u =>
  let P := iv l u in
  ipos (isub (iadd (imul (iQ 0.963) P) (iQ 2.2)) (h1I (polyI n t01 (a1I P) (b1I T1)))) &&
  ipos (isub (isub (imul (idiv (iZ 1000) T5) (iadd q1 (polyI n w01 P (b5I T5)))) (iadd q0 (polyI n w00 P (b5I T5))))
             (isub (imul (idiv (iZ 540) T2) (iadd o1 (polyI n u01 P (b2I T2)))) (iadd o0 (polyI n u00 P (b2I T2))))).
Definition edge (p : R) : Prop := h1R p 273.15 < 0.963 * p + 2.2 /\ s2R p 1073.15 < s5R p 2273.15.
Lemma edge_check_ok n l u : edge_check n l u = true -> forall p, gr l <= p <= gr u -> edge p.
Proof.
  intros C p Hp. unfold edge_check in C. apply andb_true_iff in C. destruct C as [C1 C2].
  assert (HP : inc (iv l u) p) by now apply inc_iv.
  assert (HT1 := inc_Q 273.15). assert (HT2 := inc_Q 1073.15). assert (HT5 := inc_Q 2273.15).
  assert (T1 : 0 < 273.15) by lra. assert (T2 : 0 < 1073.15) by lra. assert (T5 : 0 < 2273.15) by lra.
  assert (H1 := inc_h1 n _ _ _ _ T1 HP HT1).
  split.
  - assert (K : inc (iadd (imul (iQ 0.963) (iv l u)) (iQ 2.2)) (0.963 * p + 2.2)) by enc.
    pose proof (ipos_ok _ _ C1 (inc_sub _ _ _ _ K H1)). lra.
  - unfold s2R, s5R.
    assert (A := inc_o2 1 _ _ T2 HT2). assert (A0 := inc_o2 0 _ _ T2 HT2).
    assert (B := inc_g2 n 0 1 _ _ _ _ T2 HP HT2). assert (B0 := inc_g2 n 0 0 _ _ _ _ T2 HP HT2).
    assert (C := inc_o5 1 _ _ T5 HT5). assert (C0 := inc_o5 0 _ _ T5 HT5).
    assert (D := inc_g5 n 0 1 _ _ _ _ T5 HP HT5). assert (D0 := inc_g5 n 0 0 _ _ _ _ T5 HP HT5).
    assert (I2 : inc (idiv (iZ 540) (iQ 1073.15)) (540 / 1073.15)) by (apply inc_div; [apply inc_Z | exact HT2 | lra]).
    assert (I5 : inc (idiv (iZ 1000) (iQ 2273.15)) (1000 / 2273.15)) by (apply inc_div; [apply inc_Z | exact HT5 | lra]).
    pose proof (ipos_ok _ _ C2 (inc_sub _ _ _ _
       (inc_sub _ _ _ _ (inc_mul _ _ _ _ I5 (inc_add _ _ _ _ C D)) (inc_add _ _ _ _ C0 D0))
       (inc_sub _ _ _ _ (inc_mul _ _ _ _ I2 (inc_add _ _ _ _ A B)) (inc_add _ _ _ _ A0 B0)))).
    lra.
Qed.
Lemma edge_covered : cov 14 (edge_check 3) 640 104857600 = true.
Proof. vm_compute. reflexivity. Qed.
Theorem edge_ok p : 0.000611 <= p <= 100 -> edge p.
Proof.
  intros H. apply (cov_ok edge (edge_check 3) (edge_check_ok 3) _ _ _ edge_covered).
  unfold gr, G. lra.
Qed.

Definition hot_check (n : nat) : Z -> Z -> bool :=
  let u01 := dtab 0 1 tab2 in let w01 := dtab 0 1 tab5 in
  let T2 := iQ 1073.15 in let o1 := S1I tab2o 1 (idiv (iZ 540) T2) in
  fun l u =>
  let P := iv l u in ipos (isub (h2I o1 (polyI n u01 P (b2I T2))) (iZ 4000)).
Definition hot (p : R) : Prop := 4000 < h2R p 1073.15.
Lemma hot_check_ok n l u : hot_check n l u = true -> forall p, gr l <= p <= gr u -> hot p.
Proof.
  intros C p Hp. unfold hot_check in C.
  assert (HP : inc (iv l u) p) by now apply inc_iv.
  assert (HT2 := inc_Q 1073.15). assert (T2 : 0 < 1073.15) by lra.
  pose proof (ipos_ok _ _ C (inc_sub _ _ _ _ (inc_h2 n _ _ _ _ T2 HP HT2) (inc_Z 4000))).
  unfold hot. lra.
Qed.
Lemma hot_covered : cov 14 (hot_check 3) 640 17825792 = true.
Proof. vm_compute. reflexivity. Qed.
Theorem hot_ok p : 0.000611 <= p <= 17 -> hot p.
Proof.
  intros H. apply (cov_ok hot (hot_check 3) (hot_check_ok 3) _ _ _ hot_covered).
  unfold gr, G. lra.
Qed.

(** ** Internal energy along the saturation line *)
Definition uabove (t : R) : Prop :=
  let p := p4R t in h1R p t - 1000 * p * v1R p t < h2R p t - 1000 * p * v2R p t.
Definition u_check (n : nat) : Z -> Z -> bool :=
  let t01 := dtab 0 1 tab1 in let t10 := dtab 1 0 tab1 in
  let u01 := dtab 0 1 tab2 in let u10 := dtab 1 0 tab2 in
  fun l u =>
  if (286261248 <=? l)%Z && (u <=? 654311424)%Z then
    let T := iv l u in let P := psiv l u in
    if ipos P then
      let a := a1I P in let b := b1I T in let b' := b2I T in
      let pk := imul (iZ 1000) P in
      ipos (isub (isub (h2I (S1I tab2o 1 (idiv (iZ 540) T)) (polyI n u01 P b')) (imul pk (v2I P T (polyI n u10 P b'))))
                 (isub (h1I (polyI n t01 a b)) (imul pk (v1I T (polyI n t10 a b)))))
    else false
  else false.
Lemma u_check_ok n l u : u_check n l u = true -> forall t, gr l <= t <= gr u -> uabove t.
Proof.
  intros C t Ht. unfold u_check in C.
  destruct (286261248 <=? l)%Z eqn:Hl; [|discriminate].
  destruct (u <=? 654311424)%Z eqn:Hu; [|discriminate]. cbn [andb] in C.
  apply gr_le in Hl. apply gr_le in Hu.
  replace (gr 286261248) with 273 in Hl by (unfold gr, G; lra).
  replace (gr 654311424) with 624 in Hu by (unfold gr, G; lra).
  destruct (ipos (psiv l u)) eqn:CP; [|discriminate].
  assert (t0 : 0 < t) by lra.
  assert (HT : inc (iv l u) t) by now apply inc_iv.
  assert (HP : inc (psiv l u) (p4R t)) by (apply inc_psiv; lra).
  pose proof (ipos_ok _ _ CP HP) as p0.
  assert (H1 := inc_h1 n _ _ _ _ t0 HP HT). assert (H2 := inc_h2 n _ _ _ _ t0 HP HT).
  assert (V1 := inc_v1 n _ _ _ _ t0 HP HT). assert (V2 := inc_v2 n _ _ _ _ p0 t0 HP HT).
  assert (K := inc_mul _ _ _ _ (inc_Z 1000) HP).
  pose proof (ipos_ok _ _ C (inc_sub _ _ _ _ (inc_sub _ _ _ _ H2 (inc_mul _ _ _ _ K V2))
                                           (inc_sub _ _ _ _ H1 (inc_mul _ _ _ _ K V1)))).
  unfold uabove. lra.
Qed.
Lemma u_covered : cov 12 (u_check 3) 286261248 654311424 = true.
Proof. vm_compute. reflexivity. Qed.
Theorem sat_uabove t : 273 <= t <= 624 -> uabove t.
Proof.
  intros H. apply (cov_ok uabove (u_check 3) (u_check_ok 3) _ _ _ u_covered).
  unfold gr, G. lra.
Qed.
