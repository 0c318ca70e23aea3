(** Region 5: signs of volume, compressibility and heat capacities, by enclosure. *)
From Coq Require Import ZArith QArith Reals Lra Lia List Bool.
From Interval Require Import Tactic.
From Verif Require Import Py ExactReal RealSum ProofEos ProofThermo ProofSat Bound BoundEos BoundSat.
Import ListNotations.
Open Scope R_scope.

Definition b5I T := idiv (iZ 1000) T.
Lemma inc_g5 n i j P T p t : 0 < t -> inc P p -> inc T t ->
  inc (polyI n (dtab i j tab5) P (b5I T)) (g5 i j p t).
Proof.
  intros K HP HT. apply S2I_ok; [exact HP|]. unfold b5I, b5. apply inc_div; [apply inc_Z | exact HT | lra].
Qed.
Lemma inc_o5 j T t : 0 < t -> inc T t -> inc (S1I tab5o j (idiv (iZ 1000) T)) (o5 j t).
Proof.
  intros K HT. apply S1I_ok.
  - apply Rgt_not_eq. apply Rdiv_lt_0_compat; lra.
  - apply inc_div; [apply inc_Z | exact HT | lra].
Qed.

(** tau^2 (o_tt + g_tt) (p^2 g_pp - 1) - (1 + p g_p - tau p g_pt)^2 *)
Definition K5 (p t : R) : R :=
  (1000 / t) ^ 2 * (o5 2 t + g5 0 2 p t) * (p ^ 2 * g5 2 0 p t - 1)
  - (1 + p * g5 1 0 p t - 1000 / t * (p * g5 1 1 p t)) ^ 2.
Definition sign5 (p t : R) : Prop :=
  0 < 1 + p * g5 1 0 p t /\ o5 2 t + g5 0 2 p t < 0 /\ p ^ 2 * g5 2 0 p t - 1 < 0 /\ 0 < K5 p t.

Definition check5 (n : nat) : Z -> Z -> Z -> Z -> bool :=
  let t10 := dtab 1 0 tab5 in let t02 := dtab 0 2 tab5 in
  let t20 := dtab 2 0 tab5 in let t11 := dtab 1 1 tab5 in
  fun l u l' u' =>
  let P := iv l u in let T := iv l' u' in
  let b := b5I T in let tau := idiv (iZ 1000) T in
  let k10 := iadd (iZ 1) (imul P (polyI n t10 P b)) in
  if ipos k10 then
    let k02 := iadd (S1I tab5o 2 tau) (polyI n t02 P b) in
    if ineg k02 then
      let k20 := isub (imul (ipown P 2) (polyI n t20 P b)) (iZ 1) in
      if ineg k20 then
        let g11 := imul P (polyI n t11 P b) in
        ipos (isub (imul (imul (ipown tau 2) k02) k20) (ipown (isub k10 (imul tau g11)) 2))
      else false
    else false
  else false.

Lemma check5_ok n l u l' u' : check5 n l u l' u' = true ->
  forall p t, gr l <= p <= gr u -> gr l' <= t <= gr u' -> 0 < t -> sign5 p t.
Proof.
  intros C p t Hp Ht t0. unfold check5 in C.
  assert (HT := inc_iv l' u' t Ht). assert (HP := inc_iv l u p Hp).
    assert (IT : inc (idiv (iZ 1000) (iv l' u')) (1000 / t)) by (apply inc_div; [apply inc_Z | exact HT | lra]).
    assert (I10 : inc (iadd (iZ 1) (imul (iv l u) (polyI n (dtab 1 0 tab5) (iv l u) (b5I (iv l' u'))))) (1 + p * g5 1 0 p t)).
    { apply inc_add; [apply inc_Z|]. apply inc_mul; [exact HP | now apply inc_g5]. }
    assert (I02 : inc (iadd (S1I tab5o 2 (idiv (iZ 1000) (iv l' u'))) (polyI n (dtab 0 2 tab5) (iv l u) (b5I (iv l' u')))) (o5 2 t + g5 0 2 p t)).
    { apply inc_add; [now apply inc_o5 | now apply inc_g5]. }
    assert (I20 : inc (isub (imul (ipown (iv l u) 2) (polyI n (dtab 2 0 tab5) (iv l u) (b5I (iv l' u')))) (iZ 1)) (p ^ 2 * g5 2 0 p t - 1)).
    { apply inc_sub; [|apply inc_Z]. apply inc_mul; [exact (inc_2 _ _ HP) | exact (inc_g5 n 2 0 _ _ _ _ t0 HP HT)]. }
    revert C I10 I02 I20. cbv zeta.
    generalize (iadd (iZ 1) (imul (iv l u) (polyI n (dtab 1 0 tab5) (iv l u) (b5I (iv l' u'))))) as k10.
    generalize (iadd (S1I tab5o 2 (idiv (iZ 1000) (iv l' u'))) (polyI n (dtab 0 2 tab5) (iv l u) (b5I (iv l' u')))) as k02.
    generalize (isub (imul (ipown (iv l u) 2) (polyI n (dtab 2 0 tab5) (iv l u) (b5I (iv l' u')))) (iZ 1)) as k20.
    intros k20 k02 k10 C I10 I02 I20.
    destruct (ipos k10) eqn:E10; [|discriminate].
    destruct (ineg k02) eqn:E02; [|discriminate].
    destruct (ineg k20) eqn:E20; [|discriminate].
    repeat split.
    + exact (ipos_ok _ _ E10 I10).
    + exact (ineg_ok _ _ E02 I02).
    + exact (ineg_ok _ _ E20 I20).
    + apply (ipos_ok _ _ C). unfold K5. apply inc_sub.
      * apply inc_mul; [|exact I20]. apply inc_mul; [|exact I02]. now apply inc_2.
      * apply inc_2. apply inc_sub; [exact I10|]. apply inc_mul; [exact IT|].
        apply inc_mul; [exact HP | now apply inc_g5].
Qed.


Lemma covered5 : cov2 16 (check5 3) 100 1 640 52428800 1125279334 2383570535 = true.
Proof. vm_compute. reflexivity. Qed.

Theorem signs5 p t : 1073.15 <= t <= 2273.15 -> 0.000611 <= p <= 50 -> sign5 p t.
Proof.
  intros Ht Hp.
  refine (cov2_ok (fun p t => 0 < t -> sign5 p t) _ 100 1 _ _ _ _ _ _ covered5 p t _ _ _).
  - intros l u l' u' C x y Hx Hy S. now apply (check5_ok 3 l u l' u').
  - unfold gr, G; lra.
  - unfold gr, G; lra.
  - lra.
Qed.
