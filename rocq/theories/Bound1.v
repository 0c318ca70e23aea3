(** Region 1 from the saturation line to 100 MPa: signs of volume, compressibility and heat
    capacities, by enclosure. *)
From Coq Require Import ZArith QArith Reals Lra Lia List Bool.
From Verif Require Import Py ExactReal RealSum ProofEos ProofThermo ProofSat Bound BoundF BoundEos BoundSat.
Import ListNotations.
Open Scope R_scope.

(** tau^2 g_tt g_pp - (g_p - tau g_pt)^2 *)
Definition K1 (p t : R) : R :=
  (1386 / t) ^ 2 * g1 0 2 p t * g1 2 0 p t - (g1 1 0 p t - 1386 / t * g1 1 1 p t) ^ 2.
Definition sign1 (p t : R) : Prop :=
  g1 1 0 p t < 0 /\ g1 0 2 p t < 0 /\ g1 2 0 p t < 0 /\ 0 < K1 p t.

Lemma inc_d1 n i j P T p t : 0 < t -> inc P p -> inc T t -> inc (deriv n (grp tab1) (a1I P) (b1I T) i j) (g1 i j p t).
Proof. intros. apply deriv_ok; [now apply inc_a1 | now apply inc_b1]. Qed.

(** Boxes are pressure times temperature. *)
Definition check1 (n : nat) : Z -> Z -> Z -> Z -> bool :=
  let g := grp tab1 in
  fun l u l' u' =>
  let P := iv l u in let T := iv l' u' in
  if ineg (isub P (psI (idiv (iZ l') (iZ G)))) then true else
  let d := deriv n g (a1I P) (b1I T) in
  let g10 := d 1%nat 0%nat in
  if ineg g10 then
    let g02 := d 0%nat 2%nat in
    if ineg g02 then
      let g20 := d 2%nat 0%nat in
      if ineg g20 then
        let g11 := d 1%nat 1%nat in
        let tau := idiv (iZ 1386) T in
        ipos (isub (imul (imul (ipown tau 2) g02) g20) (ipown (isub g10 (imul tau g11)) 2))
      else false
    else false
  else false.

Lemma check1_ok n l u l' u' : check1 n l u l' u' = true ->
  forall p t, gr l <= p <= gr u -> gr l' <= t <= gr u' ->
  273 <= gr l' -> gr u' <= 647.1 -> p4R t <= p -> sign1 p t.
Proof.
  intros C p t Hp Ht L U S. unfold check1 in C.
  assert (t0 : 0 < t) by lra.
  assert (HT := inc_iv l' u' t Ht). assert (HP := inc_iv l u p Hp).
  destruct (ineg (isub (iv l u) (psI (idiv (iZ l') (iZ G))))) eqn:E.
  - exfalso. apply ineg_ok with (x := p - p4R (gr l')) in E.
    + assert (p4R (gr l') <= p4R t).
      { destruct (proj1 Ht) as [K|K]; [apply Rlt_le, p4_incr; lra | rewrite K; lra]. }
      lra.
    + apply inc_sub; [exact HP|]. apply inc_ps; [lra | apply inc_gr].
  - assert (I10 := inc_d1 n 1 0 _ _ _ _ t0 HP HT). assert (I02 := inc_d1 n 0 2 _ _ _ _ t0 HP HT).
    assert (I20 := inc_d1 n 2 0 _ _ _ _ t0 HP HT). assert (I11 := inc_d1 n 1 1 _ _ _ _ t0 HP HT).
    destruct (ineg (deriv n (grp tab1) _ _ 1%nat 0%nat)) eqn:E10; [|discriminate].
    destruct (ineg (deriv n (grp tab1) _ _ 0%nat 2%nat)) eqn:E02; [|discriminate].
    destruct (ineg (deriv n (grp tab1) _ _ 2%nat 0%nat)) eqn:E20; [|discriminate].
    apply (ineg_ok _ _ E10) in I10 as N10. apply (ineg_ok _ _ E02) in I02 as N02.
    apply (ineg_ok _ _ E20) in I20 as N20.
    repeat split; try assumption.
    apply (ipos_ok _ _ C). unfold K1.
    assert (IT : inc (idiv (iZ 1386) (iv l' u')) (1386 / t)) by (apply inc_div; [apply inc_Z | exact HT | lra]).
    apply inc_sub.
    + apply inc_mul; [|exact I20]. apply inc_mul; [|exact I02]. now apply inc_2.
    + apply inc_2. apply inc_sub; [exact I10|]. now apply inc_mul.
Qed.

Lemma gr_lo : gr 286261248 = 273.
Proof. unfold gr, G. lra. Qed.
Lemma gr_hi : gr 653420135 = 653420135 / 1048576.
Proof. reflexivity. Qed.

(** The check with its side conditions *)
Definition check1' (n : nat) : Z -> Z -> Z -> Z -> bool :=
  let f := check1 n in
  fun l u l' u' => if ((286261248 <=? l')%Z && (u' <=? 653420135)%Z) then f l u l' u' else false.
Lemma covered1 : cov2 20 (check1' 6) 1 1 0 104857600 286261248 653420135 = true.
Proof. vm_compute. reflexivity. Qed.

Theorem signs1 p t : 273 <= t <= 623.15 -> p4R t <= p <= 100 -> sign1 p t.
Proof.
  intros Ht Hp.
  assert (p0 : 0 < p4R t) by (apply p4_pos; lra).
  assert (H : p4R t <= p -> sign1 p t); [|now apply H].
  refine (cov2_ok (fun p t => p4R t <= p -> sign1 p t) _ 1 1 _ _ _ _ _ _ covered1 p t _ _).
  - intros l u l' u' C x y Hx Hy.
    unfold check1' in C.
    destruct (286261248 <=? l')%Z eqn:E1; [|discriminate].
    destruct (u' <=? 653420135)%Z eqn:E2; [|discriminate]. cbn [andb] in C.
    apply gr_le in E1. apply gr_le in E2. rewrite gr_lo in E1. rewrite gr_hi in E2.
    apply (check1_ok 6 l u l' u' C x y Hx Hy); lra.
  - unfold gr, G. lra.
  - unfold gr, G. lra.
Qed.
