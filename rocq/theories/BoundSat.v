(** Saturated liquid and vapour along the saturation line, by enclosure. *)
From Coq Require Import ZArith QArith Reals Lra Lia List Bool.
From Verif Require Import Py ExactReal RealSum ProofEos ProofThermo ProofSat Bound BoundEos.
Import ListNotations.
Open Scope R_scope.
Local Notation ln := Rpower.ln.

Definition h1I (g01 : itv) := imul (imul Rw (iZ 1386)) g01.
Definition s1I (T g01 g00 : itv) := imul Rw (isub (imul (idiv (iZ 1386) T) g01) g00).
Definition v1I (T g10 : itv) := imul (iopp (idiv (idiv (imul Rw T) (iQ 16.53)) (iZ 1000))) g10.
Definition h2I (o1 g01 : itv) := imul (imul Rw (iZ 540)) (iadd o1 g01).
Definition s2I (P T o1 o0 g01 g00 : itv) :=
  imul Rw (isub (imul (idiv (iZ 540) T) (iadd o1 g01)) (iadd (iadd (iln P) o0) g00)).
Definition v2I (P T g10 : itv) := idiv (imul (imul Rw T) (iadd (idiv (iZ 1) P) g10)) (iZ 1000).

Definition sat_check (n : nat) : Z -> Z -> bool :=
  let t00 := dtab 0 0 tab1 in let t01 := dtab 0 1 tab1 in let t10 := dtab 1 0 tab1 in
  let u00 := dtab 0 0 tab2 in let u01 := dtab 0 1 tab2 in let u10 := dtab 1 0 tab2 in
  fun l u =>
  if (286261248 <=? l)%Z && (u <=? 654311424)%Z then
    let T := iv l u in let P := psiv l u in
    let a := a1I P in let b := b1I T in let b' := b2I T in
    let g01 := polyI n t01 a b in
    let k01 := polyI n u01 P b' in let o1 := S1I tab2o 1 (idiv (iZ 540) T) in
    ipos P &&
    ipos (isub (h2I o1 k01) (h1I g01)) &&
    (let g10 := polyI n t10 a b in let k10 := polyI n u10 P b' in
     ipos (v1I T g10) && ipos (isub (v2I P T k10) (v1I T g10))) &&
    (let g00 := polyI n t00 a b in let k00 := polyI n u00 P b' in
     let o0 := S1I tab2o 0 (idiv (iZ 540) T) in
     ipos (isub (s2I P T o1 o0 k01 k00) (s1I T g01 g00)))
  else false.

Lemma inc_h1 n P T p t : 0 < t -> inc P p -> inc T t ->
  inc (h1I (polyI n (dtab 0 1 tab1) (a1I P) (b1I T))) (h1R p t).
Proof. intros. unfold h1I, h1R. apply inc_mul; [unfold Rw; enc | now apply inc_g1]. Qed.
Lemma inc_s1 n P T p t : 0 < t -> inc P p -> inc T t ->
  inc (s1I T (polyI n (dtab 0 1 tab1) (a1I P) (b1I T)) (polyI n (dtab 0 0 tab1) (a1I P) (b1I T))) (s1R p t).
Proof.
  intros. unfold s1I, s1R. apply inc_mul; [apply inc_Q|]. apply inc_sub; [|now apply inc_g1].
  apply inc_mul; [|now apply inc_g1]. apply inc_div; [apply inc_Z | assumption | lra].
Qed.
Lemma inc_v1 n P T p t : 0 < t -> inc P p -> inc T t ->
  inc (v1I T (polyI n (dtab 1 0 tab1) (a1I P) (b1I T))) (v1R p t).
Proof.
  intros. unfold v1I, v1R. apply inc_mul; [|now apply inc_g1]. apply inc_opp.
  apply inc_div; [|apply inc_Z | lra].
  apply inc_div; [|apply inc_Q | lra]. apply inc_mul; [apply inc_Q | assumption].
Qed.
Lemma inc_h2 n P T p t : 0 < t -> inc P p -> inc T t ->
  inc (h2I (S1I tab2o 1 (idiv (iZ 540) T)) (polyI n (dtab 0 1 tab2) P (b2I T))) (h2R p t).
Proof.
  intros. unfold h2I, h2R. apply inc_mul; [unfold Rw; enc|].
  apply inc_add; [now apply inc_o2 | now apply inc_g2].
Qed.
Lemma inc_v2 n P T p t : 0 < p -> 0 < t -> inc P p -> inc T t ->
  inc (v2I P T (polyI n (dtab 1 0 tab2) P (b2I T))) (v2R p t).
Proof.
  intros. unfold v2I, v2R. apply inc_div; [|apply inc_Z | lra].
  apply inc_mul; [apply inc_mul; [apply inc_Q | assumption]|].
  apply inc_add; [apply inc_div; [apply inc_Z | assumption | lra] | now apply inc_g2].
Qed.
Lemma inc_s2 n P T p t : 0 < p -> 0 < t -> inc P p -> inc T t ->
  inc (s2I P T (S1I tab2o 1 (idiv (iZ 540) T)) (S1I tab2o 0 (idiv (iZ 540) T))
         (polyI n (dtab 0 1 tab2) P (b2I T)) (polyI n (dtab 0 0 tab2) P (b2I T))) (s2R p t).
Proof.
  intros. unfold s2I, s2R. apply inc_mul; [apply inc_Q|].
  apply inc_sub.
  - apply inc_mul; [apply inc_div; [apply inc_Z | assumption | lra]|].
    apply inc_add; [now apply inc_o2 | now apply inc_g2].
  - apply inc_add; [|now apply inc_g2]. apply inc_add; [now apply inc_ln | now apply inc_o2].
Qed.

Definition above (t : R) : Prop :=
  let p := p4R t in h1R p t < h2R p t /\ s1R p t < s2R p t /\ 0 < v1R p t < v2R p t.

Lemma gr_le a b : (a <=? b)%Z = true -> gr a <= gr b.
Proof.
  intros H. apply Z.leb_le in H. apply IZR_le in H. unfold gr.
  apply Rmult_le_compat_r; [|exact H]. apply Rlt_le, Rinv_0_lt_compat, IZR_lt. reflexivity.
Qed.

Lemma sat_check_ok n l u : sat_check n l u = true -> forall t, gr l <= t <= gr u -> above t.
Proof.
  intros C t Ht. unfold sat_check in C.
  destruct (286261248 <=? l)%Z eqn:Hl; [|discriminate].
  destruct (u <=? 654311424)%Z eqn:Hu; [|discriminate]. cbn [andb] in C.
  apply gr_le in Hl. apply gr_le in Hu.
  replace (gr 286261248) with 273 in Hl by (unfold gr, G; lra).
  replace (gr 654311424) with 624 in Hu by (unfold gr, G; lra).
  rewrite !andb_true_iff in C. destruct C as (((CP & CH) & CV & CV') & CS).
  assert (t0 : 0 < t) by lra.
  assert (HT : inc (iv l u) t) by now apply inc_iv.
  assert (HP : inc (psiv l u) (p4R t)) by (apply inc_psiv; lra).
  pose proof (ipos_ok _ _ CP HP) as p0.
  assert (H1 := inc_h1 n _ _ _ _ t0 HP HT). assert (H2 := inc_h2 n _ _ _ _ t0 HP HT).
  assert (V1 := inc_v1 n _ _ _ _ t0 HP HT). assert (V2 := inc_v2 n _ _ _ _ p0 t0 HP HT).
  assert (S1 := inc_s1 n _ _ _ _ t0 HP HT). assert (S2 := inc_s2 n _ _ _ _ p0 t0 HP HT).
  pose proof (ipos_ok _ _ CH (inc_sub _ _ _ _ H2 H1)).
  pose proof (ipos_ok _ _ CV V1).
  pose proof (ipos_ok _ _ CV' (inc_sub _ _ _ _ V2 V1)).
  pose proof (ipos_ok _ _ CS (inc_sub _ _ _ _ S2 S1)).
  unfold above. lra.
Qed.

Lemma sat_covered : cov 12 (sat_check 3) 286261248 654311424 = true.
Proof. vm_compute. reflexivity. Qed.

Theorem sat_above t : 273 <= t <= 624 -> above t.
Proof.
  intros H. apply (cov_ok above (sat_check 3) (sat_check_ok 3) _ _ _ sat_covered).
  unfold gr, G. lra.
Qed.
