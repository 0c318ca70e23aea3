(** The backward temperatures of regions 2 and 3 stay between 200 and 1150 K. *)
From Coq Require Import ZArith QArith Reals Lra Lia List Bool PrimFloat.
From Interval Require Import Tactic.
From Verif Require Import Py ExactReal RealSum ProofSat ProofEos ProofThermo ProofBack Bound BoundEos BoundF BoundT BoundC BoundU BoundS BoundV BoundR1 Bound2.
Import ListNotations.
Open Scope R_scope.

(** ** Enthalpies along two borders *)
Definition h23 := over (fun V T => ubound V (h2U V 5 (padd (p23U V 5 T) [iv (-2) 2]) T)).
Lemma h23_ok e l u t : Rabs e < 0.000001 -> gr l <= t <= gr u -> inc (h23 l u) (h2R (p23R t + e) t).
Proof.
  intros He H. apply (over_ok _ (fun t => h2R (p23R t + e) t)); [exact H|]. intros V v T HV HT. apply ubound_ok with v; [exact HV|].
  apply h2U_ok; [exact HV | | exact HT]. apply padd_ok; [now apply p23U_ok|]. apply pol_const, inc_iv. unfold gr, G.
  revert He. unfold Rabs. destruct (Rcase_abs e); lra.
Qed.
Definition h1073 := over (fun V P => ubound V (padd (h2U V 5 P [iQ 1073.15]) (pscal (iZ 4) P))).
Lemma h1073_ok l u p : gr l <= p <= gr u -> inc (h1073 l u) (h2R p 1073.15 + 4 * p).
Proof.
  intros H. apply (over_ok _ (fun p => h2R p 1073.15 + 4 * p)); [exact H|]. intros V v P HV HP. apply ubound_ok with v; [exact HV|].
  apply padd_ok; [|apply pscal_ok; [apply inc_Z | exact HP]].
  apply h2U_ok; [exact HV | exact HP|]. apply pol_const. replace 1073.15 with (Q2R 1073.15) by (unfold Q2R; cbn; lra). apply inc_Q.
Qed.
Definition h623 := over (fun V P => ubound V (h1U V 5 P [iQ 623.15])).
Lemma h623_ok l u p : gr l <= p <= gr u -> inc (h623 l u) (h1R p 623.15).
Proof.
  intros H. apply (over_ok _ (fun p => h1R p 623.15)); [exact H|]. intros V v P HV HP. apply ubound_ok with v; [exact HV|].
  apply h1U_ok; [exact HV | exact HP|]. apply pol_const. replace 623.15 with (Q2R 623.15) by (unfold Q2R; cbn; lra). apply inc_Q.
Qed.

Lemma h23_range e t : Rabs e < 0.000001 -> 623.1 <= t <= 863.2 -> 2540 < h2R (p23R t + e) t < 2880.
Proof.
  intros He H. assert (K : ends 2540 2880 (fun t => h2R (p23R t + e) t) 623.1 863.2).
  { assert (X := fun l u t => h23_ok e l u t He). seg X h23 2540%Q 2880%Q 653367705%Z 905130804%Z. }
  specialize (K t H). cbn beta in K. set (y := h2R (p23R t + e) t) in *. clearbody y. unfold Q2R in K; cbn [Qnum Qden] in K. lra.
Qed.
Lemma h1073_range p : 0.0006 <= p <= 100 -> 4000 < h2R p 1073.15 + 4 * p < 4190.
Proof.
  intros H. assert (K : ends 4000 4190 (fun p => h2R p 1073.15 + 4 * p) 0.0006 100).
  { seg h1073_ok h1073 4000%Q 4190%Q 629%Z 104857600%Z. }
  specialize (K p H). cbn beta in K. set (y := h2R p 1073.15) in *. clearbody y. unfold Q2R in K; cbn [Qnum Qden] in K. lra.
Qed.
Lemma h623_range p : 16.5 <= p <= 100 -> 1540 < h1R p 623.15 < 1690.
Proof.
  intros H. assert (K : ends 1540 1690 (fun p => h1R p 623.15) 16.5 100).
  { seg h623_ok h623 1540%Q 1690%Q 17301504%Z 104857600%Z. }
  specialize (K p H). cbn beta in K. set (y := h1R p 623.15) in *. clearbody y. unfold Q2R in K; cbn [Qnum Qden] in K. lra.
Qed.

(** ** Table sums over a rectangle *)
Definition enc (n : nat) (g : gtab) (A B : itv) : itv :=
  let x := mk A B in
  if good x then qbound (isub A (bA0 x)) (isub B (bB0 x)) (sub2 0 0 (matrix n x g [])) else I.nai.
Lemma enc_ok n tab A B a b : inc A a -> inc B b -> inc (enc n (grp tab) A B) (S2 tab 0 0 a b).
Proof.
  intros HA HB. unfold enc. cbv zeta. destruct (good (mk A B)) eqn:G; [|apply inc_nai].
  destruct (good_boxed _ _ _ _ G HA HB) as (a0 & b0 & X).
  apply qbound_ok with (a - a0) (b - b0).
  - apply inc_sub; [exact HA | exact (in_A0 _ _ _ _ _ X)].
  - apply inc_sub; [exact HB | exact (in_B0 _ _ _ _ _ X)].
  - apply tay_ok; [exact X | lia | lia].
Qed.
Definition off (X : itv) : itv := isub X (iZ 675).
Definition tame (X : itv) : bool := within0 (off X) (iZ 475).
Definition n2 := 5%nat.
Definition T2aI : itv -> itv -> itv := let g := grp (prep false true tabT2ah) in fun P H => enc n2 g (isub (iQ 2.1) (imul (iQ (Qmake 1 2000)) H)) P.
Definition T2bI : itv -> itv -> itv := let g := grp (prep false true tabT2bh) in fun P H => enc n2 g (isub (iQ 2.6) (imul (iQ (Qmake 1 2000)) H)) (isub P (iZ 2)).
Definition T2cI : itv -> itv -> itv := let g := grp (prep false true tabT2ch) in fun P H => enc n2 g (isub (iQ 1.8) (imul (iQ (Qmake 1 2000)) H)) (iadd P (iZ 25)).
Definition T3aI : itv -> itv -> itv := let g := grp (prep false false tabT3ah) in
  fun P H => imul (iZ 760) (enc n2 g (isub (imul (iQ (Qmake 1 2300)) H) (iQ 0.615)) (iadd (imul (iQ 0.01) P) (iQ 0.24))).
Definition T3bI : itv -> itv -> itv := let g := grp (prep false false tabT3bh) in
  fun P H => imul (iZ 860) (enc n2 g (isub (imul (iQ (Qmake 1 2800)) H) (iQ 0.72)) (iadd (imul (iQ 0.01) P) (iQ 0.298))).
(** lower end of region 2 as [region_ph] decides it below 16.5292 MPa *)
Definition lowI (P H : itv) : bool := ineg (isub H (iadd (iQ 2754.4) (isub (imul (iQ 45.1768) (iln P)) (imul (iQ 20.158) P)))).
Definition bcI (P H : itv) : bool := ipos (isub P (iadd (iQ 905.84278514723) (iadd (imul (iQ (-0.67955786399241)) H) (imul (iQ 0.00012809002730136) (imul H H))))).
Definition abI (P H : itv) : bool := ipos (isub H (iadd (iQ 2014.64004206875) (imul P (iadd (iQ 3.74696550136983) (imul P (iadd (iQ (-0.0219921901054187)) (imul P (iQ 0.000087513168600995)))))))).
Definition hotI (P H : itv) : bool := ipos (isub (iadd H (imul (iZ 4) P)) (iZ 4190)).
Definition eitherI (f g : itv -> itv -> bool) (P H : itv) : bool := if f P H then true else g P H.
Definition bchI := eitherI bcI hotI.
Definition never (P H : itv) : bool := false.
Definition boxes (f : itv -> itv -> itv) (skip : itv -> itv -> bool) (l u l' u' : Z) : bool :=
  let P := iv l u in let H := iv l' u' in if skip P H then true else tame (f P H).
Definition sizes (f : itv -> itv -> itv) (skip : itv -> itv -> bool) (l u l' u' : Z) : option PrimFloat.float :=
  let P := iv l u in let H := iv l' u' in if skip P H then None else Some (mag (off (f P H))).
Definition hunt f skip := search 40 (sizes f skip) 474%float.
Definition treeA : tree := Eval vm_compute in hunt T2aI lowI 629 4194304 2535456768 4393533440.
Definition treeB : tree := Eval vm_compute in hunt T2bI bchI 4194304 104857600 2663383040 4393533440.
Definition treeC : tree := Eval vm_compute in hunt T2cI never 4194304 104857600 2663383040 3690987520.
Definition treeD : tree := Eval vm_compute in hunt T3aI abI 17301504 104857600 1614807040 2410000000.
Definition treeE : tree := Eval vm_compute in hunt T3bI never 17301504 104857600 2150000000 3019898880.
Lemma coverA : cover (boxes T2aI lowI) treeA 629 4194304 2535456768 4393533440 = true. Proof. vm_compute; reflexivity. Qed.
Lemma coverB : cover (boxes T2bI bchI) treeB 4194304 104857600 2663383040 4393533440 = true. Proof. vm_compute; reflexivity. Qed.
Lemma coverC : cover (boxes T2cI never) treeC 4194304 104857600 2663383040 3690987520 = true. Proof. vm_compute; reflexivity. Qed.
Lemma coverD : cover (boxes T3aI abI) treeD 17301504 104857600 1614807040 2410000000 = true. Proof. vm_compute; reflexivity. Qed.
Lemma coverE : cover (boxes T3bI never) treeE 17301504 104857600 2150000000 3019898880 = true. Proof. vm_compute; reflexivity. Qed.

Section Use.
Variables (f : itv -> itv -> itv) (skip : itv -> itv -> bool) (g : R -> R -> R) (out : R -> R -> Prop).
Hypothesis (Hf : forall P H p h, inc P p -> inc H h -> inc (f P H) (g p h)).
Hypothesis (Hs : forall P H p h, skip P H = true -> 0 < p -> inc P p -> inc H h -> out p h).
Lemma boxes_ok t l u l' u' : cover (boxes f skip) t l u l' u' = true -> forall p h, gr l <= p <= gr u -> gr l' <= h <= gr u' ->
  0 < p -> ~ out p h -> 200 <= g p h <= 1150.
Proof.
  intros C p h A B P N. revert P N.
  refine (cover_ok (fun p h => 0 < p -> ~ out p h -> 200 <= g p h <= 1150) (boxes f skip) _ t l u l' u' C p h A B).
  clear - Hf Hs. intros l u l' u' C p h A B P N. unfold boxes in C. cbv zeta in C.
  assert (IP := inc_iv _ _ _ A). assert (IH := inc_iv _ _ _ B).
  destruct (skip (iv l u) (iv l' u')) eqn:E; [elim N; exact (Hs _ _ _ _ E P IP IH)|].
  assert (K := within0_ok _ _ _ _ C (inc_sub _ _ _ _ (Hf _ _ _ _ IP IH) (inc_Z 675)) (inc_Z 475)).
  unfold Rabs in K. destruct (Rcase_abs _); lra.
Qed.
End Use.
Definition T2aR p h := S2 tabT2ah 0 0 p (h / 2000 - 2.1).
Definition T2bR p h := S2 tabT2bh 0 0 (p - 2) (h / 2000 - 2.6).
Definition T2cR p h := S2 tabT2ch 0 0 (p + 25) (h / 2000 - 1.8).
Definition T3aR p h := S2 tabT3ah 0 0 (p / 100 + 0.24) (h / 2300 - 0.615) * 760.
Definition T3bR p h := S2 tabT3bh 0 0 (p / 100 + 0.298) (h / 2800 - 0.72) * 860.
Ltac lins := cbn [sg]; unfold Q2R; cbn [Qnum Qden]; field.
Lemma T2aI_ok P H p h : inc P p -> inc H h -> inc (T2aI P H) (T2aR p h).
Proof.
  intros A B. unfold T2aI, T2aR. cbv zeta. rewrite <- (prep_ok false true). cbn [sg]. apply enc_ok; [|exact A].
  replace (- (h / 2000 - 2.1)) with (Q2R 2.1 - Q2R (Qmake 1 2000) * h) by lins.
  apply inc_sub; [apply inc_Q | apply inc_mul; [apply inc_Q | exact B]].
Qed.
Lemma T2bI_ok P H p h : inc P p -> inc H h -> inc (T2bI P H) (T2bR p h).
Proof.
  intros A B. unfold T2bI, T2bR. cbv zeta. rewrite <- (prep_ok false true). cbn [sg]. apply enc_ok; [|apply inc_sub; [exact A | apply inc_Z]].
  replace (- (h / 2000 - 2.6)) with (Q2R 2.6 - Q2R (Qmake 1 2000) * h) by lins.
  apply inc_sub; [apply inc_Q | apply inc_mul; [apply inc_Q | exact B]].
Qed.
Lemma T2cI_ok P H p h : inc P p -> inc H h -> inc (T2cI P H) (T2cR p h).
Proof.
  intros A B. unfold T2cI, T2cR. cbv zeta. rewrite <- (prep_ok false true). cbn [sg]. apply enc_ok; [|apply inc_add; [exact A | apply inc_Z]].
  replace (- (h / 2000 - 1.8)) with (Q2R 1.8 - Q2R (Qmake 1 2000) * h) by lins.
  apply inc_sub; [apply inc_Q | apply inc_mul; [apply inc_Q | exact B]].
Qed.
Lemma T3aI_ok P H p h : inc P p -> inc H h -> inc (T3aI P H) (T3aR p h).
Proof.
  intros A B. unfold T3aI, T3aR. cbv zeta. rewrite <- (prep_ok false false), Rmult_comm. cbn [sg]. apply inc_mul; [apply inc_Z|]. apply enc_ok.
  - replace (h / 2300 - 0.615) with (Q2R (Qmake 1 2300) * h - Q2R 0.615) by lins.
    apply inc_sub; [apply inc_mul; [apply inc_Q | exact B] | apply inc_Q].
  - replace (p / 100 + 0.24) with (Q2R 0.01 * p + Q2R 0.24) by lins.
    apply inc_add; [apply inc_mul; [apply inc_Q | exact A] | apply inc_Q].
Qed.
Lemma T3bI_ok P H p h : inc P p -> inc H h -> inc (T3bI P H) (T3bR p h).
Proof.
  intros A B. unfold T3bI, T3bR. cbv zeta. rewrite <- (prep_ok false false), Rmult_comm. cbn [sg]. apply inc_mul; [apply inc_Z|]. apply enc_ok.
  - replace (h / 2800 - 0.72) with (Q2R (Qmake 1 2800) * h - Q2R 0.72) by lins.
    apply inc_sub; [apply inc_mul; [apply inc_Q | exact B] | apply inc_Q].
  - replace (p / 100 + 0.298) with (Q2R 0.01 * p + Q2R 0.298) by lins.
    apply inc_add; [apply inc_mul; [apply inc_Q | exact A] | apply inc_Q].
Qed.
Definition below (p h : R) : Prop := h < 45.1768 * Rpower.ln p - 20.158 * p + 2804.4 - 50.
Lemma lowI_ok P H p h : lowI P H = true -> 0 < p -> inc P p -> inc H h -> below p h.
Proof.
  intros E Pp A B. unfold lowI in E.
  assert (K := ineg_ok _ _ E (inc_sub _ _ _ _ B (inc_add _ _ _ _ (inc_Q 2754.4) (inc_sub _ _ _ _ (inc_mul _ _ _ _ (inc_Q 45.1768) (inc_ln _ _ A Pp)) (inc_mul _ _ _ _ (inc_Q 20.158) A))))).
  revert K. unfold below. generalize (Rpower.ln p). intros y K. unfold Q2R in K; cbn [Qnum Qden] in K. lra.
Qed.
Lemma bcI_ok P H p h : bcI P H = true -> 0 < p -> inc P p -> inc H h -> bc h < p.
Proof.
  intros E Pp A B. unfold bcI in E.
  assert (K := ipos_ok _ _ E (inc_sub _ _ _ _ A (inc_add _ _ _ _ (inc_Q 905.84278514723) (inc_add _ _ _ _ (inc_mul _ _ _ _ (inc_Q (-0.67955786399241)) B)
    (inc_mul _ _ _ _ (inc_Q 0.00012809002730136) (inc_mul _ _ _ _ B B)))))).
  unfold Q2R in K; cbn [Qnum Qden] in K. unfold bc. lra.
Qed.
Lemma abI_ok P H p h : abI P H = true -> 0 < p -> inc P p -> inc H h -> ProofBack.ab p < h.
Proof.
  intros E Pp A B. unfold abI in E.
  assert (K := ipos_ok _ _ E (inc_sub _ _ _ _ B (inc_add _ _ _ _ (inc_Q 2014.64004206875) (inc_mul _ _ _ _ A (inc_add _ _ _ _ (inc_Q 3.74696550136983)
    (inc_mul _ _ _ _ A (inc_add _ _ _ _ (inc_Q (-0.0219921901054187)) (inc_mul _ _ _ _ A (inc_Q 0.000087513168600995))))))))).
  unfold Q2R in K; cbn [Qnum Qden] in K. unfold ProofBack.ab. lra.
Qed.
Lemma never_ok P H p h : never P H = true -> 0 < p -> inc P p -> inc H h -> False.
Proof. discriminate. Qed.
Lemma bchI_ok P H p h : bchI P H = true -> 0 < p -> inc P p -> inc H h -> bc h < p \/ 4190 < h + 4 * p.
Proof.
  intros E Pp A B. unfold bchI, eitherI in E. destruct (bcI P H) eqn:K; [left; now apply (bcI_ok P H)|]. right. unfold hotI in E.
  assert (L := ipos_ok _ _ E (inc_sub _ _ _ _ (inc_add _ _ _ _ B (inc_mul _ _ _ _ (inc_Z 4) A)) (inc_Z 4190))). lra.
Qed.
Lemma T2a_range p h : 0.0006 <= p <= 4 -> h + 4 * p <= 4190 -> ~ below p h -> 200 <= T2aR p h <= 1150.
Proof.
  intros A B N. assert (L : 2418 <= h).
  { apply Rnot_lt_le. intros L. apply N. unfold below. apply Rlt_le_trans with 2418; [exact L|]. interval with (i_bisect p). }
  apply (boxes_ok T2aI lowI T2aR below T2aI_ok lowI_ok treeA _ _ _ _ coverA); [unfold gr, G; lra | unfold gr, G; lra | lra | exact N].
Qed.
Lemma T2b_range p h : 4 <= p <= 100 -> 2540 <= h -> h + 4 * p <= 4190 -> p < bc h -> 200 <= T2bR p h <= 1150.
Proof.
  intros A B C N. apply (boxes_ok T2bI bchI T2bR (fun p h => bc h < p \/ 4190 < h + 4 * p) T2bI_ok bchI_ok treeB _ _ _ _ coverB); [unfold gr, G; lra | unfold gr, G; lra | lra | lra].
Qed.
Lemma T2c_range p h : 4 <= p <= 100 -> 2540 <= h -> bc h <= p -> 200 <= T2cR p h <= 1150.
Proof.
  intros A B N. assert (L : h <= 3520) by (unfold bc in N; nra).
  apply (boxes_ok T2cI never T2cR (fun p h => False) T2cI_ok never_ok treeC _ _ _ _ coverC); [unfold gr, G; lra | unfold gr, G; lra | lra | tauto].
Qed.
Lemma T3a_range p h : 16.5 <= p <= 100 -> 1540 <= h -> h < ProofBack.ab p -> 200 <= T3aR p h <= 1150.
Proof.
  intros A B N. assert (L : h <= 2290) by (unfold ProofBack.ab in N; apply Rlt_le, (Rlt_le_trans _ _ _ N); interval with (i_bisect p)).
  apply (boxes_ok T3aI abI T3aR (fun p h => ProofBack.ab p < h) T3aI_ok abI_ok treeD _ _ _ _ coverD); [unfold gr, G; lra | unfold gr, G; lra | lra | lra].
Qed.
Lemma T3b_range p h : 16.5 <= p <= 100 -> h <= 2880 -> ProofBack.ab p <= h -> 200 <= T3bR p h <= 1150.
Proof.
  intros A B N. assert (L : 2060 <= h) by (unfold ProofBack.ab in N; apply Rle_trans with (2 := N); interval with (i_bisect p)).
  apply (boxes_ok T3bI never T3bR (fun p h => False) T3bI_ok never_ok treeE _ _ _ _ coverE); [unfold gr, G; lra | unfold gr, G; lra | lra | tauto].
Qed.
