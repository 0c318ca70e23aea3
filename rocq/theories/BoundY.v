(** Along the borders between regions, both sides agree: enclosures of the differences. *)
From Coq Require Import ZArith QArith Qreals Reals Lra Lia List Bool.
From Verif Require Import Py ExactReal RealSum ProofSat ProofEos ProofThermo Bound BoundEos BoundF BoundT BoundU BoundS BoundV Bound2 BoundA BoundW.
Import ListNotations.
Open Scope R_scope.

(** ** Polynomials of one variable as an arithmetic of enclosures *)
Definition uni (V : itv) (n : nat) : alg := {| car := poly; aadd := padd; amul := umul V n; ascal := pscal; aconst C := [C];
  ainv := uinv V n; asqrt := usqrt V n; aln := uln V n |}.
Lemma uni_lawful V n v : inc V v -> lawful (uni V n) (pol v).
Proof.
  intros HV. constructor; cbn [uni car aadd amul ascal aconst ainv asqrt aln]; intros.
  - now apply padd_ok.
  - now apply umul_ok.
  - now apply pscal_ok.
  - now apply pol_const.
  - now apply uinv_ok.
  - now apply usqrt_ok.
  - now apply uln_ok.
Qed.

(** ** Several bounds at once *)
Fixpoint all_in (xs : list itv) (bs : list (Q * Q)) : bool :=
  match xs, bs with
  | [], [] => true
  | x :: xs', (a, b) :: bs' => if isin x a b then all_in xs' bs' else false
  | _, _ => false
  end.
Fixpoint within (ys : list R) (bs : list (Q * Q)) : Prop :=
  match ys, bs with
  | [], [] => True
  | y :: ys', (a, b) :: bs' => (Q2R a < y < Q2R b) /\ within ys' bs'
  | _, _ => False
  end.
Lemma all_in_ok xs ys : Forall2 inc xs ys -> forall bs, all_in xs bs = true -> within ys bs.
Proof.
  induction 1 as [|x y xs ys Hx H IH]; intros [|[a b] bs] C; cbn [all_in within] in *; try discriminate; [exact Logic.I|].
  destruct (isin x a b) eqn:E; [|discriminate]. split; [now apply (isin_ok _ _ _ _ E) | now apply IH].
Qed.
Section Many.
Variables (f : itv -> poly -> list itv) (g : R -> list R) (bs : list (Q * Q)).
Definition many (l u : Z) : bool := let S := iv l u in let S0 := imid S in all_in (f (isub S S0) [S0; iZ 1]) bs.
Variables x y : R.
Hypothesis Hf : forall V v S s, x <= s <= y -> inc V v -> pol v S s -> Forall2 inc (f V S) (g s).
Lemma many_ok l u : many l u = true -> forall s, gr l <= s <= gr u -> x <= s <= y -> within (g s) bs.
Proof.
  unfold many. cbv zeta. intros C s H R0. apply (all_in_ok _ _) with (2 := C). assert (HS := inc_iv l u s H). destruct (imid_in (iv l u)) as [s0 H0].
  apply (Hf _ (s - s0)); [exact R0 | now apply inc_sub|]. eapply pol_eq; [constructor; [exact H0 | apply pol_const, inc_Z]|]. ring.
Qed.
Lemma many_chain cs l u : chain many l cs u = true -> gr l <= x -> y <= gr u -> forall s, x <= s <= y -> within (g s) bs.
Proof. intros C X Y s Hs. apply (chain_ok (fun s => x <= s <= y -> within (g s) bs) many many_ok cs l u C); [lra | exact Hs]. Qed.
End Many.
Ltac segs H f bs l u :=
  let cs := eval vm_compute in (fill (many f bs) l u) in
  apply many_chain with f cs l u; [intros ? ? ? ? ? ? ?; eapply H; eassumption | vm_compute; reflexivity | unfold gr, G; lra | unfold gr, G; lra].

(** ** The Gibbs energies of regions 1 and 2 on the saturation line *)
Definition psub (X Y : poly) : poly := padd X (pscal (iZ (-1)) Y).
Lemma psub_ok v X Y x y : pol v X x -> pol v Y y -> pol v (psub X Y) (x - y).
Proof. intros H K. eapply pol_eq; [apply padd_ok; [exact H | apply pscal_ok; [apply inc_Z | exact K]]|]. ring. Qed.
Definition gap (V : itv) (T : poly) : list itv := let P := p4U V 6 T in
  [ubound V (psub (psub (h2U V 6 P T) (h1U V 6 P T)) (umul V 6 T (psub (s2U V 6 P T) (s1U V 6 P T))))].
Lemma gap_ok V v T t : 273 <= t <= 647.1 -> inc V v -> pol v T t -> Forall2 inc (gap V T)
  [h2R (p4R t) t - h1R (p4R t) t - t * (s2R (p4R t) t - s1R (p4R t) t)].
Proof.
  intros R0 HV HT. unfold gap. cbv zeta. assert (HP := p4U_ok V 6 v HV T t R0 HT). constructor; [|constructor].
  apply ubound_ok with v; [exact HV|]. apply psub_ok; [apply psub_ok; [now apply h2U_ok | now apply h1U_ok]|].
  apply umul_ok; [exact HV | exact HT|]. apply psub_ok; [now apply s2U_ok | now apply s1U_ok].
Qed.

(** ** Region 3 next to region 1 *)
Definition j13 (V : itv) (P : poly) : list itv := let A := uni V 6 in let T : poly := [iQ 623.15] in
  let s := st3A A (uinv V 6 (v1U V 6 P T)) T in
  [ubound V (psub (p3A A s) P); ubound V (psub (h3A A s) (h1U V 6 P T)); ubound V (psub (s3A A s) (s1U V 6 P T))].
Lemma const_T v q x : Q2R q = x -> pol v [iQ q] x.
Proof. intros <-. apply pol_const, inc_Q. Qed.
Lemma j13_ok V v P p : inc V v -> pol v P p -> let r := 1 / v1R p 623.15 in Forall2 inc (j13 V P)
  [p3R r 623.15 - p; h3R r 623.15 - h1R p 623.15; s3R r 623.15 - s1R p 623.15].
Proof.
  intros HV HP. cbv zeta. unfold j13. cbv zeta. assert (L := uni_lawful V 6 v HV).
  assert (HT : pol v [iQ 623.15] 623.15) by (apply const_T; unfold Q2R; cbn; lra).
  assert (HX := uinv_ok V 6 v HV _ _ (v1U_ok V 6 v HV _ _ _ _ HP HT)).
  assert (K := st3A_ok (uni V 6) _ L _ _ _ _ HX HT). set (s := st3A _ _ _) in *. clearbody s.
  repeat constructor; (apply ubound_ok with v; [exact HV|]; apply psub_ok).
  - exact (p3A_ok (uni V 6) _ L _ _ s K).
  - exact HP.
  - exact (h3A_ok (uni V 6) _ L _ _ s K).
  - now apply h1U_ok.
  - exact (s3A_ok (uni V 6) _ L _ _ s K).
  - now apply s1U_ok.
Qed.
(** ** Region 3 next to region 2 *)
Definition v2U (V : itv) (n : nat) := let f := g2U V n 1 0 in
  fun P T : poly => pscal (iQ (Qmake 461526 1000000000)) (umul V n T (padd (uinv V n P) (f P (tauU V n 540 T)))).
Lemma v2U_ok V n v P T p t : inc V v -> pol v P p -> pol v T t -> pol v (v2U V n P T) (v2R p t).
Proof.
  intros HV HP HT. unfold v2U. cbv zeta.
  eapply pol_eq; [apply pscal_ok; [apply inc_Q|]; apply umul_ok; [exact HV | exact HT|]; apply padd_ok; [apply uinv_ok; [exact HV | exact HP] | apply g2U_ok; [exact HV | exact HP | apply tauU_ok; [exact HV | exact HT]]]|].
  unfold v2R. set (g := g2 1 0 p t). unfold Rdiv, Q2R; cbn [Qnum Qden]. lra.
Qed.
Definition j23 (V : itv) (T : poly) : list itv := let A := uni V 6 in let P := p23U V 6 T in
  let s := st3A A (uinv V 6 (v2U V 6 P T)) T in
  [ubound V (psub (p3A A s) P); ubound V (psub (h3A A s) (h2U V 6 P T)); ubound V (psub (s3A A s) (s2U V 6 P T))].
Lemma j23_ok V v T t : inc V v -> pol v T t -> let p := p23R t in let r := 1 / v2R p t in Forall2 inc (j23 V T)
  [p3R r t - p; h3R r t - h2R p t; s3R r t - s2R p t].
Proof.
  intros HV HT. cbv zeta. unfold j23. cbv zeta. assert (L := uni_lawful V 6 v HV).
  assert (HP := p23U_ok V 6 v HV T t HT).
  assert (HX := uinv_ok V 6 v HV _ _ (v2U_ok V 6 v _ _ _ _ HV HP HT)).
  assert (K := st3A_ok (uni V 6) _ L _ _ _ _ HX HT). set (s := st3A _ _ _) in *. clearbody s.
  repeat constructor; (apply ubound_ok with v; [exact HV|]; apply psub_ok).
  - exact (p3A_ok (uni V 6) _ L _ _ s K).
  - exact HP.
  - exact (h3A_ok (uni V 6) _ L _ _ s K).
  - now apply h2U_ok.
  - exact (s3A_ok (uni V 6) _ L _ _ s K).
  - now apply s2U_ok.
Qed.
(** ** Region 5 next to region 2 *)
Definition g5U V n (i j : nat) : poly -> poly -> poly := utab V n (dtab i j tab5).
Definition o5U V n (j : nat) : poly -> poly := let f := utab V n (stab j tab5o) in fun Tau => f [iZ 1] Tau.
Lemma g5U_ok V n v i j P Tau p t : inc V v -> pol v P p -> pol v Tau (1000 / t) -> pol v (g5U V n i j P Tau) (g5 i j p t).
Proof. intros HV HP HT. unfold g5U, g5, b5. eapply utab_ok; [exact HV | apply dtab_ok | exact HP | exact HT]. Qed.
Lemma o5U_ok V n v j Tau t : inc V v -> pol v Tau (1000 / t) -> pol v (o5U V n j Tau) (o5 j t).
Proof.
  intros HV HT. unfold o5U, o5. cbv zeta. eapply utab_ok; [exact HV | apply (stab_ok _ _ 1) | apply pol_const, (inc_Z 1) | exact HT].
Qed.
Definition j25 (V : itv) : poly -> list itv :=
  let n := 4%nat in let f00 := g5U V n 0 0 in let f01 := g5U V n 0 1 in let f10 := g5U V n 1 0 in let e0 := o5U V n 0 in let e1 := o5U V n 1 in
  let k00 := g2U V n 0 0 in let k01 := g2U V n 0 1 in let k10 := g2U V n 1 0 in let c0 := o2U V n 0 in let c1 := o2U V n 1 in
  fun P => let T : poly := [iQ 1073.15] in let X := tauU V n 1000 T in let Y := tauU V n 540 T in
  let a1 := padd (e1 X) (f01 P X) in let b1 := padd (c1 Y) (k01 P Y) in
  [ubound V (umul V n T (psub (umul V n X a1) (umul V n Y b1)));
   ubound V (psub (psub (umul V n X a1) (umul V n Y b1)) (psub (padd (e0 X) (f00 P X)) (padd (c0 Y) (k00 P Y))));
   ubound V (psub (f10 P X) (k10 P Y))].
Lemma j25_ok V v P p : inc V v -> pol v P p -> let t := 1073.15 in Forall2 inc (j25 V P)
  [t * (1000 / t * (o5 1 t + g5 0 1 p t) - 540 / t * (o2 1 t + g2 0 1 p t));
   1000 / t * (o5 1 t + g5 0 1 p t) - 540 / t * (o2 1 t + g2 0 1 p t) - (o5 0 t + g5 0 0 p t - (o2 0 t + g2 0 0 p t));
   g5 1 0 p t - g2 1 0 p t].
Proof.
  intros HV HP. cbv zeta. unfold j25. cbv zeta.
  assert (HT : pol v [iQ 1073.15] 1073.15) by (apply const_T; unfold Q2R; cbn; lra).
  assert (HX := tauU_ok V 4 v HV 1000 _ _ HT). assert (HY := tauU_ok V 4 v HV 540 _ _ HT).
  set (X := tauU V 4 1000 _) in *. set (Y := tauU V 4 540 _) in *. clearbody X Y.
  assert (E1 := umul_ok V 4 v HV _ _ _ _ HX (padd_ok _ _ _ _ _ (o5U_ok V 4 v 1 _ _ HV HX) (g5U_ok V 4 v 0 1 _ _ _ _ HV HP HX))).
  assert (E2 := umul_ok V 4 v HV _ _ _ _ HY (padd_ok _ _ _ _ _ (o2U_ok V 4 v HV 1 _ _ HY) (g2U_ok V 4 v HV 0 1 _ _ _ _ HP HY))).
  assert (E3 := padd_ok _ _ _ _ _ (o5U_ok V 4 v 0 _ _ HV HX) (g5U_ok V 4 v 0 0 _ _ _ _ HV HP HX)).
  assert (E4 := padd_ok _ _ _ _ _ (o2U_ok V 4 v HV 0 _ _ HY) (g2U_ok V 4 v HV 0 0 _ _ _ _ HP HY)).
  assert (E := psub_ok _ _ _ _ _ E1 E2).
  repeat constructor; (apply ubound_ok with v; [exact HV|]).
  - apply umul_ok; [exact HV | exact HT | exact E].
  - apply psub_ok; [exact E|]. apply psub_ok; [exact E3 | exact E4].
  - apply psub_ok; [apply g5U_ok; assumption | apply g2U_ok; assumption].
Qed.

Definition sym (q : Q) : Q * Q := ((- q)%Q, q).
Ltac q2 H := unfold Q2R in H; cbn [Qnum Qden sym Qopp Z.opp] in H.
Lemma gap_all t : 273.15 <= t <= 623.16 -> Rabs (h2R (p4R t) t - h1R (p4R t) t - t * (s2R (p4R t) t - s1R (p4R t) t)) < 0.015.
Proof.
  intros H. assert (K : forall s, 273.15 <= s <= 623.16 -> within ((fun t => [h2R (p4R t) t - h1R (p4R t) t - t * (s2R (p4R t) t - s1R (p4R t) t)]) s) [sym 0.015]).
  { assert (X : forall V v T t, 273.15 <= t <= 623.16 -> inc V v -> pol v T t -> Forall2 inc (gap V T)
      [h2R (p4R t) t - h1R (p4R t) t - t * (s2R (p4R t) t - s1R (p4R t) t)]) by (intros V v T t0 H0; apply gap_ok; lra).
    segs X gap [sym 0.015] 286418534%Z 653430621%Z. }
  specialize (K t H). cbv beta in K. revert K. set (a := h2R _ _ - _ - _). clearbody a.
  cbn [within sym]. intros (K1 & _). q2 K1. apply Rabs_def1; lra.
Qed.
Lemma j13_all p : 16.52 <= p <= 100 -> let r := 1 / v1R p 623.15 in
  Rabs (p3R r 623.15 - p) < 0.016 /\ Rabs (h3R r 623.15 - h1R p 623.15) < 0.025 /\ Rabs (s3R r 623.15 - s1R p 623.15) < 0.00007.
Proof.
  intros H. cbv zeta.
  assert (K : forall p, 16.52 <= p <= 100 -> within ((fun p => let r := 1 / v1R p 623.15 in [p3R r 623.15 - p; h3R r 623.15 - h1R p 623.15; s3R r 623.15 - s1R p 623.15]) p) [sym 0.016; sym 0.025; sym 0.00007]).
  { segs j13_ok j13 [sym 0.016; sym 0.025; sym 0.00007] 17322475%Z 104857600%Z. }
  specialize (K p H). cbv beta zeta in K. set (r := 1 / v1R p 623.15) in *. clearbody r.
  revert K. set (a := p3R r 623.15 - p). set (b := h3R r 623.15 - h1R p 623.15). set (c := s3R r 623.15 - s1R p 623.15). clearbody a b c.
  cbn [within sym]. intros (K1 & K2 & K3 & _). q2 K1. q2 K2. q2 K3. repeat split; apply Rabs_def1; lra.
Qed.
Lemma j23_all t : 623.15 <= t <= 863.15 -> let p := p23R t in let r := 1 / v2R p t in
  Rabs (p3R r t - p) < 0.008 /\ Rabs (h3R r t - h2R p t) < 0.1 /\ Rabs (s3R r t - s2R p t) < 0.00012.
Proof.
  intros H. cbv zeta.
  assert (K : forall t, 623.15 <= t <= 863.15 -> within ((fun t => let p := p23R t in let r := 1 / v2R p t in [p3R r t - p; h3R r t - h2R p t; s3R r t - s2R p t]) t) [sym 0.008; sym 0.1; sym 0.00012]).
  { segs j23_ok j23 [sym 0.008; sym 0.1; sym 0.00012] 653420134%Z 905078375%Z. }
  specialize (K t H). cbv beta zeta in K. set (p := p23R t) in *. set (r := 1 / v2R p t) in *. clearbody p r.
  revert K. set (a := p3R r t - p). set (b := h3R r t - h2R p t). set (c := s3R r t - s2R p t). clearbody a b c.
  cbn [within sym]. intros (K1 & K2 & K3 & _). q2 K1. q2 K2. q2 K3. repeat split; apply Rabs_def1; lra.
Qed.
Lemma j25_all p : 0 < p <= 10 -> let t := 1073.15 in
  Rabs (h5R p t - h2R p t) < 0.021 /\ Rabs (s5R p t - s2R p t) < 0.00005 /\ Rabs (v5R p t - v2R p t) < 0.00001.
Proof.
  intros H. cbv zeta.
  assert (K : forall p, 0 <= p <= 10 -> within ((fun p => let t := 1073.15 in
    [t * (1000 / t * (o5 1 t + g5 0 1 p t) - 540 / t * (o2 1 t + g2 0 1 p t));
     1000 / t * (o5 1 t + g5 0 1 p t) - 540 / t * (o2 1 t + g2 0 1 p t) - (o5 0 t + g5 0 0 p t - (o2 0 t + g2 0 0 p t));
     g5 1 0 p t - g2 1 0 p t]) p) [sym 0.0435; sym 0.0001; sym 0.00002]).
  { segs j25_ok j25 [sym 0.0435; sym 0.0001; sym 0.00002] 0%Z 10485760%Z. }
  specialize (K p ltac:(lra)). cbv beta zeta in K. unfold h5R, h2R, s5R, s2R, v5R, v2R. revert K.
  generalize (g5 1 0 p 1073.15) (g2 1 0 p 1073.15) (g5 0 1 p 1073.15) (g2 0 1 p 1073.15) (o5 1 1073.15) (o2 1 1073.15) (o5 0 1073.15) (o2 0 1073.15)
    (g5 0 0 p 1073.15) (g2 0 0 p 1073.15) (ln p) (/ p). intros a b c d e f g h i j k l.
  cbn [within sym]. intros (K1 & K2 & K3 & _). unfold Q2R in K1, K2, K3. cbn [Qnum Qden Qopp Z.opp] in K1, K2, K3. unfold Rdiv. rewrite ?Rmult_1_l.
  repeat split; apply Rabs_def1; lra.
Qed.
