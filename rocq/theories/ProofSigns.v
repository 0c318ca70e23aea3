(** Stability: volume, heat capacities and speed of sound in regions 1, 2 and 5. *)
From Coq Require Import ZArith Reals Lra Lia List Bool.
From Coquelicot Require Import Coquelicot.
From Verif Require Import Py ExactReal ModState ModConstants ModUnits ModBorders ModRegion1 ModRegion2
  ModRegion5 ModSelect ModXSteam SpecUnits SpecApi SpecThermo ProofUnits
  ProofCovariance RealSum ProofEos ProofThermo ProofSat ProofSatApi ProofThermoApi Bound1 Bound2 Bound5.
Import ListNotations.
Open Scope R_scope.

Lemma frac A B X : 0 < A -> 0 < B -> X ^ 2 < A * B -> 0 <= X ^ 2 / B < A.
Proof.
  intros HA HB H. split.
  - apply Rmult_le_pos; [apply pow2_ge_0 | apply Rlt_le, Rinv_0_lt_compat, HB].
  - apply Rmult_lt_reg_r with B; [easy|]. unfold Rdiv. rewrite Rmult_assoc, Rinv_l by lra. lra.
Qed.
Lemma Rw_pos : 0 < Rw.
Proof. lra. Qed.
Lemma rz2 x : powerRZ x 2 = x ^ 2. Proof. reflexivity. Qed.

Definition stable (v cp cv w : R) : Prop := 0 < v /\ 0 < cv <= cp /\ 0 < w.

Lemma stable1 p T : dom1 p T -> sign1 p T ->
  exists cv w, Cv1_pT (Fin p) (Fin T) = Ok (Fin cv) /\ w1_pT (Fin p) (Fin T) = Ok (Fin w) /\
    stable (v1R p T) (Cp1R p T) cv w.
Proof.
  intros HD (S1 & S2 & S3 & S4). pose proof Rw_pos as W. unfold K1 in S4.
  pose proof (a1_pos _ _ HD). pose proof (b1_pos _ _ HD). destruct HD as [Hp HT].
  assert (Q1 : p <> 0) by lra. assert (Q2 : T <> 0) by lra.
  assert (Q3 : a1 p <> 0) by lra. assert (Q4 : b1 T <> 0) by lra.
  set (tau := 1386 / T) in *. set (X := g1 1 0 p T - tau * g1 1 1 p T) in *.
  assert (Ht : 0 < tau ^ 2) by (apply pow_lt; unfold tau; apply Rdiv_lt_0_compat; lra).
  set (A := tau ^ 2 * - g1 0 2 p T).
  assert (HA : 0 < A) by (apply Rmult_lt_0_compat; lra).
  assert (HK : X ^ 2 < A * - g1 2 0 p T) by (unfold A; lra).
  destruct (frac A (- g1 2 0 p T) X HA ltac:(lra) HK) as [F1 F2].
  destruct (frac (- g1 2 0 p T) A X ltac:(lra) HA ltac:(rewrite Rmult_comm; exact HK)) as [F3 F4].
  assert (Ex : (0 + - g1 1 0 p T - tau * (0 + - g1 1 1 p T)) ^ 2 = X ^ 2) by (unfold X; ring).
  destruct (Cv1_total p T Q2 Q3 Q4 ltac:(apply Rlt_not_eq; lra)) as (c & Ec).
  destruct (w1_total p T Q2 Q3 Q4) as (w & Ew); cbv zeta; rewrite ?rz2; fold tau.
  - apply Rlt_not_eq. unfold A in HA. lra.
  - rewrite Ex. replace (tau ^ 2 * (0 + g1 0 2 p T)) with (- A) by (unfold A; ring).
    unfold Rdiv in *. rewrite Rinv_opp. apply Rgt_not_eq. lra.
  - rewrite Ex. replace (tau ^ 2 * (0 + g1 0 2 p T)) with (- A) by (unfold A; ring).
    apply Rmult_le_pos.
    + apply Rmult_le_pos; [|apply pow2_ge_0]. apply Rmult_le_pos; lra.
    + apply Rlt_le, Rinv_0_lt_compat. unfold Rdiv in *. rewrite Rinv_opp. lra.
  - exists c, w. splits; [exact Ec | exact Ew |].
    pose proof (Cv1_closed _ _ Q2 Q3 Q4 _ Ec) as [_ K]. apply Fin_inj in K; subst c.
    pose proof (w1_closed _ _ Q2 Q3 Q4 _ Ew) as (_ & _ & _ & K). apply Fin_inj in K; subst w.
    cbv zeta; rewrite ?rz2; fold tau. rewrite Ex.
    replace (tau ^ 2 * (0 + g1 0 2 p T)) with (- A) by (unfold A; ring).
    replace (- tau ^ 2 * (0 + g1 0 2 p T)) with A by (unfold A; ring).
    replace (X ^ 2 / (0 + g1 2 0 p T)) with (- (X ^ 2 / - g1 2 0 p T)) by (field; lra).
    unfold stable; repeat split.
    + unfold v1R.
      rewrite <- Ropp_mult_distr_l, Ropp_mult_distr_r.
      apply Rmult_lt_0_compat; lra.
    + apply Rmult_lt_0_compat; lra.
    + unfold Cp1R. fold tau. replace (- (0.461526 * tau ^ 2 * g1 0 2 p T)) with (0.461526 * A) by (unfold A; ring).
      apply Rmult_le_compat_l; lra.
    + apply sqrt_lt_R0. apply Rmult_lt_0_compat.
      * apply Rmult_lt_0_compat; [|apply pow_lt; lra]. apply Rmult_lt_0_compat; lra.
      * apply Rinv_0_lt_compat. unfold Rdiv in *. rewrite Rinv_opp. lra.
Qed.
Lemma stable2 p T : dom2 p T -> sign2 p T ->
  exists cv w, Cv2_pT (Fin p) (Fin T) = Ok (Fin cv) /\ w2_pT (Fin p) (Fin T) = Ok (Fin w) /\
    stable (v2R p T) (Cp2R p T) cv w.
Proof.
  intros HD (S1 & S2 & S3 & S4). pose proof Rw_pos as W. unfold K2 in S4.
  destruct (side2 _ _ HD) as (Q1 & Q2 & Q5 & Q3 & _ & Q4). destruct HD as [Hp HT].
  set (tau := 540 / T) in *. set (X := 1 + p * g2 1 0 p T - tau * (p * g2 1 1 p T)) in *.
  assert (Ht : 0 < tau ^ 2) by (now apply pow_lt).
  set (B := 1 - p ^ 2 * g2 2 0 p T). assert (HB : 0 < B) by (unfold B; lra).
  set (A := tau ^ 2 * - (o2 2 T + g2 0 2 p T)).
  assert (HA : 0 < A) by (apply Rmult_lt_0_compat; lra).
  assert (HK : X ^ 2 < A * B) by (unfold A, B; lra).
  destruct (frac A B X HA HB HK) as [F1 F2].
  destruct (frac B A X HB HA ltac:(rewrite Rmult_comm; exact HK)) as [F3 F4].
  assert (Ex : (1 + p * (0 + g2 1 0 p T) - tau * p * (0 + g2 1 1 p T)) ^ 2 = X ^ 2) by (unfold X; ring).
  assert (Eb : 1 - p ^ 2 * (0 + g2 2 0 p T) = B) by (unfold B; ring).
  assert (Ea : tau ^ 2 * (0 + o2 2 T + (0 + g2 0 2 p T)) = - A) by (unfold A; ring).
  assert (Eq : 1 + 2 * p * (0 + g2 1 0 p T) + p ^ 2 * (0 + g2 1 0 p T) ^ 2 = (1 + p * g2 1 0 p T) ^ 2) by ring.
  destruct (Cv2_total p T Q1 Q2 Q3 Q4) as (c & Ec).
  { cbv zeta; rewrite rz2, Eb. lra. }
  destruct (w2_total p T Q1 Q2 Q3 Q4) as (w & Ew); cbv zeta; rewrite ?rz2; fold tau; rewrite ?Ea.
  - lra.
  - rewrite Ex, Eb. unfold Rdiv in *. rewrite Rinv_opp. apply Rgt_not_eq. lra.
  - rewrite Ex, Eb, Eq. apply Rmult_le_pos.
    + apply Rmult_le_pos; [|apply pow2_ge_0]. apply Rmult_le_pos; lra.
    + apply Rlt_le, Rinv_0_lt_compat. unfold Rdiv in *. rewrite Rinv_opp. lra.
  - exists c, w. splits; [exact Ec | exact Ew |].
    pose proof (Cv2_closed _ _ Q1 Q2 Q3 Q4 _ Ec) as [_ K]. apply Fin_inj in K; subst c.
    pose proof (w2_closed _ _ Q1 Q2 Q3 Q4 _ Ew) as (_ & _ & _ & K). apply Fin_inj in K; subst w.
    cbv zeta; rewrite ?rz2; fold tau. rewrite Ex, Ea, Eb, Eq.
    replace (- tau ^ 2 * (0 + o2 2 T + (0 + g2 0 2 p T))) with A by (unfold A; ring).
    unfold stable; repeat split.
    + unfold v2R. replace (1 / p + g2 1 0 p T) with ((1 + p * g2 1 0 p T) / p) by (field; lra).
      assert (0 < (1 + p * g2 1 0 p T) / p) by (apply Rdiv_lt_0_compat; lra).
      apply Rdiv_lt_0_compat; [|lra]. apply Rmult_lt_0_compat; [|easy]. lra.
    + apply Rmult_lt_0_compat; lra.
    + unfold Cp2R. fold tau. replace (- (0.461526 * tau ^ 2 * (o2 2 T + g2 0 2 p T))) with (0.461526 * A) by (unfold A; ring).
      apply Rmult_le_compat_l; lra.
    + apply sqrt_lt_R0. apply Rmult_lt_0_compat.
      * apply Rmult_lt_0_compat; [|apply pow_lt; lra]. apply Rmult_lt_0_compat; lra.
      * apply Rinv_0_lt_compat. unfold Rdiv in *. rewrite Rinv_opp. lra.
Qed.
Lemma stable5 p T : dom5 p T -> sign5 p T ->
  exists cv w, Cv5_pT (Fin p) (Fin T) = Ok (Fin cv) /\ w5_pT (Fin p) (Fin T) = Ok (Fin w) /\
    stable (v5R p T) (Cp5R p T) cv w.
Proof.
  intros HD (S1 & S2 & S3 & S4). pose proof Rw_pos as W. unfold K5 in S4.
  destruct (side5 _ _ HD) as (Q1 & Q2 & Q5 & Q3 & _ & Q4). destruct HD as [Hp HT].
  set (tau := 1000 / T) in *. set (X := 1 + p * g5 1 0 p T - tau * (p * g5 1 1 p T)) in *.
  assert (Ht : 0 < tau ^ 2) by (now apply pow_lt).
  set (B := 1 - p ^ 2 * g5 2 0 p T). assert (HB : 0 < B) by (unfold B; lra).
  set (A := tau ^ 2 * - (o5 2 T + g5 0 2 p T)).
  assert (HA : 0 < A) by (apply Rmult_lt_0_compat; lra).
  assert (HK : X ^ 2 < A * B) by (unfold A, B; lra).
  destruct (frac A B X HA HB HK) as [F1 F2].
  destruct (frac B A X HB HA ltac:(rewrite Rmult_comm; exact HK)) as [F3 F4].
  assert (Ex : (1 + p * (0 + g5 1 0 p T) - tau * p * (0 + g5 1 1 p T)) ^ 2 = X ^ 2) by (unfold X; ring).
  assert (Eb : 1 - p ^ 2 * (0 + g5 2 0 p T) = B) by (unfold B; ring).
  assert (Ea : tau ^ 2 * (0 + o5 2 T + (0 + g5 0 2 p T)) = - A) by (unfold A; ring).
  assert (Eq : 1 + 2 * p * (0 + g5 1 0 p T) + p ^ 2 * (0 + g5 1 0 p T) ^ 2 = (1 + p * g5 1 0 p T) ^ 2) by ring.
  destruct (Cv5_total p T Q1 Q2 Q4) as (c & Ec).
  { cbv zeta; rewrite rz2, Eb. lra. }
  destruct (w5_total p T Q1 Q2 Q4) as (w & Ew); cbv zeta; rewrite ?rz2; fold tau; rewrite ?Ea.
  - lra.
  - rewrite Ex, Eb. unfold Rdiv in *. rewrite Rinv_opp. apply Rgt_not_eq. lra.
  - rewrite Ex, Eb, Eq. apply Rmult_le_pos.
    + apply Rmult_le_pos; [|apply pow2_ge_0]. apply Rmult_le_pos; lra.
    + apply Rlt_le, Rinv_0_lt_compat. unfold Rdiv in *. rewrite Rinv_opp. lra.
  - exists c, w. splits; [exact Ec | exact Ew |].
    pose proof (Cv5_closed _ _ Q1 Q2 Q4 _ Ec) as [_ K]. apply Fin_inj in K; subst c.
    pose proof (w5_closed _ _ Q1 Q2 Q4 _ Ew) as (_ & _ & _ & K). apply Fin_inj in K; subst w.
    cbv zeta; rewrite ?rz2; fold tau. rewrite Ex, Ea, Eb, Eq.
    replace (- tau ^ 2 * (0 + o5 2 T + (0 + g5 0 2 p T))) with A by (unfold A; ring).
    unfold stable; repeat split.
    + unfold v5R. replace (1 / p + g5 1 0 p T) with ((1 + p * g5 1 0 p T) / p) by (field; lra).
      assert (0 < (1 + p * g5 1 0 p T) / p) by (apply Rdiv_lt_0_compat; lra).
      apply Rdiv_lt_0_compat; [|lra]. apply Rmult_lt_0_compat; [|easy]. lra.
    + apply Rmult_lt_0_compat; lra.
    + unfold Cp5R. fold tau. replace (- (0.461526 * tau ^ 2 * (o5 2 T + g5 0 2 p T))) with (0.461526 * A) by (unfold A; ring).
      apply Rmult_le_compat_l; lra.
    + apply sqrt_lt_R0. apply Rmult_lt_0_compat.
      * apply Rmult_lt_0_compat; [|apply pow_lt; lra]. apply Rmult_lt_0_compat; lra.
      * apply Rinv_0_lt_compat. unfold Rdiv in *. rewrite Rinv_opp. lra.
Qed.

Lemma p23_eq T : p23 T = p23R T.
Proof. unfold p23, p23R. lra. Qed.
Lemma sign_1 p T : region_pT (Fin p) (Fin T) = Ok 1%Z -> sign1 p T.
Proof.
  intros H. apply region_map in H. unfold if97_region, in_range in H.
  assert (K : 273.15 < T <= 623.15 /\ psatR T < p <= 100) by (intuition (try discriminate); lra).
  rewrite psatR_eq in K by lra. apply signs1; lra.
Qed.
Lemma sign_2 p T : region_pT (Fin p) (Fin T) = Ok 2%Z -> sign2 p T.
Proof.
  intros H. apply region_map in H. unfold if97_region, in_range in H.
  assert (K : (273.15 < T <= 623.15 /\ 0.000611 < p < psatR T) \/
     (623.15 < T <= 1073.15 /\ 0.000611 < p <= 100 /\ p <= p23 T))
    by (intuition (try discriminate)).
  destruct K as [(K1 & K2) | (K1 & K2 & K3)].
  - rewrite psatR_eq in K2 by lra. apply signs2_sat; lra.
  - rewrite p23_eq in K3. destruct (Rle_dec T 863.15).
    + apply signs2_b23; lra. + apply signs2_hot; lra.
Qed.
Lemma sign_5 p T : region_pT (Fin p) (Fin T) = Ok 5%Z -> sign5 p T.
Proof. intros H. apply region_5 in H. apply signs5; lra. Qed.

Section Api.
Context {F : Fuel}.
Lemma stable_bare r p T : single_phase r -> region_pT (Fin p) (Fin T) = Ok r ->
  exists v cp cv w, v_pt BARE (Fin p) (Fin T) = Ok (Fin v) /\ Cp_pt BARE (Fin p) (Fin T) = Ok (Fin cp) /\
    Cv_pt BARE (Fin p) (Fin T) = Ok (Fin cv) /\ w_pt BARE (Fin p) (Fin T) = Ok (Fin w) /\
    stable v cp cv w.
Proof.
  intros Hr H. destruct (api_pT _ _ _ H Hr) as (-> & _ & _ & _ & -> & -> & ->).
  destruct Hr as [-> | [-> | ->]]; cbn [pick Z.eqb Pos.eqb].
  - pose proof (dom_1 _ _ H) as K. destruct (eos1 p T K) as (-> & _ & _ & _ & ->).
    destruct (stable1 p T K (sign_1 _ _ H)) as (cv & w & E1 & E2 & E3). exists (v1R p T), (Cp1R p T), cv, w. auto.
  - pose proof (dom_2 _ _ H) as K. destruct (eos2 p T K) as (-> & _ & _ & _ & ->).
    destruct (stable2 p T K (sign_2 _ _ H)) as (cv & w & E1 & E2 & E3). exists (v2R p T), (Cp2R p T), cv, w. auto.
  - pose proof (dom_5 _ _ H) as K. destruct (eos5 p T K) as (-> & _ & _ & _ & ->).
    destruct (stable5 p T K (sign_5 _ _ H)) as (cv & w & E1 & E2 & E3). exists (v5R p T), (Cp5R p T), cv, w. auto.
Qed.
Lemma stable_api us r p t : single_phase r ->
  region_pT (Fin (to_si us Qp p)) (Fin (to_si us QT t)) = Ok r ->
  exists v cp cv w, v_pt us (Fin p) (Fin t) = Ok (Fin v) /\ Cp_pt us (Fin p) (Fin t) = Ok (Fin cp) /\
    Cv_pt us (Fin p) (Fin t) = Ok (Fin cv) /\ w_pt us (Fin p) (Fin t) = Ok (Fin w) /\
    0 < v /\ 0 < cv <= cp /\ 0 < w.
Proof.
  intros Hr H. destruct (stable_bare r _ _ Hr H) as (v & cp & cv & w & E1 & E2 & E3 & E4 & E5 & E6 & E7).
  pose proof (via2 F_v_pt us (Fin p) (Fin t) ltac:(discriminate)) as V1.
  pose proof (via2 F_Cp_pt us (Fin p) (Fin t) ltac:(discriminate)) as V2.
  pose proof (via2 F_Cv_pt us (Fin p) (Fin t) ltac:(discriminate)) as V3.
  pose proof (via2 F_w_pt us (Fin p) (Fin t) ltac:(discriminate)) as V4.
  cbn [run2 sig2 fst snd si lift1] in V1, V2, V3, V4. rewrite V1, V2, V3, V4, E1, E2, E3, E4.
  do 4 eexists. repeat (split; [reflexivity|]).
  assert (P : forall q, q = Qv \/ q = QCp \/ q = QCv \/ q = Qw -> forall x, to_user us q x = x * factor us q).
  { intros q [-> | [-> | [-> | ->]]] x; unfold to_user; destruct us; cbn [origin shift]; ring. }
  cbn [lift1]. splits.
  - rewrite P by auto. apply Rmult_lt_0_compat; [easy | apply factor_pos].
  - rewrite P by auto. apply Rmult_lt_0_compat; [easy | apply factor_pos].
  - rewrite !P by auto. replace (factor us QCv) with (factor us QCp) by (destruct us; reflexivity).
    apply Rmult_le_compat_r; [apply Rlt_le, factor_pos | easy].
  - rewrite P by auto. apply Rmult_lt_0_compat; [easy | apply factor_pos].
Qed.

Lemma cv_always r p T : single_phase r -> inside r p T ->
  exists c, Cv_pt BARE (Fin p) (Fin T) = Ok (Fin c) /\ 0 < c /\
    cv_follows (real2 (v_pt BARE)) (real2 (Cp_pt BARE)) p T c.
Proof.
  intros Hr Hi. destruct (stable_bare r p T Hr (inside_at _ _ _ Hi)) as (v & cp & cv & w & E1 & E2 & E3 & E4 & E5 & E6 & E7).
  exists cv. splits; [exact E3 | lra | exact (cv_api _ _ _ _ Hr Hi E3)].
Qed.
Lemma w_always r p T : single_phase r -> inside r p T ->
  exists c, w_pt BARE (Fin p) (Fin T) = Ok (Fin c) /\ 0 < c /\
    w_follows (real2 (v_pt BARE)) (real2 (Cp_pt BARE)) p T c.
Proof.
  intros Hr Hi. destruct (stable_bare r p T Hr (inside_at _ _ _ Hi)) as (v & cp & cv & w & E1 & E2 & E3 & E4 & E5 & E6 & E7).
  exists w. splits; [exact E4 | lra | exact (w_api _ _ _ _ Hr Hi E4)].
Qed.
End Api.
