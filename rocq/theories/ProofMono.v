(** Monotonicity inside regions 1, 2 and 5. *)
From Coq Require Import ZArith Reals Lra Lia List Bool.
From Coquelicot Require Import Coquelicot.
From Interval Require Import Tactic.
From Verif Require Import Py ExactReal ModState ModConstants ModUnits ModBorders ModRegion1 ModRegion2
  ModRegion5 ModSelect ModXSteam SpecUnits SpecApi SpecThermo ProofUnits
  ProofCovariance RealSum ProofEos ProofThermo ProofSat ProofSatApi ProofThermoApi Bound1 Bound2 Bound5
  ProofSigns.
Import ListNotations.
Open Scope R_scope.

Lemma rising f df a b : a < b -> (forall x, a <= x <= b -> is_derive f x (df x)) ->
  (forall x, a <= x <= b -> 0 < df x) -> f a < f b.
Proof.
  intros H D P.
  apply (incr_function_le f (Finite a) (Finite b) df); cbn; try lra; intros x A B; [apply D | apply P]; lra.
Qed.
Lemma falling f df a b : a < b -> (forall x, a <= x <= b -> is_derive f x (df x)) ->
  (forall x, a <= x <= b -> df x < 0) -> f b < f a.
Proof.
  intros H D P. apply Ropp_lt_cancel. apply (rising (fun x => - f x) (fun x => - df x)); [easy | |].
  - intros x K. apply (is_derive_opp f x (df x)). now apply D.
  - intros x K. specialize (P x K). lra.
Qed.

(** ** Signs of the derivatives *)
Lemma Cp1_pos p T : 0 < T -> sign1 p T -> 0 < Cp1R p T.
Proof.
  intros HT (_ & S & _). unfold Cp1R. rewrite Ropp_mult_distr_r.
  apply Rmult_lt_0_compat; [|lra]. apply Rmult_lt_0_compat; [lra|]. apply pow_lt, Rdiv_lt_0_compat; lra.
Qed.
Lemma Cp2_pos p T : 0 < T -> sign2 p T -> 0 < Cp2R p T.
Proof.
  intros HT (_ & S & _). unfold Cp2R. rewrite Ropp_mult_distr_r.
  apply Rmult_lt_0_compat; [|lra]. apply Rmult_lt_0_compat; [lra|]. apply pow_lt, Rdiv_lt_0_compat; lra.
Qed.
Lemma Cp5_pos p T : 0 < T -> sign5 p T -> 0 < Cp5R p T.
Proof.
  intros HT (_ & S & _). unfold Cp5R. rewrite Ropp_mult_distr_r.
  apply Rmult_lt_0_compat; [|lra]. apply Rmult_lt_0_compat; [lra|]. apply pow_lt, Rdiv_lt_0_compat; lra.
Qed.
Lemma v1p_neg p T : 0 < T -> sign1 p T -> v1p p T < 0.
Proof.
  intros HT (_ & _ & S & _). unfold v1p. apply Ropp_lt_cancel. rewrite Ropp_0, Ropp_mult_distr_r.
  apply Rmult_lt_0_compat; lra.
Qed.
Lemma v2p_neg p T : 0 < p -> 0 < T -> sign2 p T -> v2p p T < 0.
Proof.
  intros Hp HT (_ & _ & S & _). unfold v2p. apply Ropp_lt_cancel. rewrite Ropp_0, Ropp_mult_distr_r.
  apply Rmult_lt_0_compat; [lra|].
  replace (- (g2 2 0 p T - 1 / p ^ 2)) with (- (p ^ 2 * g2 2 0 p T - 1) / p ^ 2) by (field; lra).
  apply Rdiv_lt_0_compat; [lra | now apply pow_lt].
Qed.
Lemma v5p_neg p T : 0 < p -> 0 < T -> sign5 p T -> v5p p T < 0.
Proof.
  intros Hp HT (_ & _ & S & _). unfold v5p. apply Ropp_lt_cancel. rewrite Ropp_0, Ropp_mult_distr_r.
  apply Rmult_lt_0_compat; [lra|].
  replace (- (g5 2 0 p T - 1 / p ^ 2)) with (- (p ^ 2 * g5 2 0 p T - 1) / p ^ 2) by (field; lra).
  apply Rdiv_lt_0_compat; [lra | now apply pow_lt].
Qed.

(** ** In temperature *)
Lemma rise1 p a b : a < b -> (forall T, a <= T <= b -> dom1 p T /\ sign1 p T) ->
  h1R p a < h1R p b /\ s1R p a < s1R p b.
Proof.
  intros H K. split.
  - apply (rising (h1R p) (Cp1R p)); [easy | |]; intros x Hx; destruct (K x Hx) as [K1 K2].
    + apply (thermo1 p x K1). + apply Cp1_pos; [apply K1 | easy].
  - apply (rising (s1R p) (fun T => Cp1R p T / T)); [easy | |]; intros x Hx; destruct (K x Hx) as [K1 K2].
    + apply (thermo1 p x K1). + apply Rdiv_lt_0_compat; [apply Cp1_pos; [apply K1 | easy] | apply K1].
Qed.
Lemma rise2 p a b : a < b -> (forall T, a <= T <= b -> dom2 p T /\ sign2 p T) ->
  h2R p a < h2R p b /\ s2R p a < s2R p b.
Proof.
  intros H K. split.
  - apply (rising (h2R p) (Cp2R p)); [easy | |]; intros x Hx; destruct (K x Hx) as [K1 K2].
    + apply (thermo2 p x K1). + apply Cp2_pos; [apply K1 | easy].
  - apply (rising (s2R p) (fun T => Cp2R p T / T)); [easy | |]; intros x Hx; destruct (K x Hx) as [K1 K2].
    + apply (thermo2 p x K1). + apply Rdiv_lt_0_compat; [apply Cp2_pos; [apply K1 | easy] | apply K1].
Qed.
Lemma rise5 p a b : a < b -> (forall T, a <= T <= b -> dom5 p T /\ sign5 p T) ->
  h5R p a < h5R p b /\ s5R p a < s5R p b.
Proof.
  intros H K. split.
  - apply (rising (h5R p) (Cp5R p)); [easy | |]; intros x Hx; destruct (K x Hx) as [K1 K2].
    + apply (thermo5 p x K1). + apply Cp5_pos; [apply K1 | easy].
  - apply (rising (s5R p) (fun T => Cp5R p T / T)); [easy | |]; intros x Hx; destruct (K x Hx) as [K1 K2].
    + apply (thermo5 p x K1). + apply Rdiv_lt_0_compat; [apply Cp5_pos; [apply K1 | easy] | apply K1].
Qed.
Lemma fall1 T a b : a < b -> (forall p, a <= p <= b -> dom1 p T /\ sign1 p T) -> v1R b T < v1R a T.
Proof.
  intros H K. apply (falling (fun p => v1R p T) (fun p => v1p p T)); [easy | |]; intros x Hx; destruct (K x Hx) as [K1 K2].
  - apply (thermo1 x T K1). - apply v1p_neg; [apply K1 | easy].
Qed.
Lemma fall2 T a b : a < b -> (forall p, a <= p <= b -> dom2 p T /\ sign2 p T) -> v2R b T < v2R a T.
Proof.
  intros H K. apply (falling (fun p => v2R p T) (fun p => v2p p T)); [easy | |]; intros x Hx; destruct (K x Hx) as [K1 K2].
  - apply (thermo2 x T K1). - apply v2p_neg; [apply K1 | apply K1 | easy].
Qed.
Lemma fall5 T a b : a < b -> (forall p, a <= p <= b -> dom5 p T /\ sign5 p T) -> v5R b T < v5R a T.
Proof.
  intros H K. apply (falling (fun p => v5R p T) (fun p => v5p p T)); [easy | |]; intros x Hx; destruct (K x Hx) as [K1 K2].
  - apply (thermo5 x T K1). - apply v5p_neg; [apply K1 | apply K1 | easy].
Qed.

(** ** The region between two of its states *)
Lemma psat_623 : p4R 623.15 - 0.00001 <= p23R 623.15.
Proof. unfold p23R, p4R, be, qA, qB, qC, th. interval with (i_prec 80). Qed.

Definition zone1 (p T : R) := 273.15 <= T <= 623.15 /\ p4R T <= p <= 100.
Definition zone2 (p T : R) := 0.000611 <= p <= 100 /\
  (273.15 <= T <= 623.15 /\ p <= p4R T \/ 623.15 <= T <= 863.15 /\ p <= p23R T \/ 863.15 <= T <= 1073.15).
Definition zone5 (p T : R) := 1073.15 <= T <= 2273.15 /\ 0.000611 <= p <= 50.
Lemma zone1_ok p T : zone1 p T -> dom1 p T /\ sign1 p T.
Proof.
  intros [H1 H2]. assert (0 < p4R T) by (apply p4_pos; lra).
  split; [unfold dom1; lra | apply signs1; lra].
Qed.
Lemma zone2_ok p T : zone2 p T -> dom2 p T /\ sign2 p T.
Proof.
  intros [H1 H2]. split; [unfold dom2; lra |].
  destruct H2 as [(A & B)|[(A & B)|A]]; [apply signs2_sat | apply signs2_b23 | apply signs2_hot]; lra.
Qed.
Lemma zone5_ok p T : zone5 p T -> dom5 p T /\ sign5 p T.
Proof. intros [H1 H2]. split; [unfold dom5; lra | apply signs5; lra]. Qed.
Lemma region_zone1 p T : region_pT (Fin p) (Fin T) = Ok 1%Z -> zone1 p T.
Proof.
  intros H. apply region_map in H. unfold if97_region, in_range in H.
  assert (K : 273.15 < T <= 623.15 /\ psatR T < p <= 100) by (intuition (try discriminate); lra).
  rewrite psatR_eq in K by lra. unfold zone1; lra.
Qed.

Lemma region_zone2 p T : region_pT (Fin p) (Fin T) = Ok 2%Z ->
  0.000611 < p <= 100 /\ (273.15 < T <= 623.15 /\ p <= p4R T - 0.00001 \/ 623.15 < T <= 1073.15 /\ p <= p23R T).
Proof.
  intros H. apply region_map in H. unfold if97_region, in_range, at_saturation in H.
  assert (K : 0.000611 < p <= 100 /\ (273.15 < T <= 623.15 /\ p < psatR T /\ ~ Rabs (p - psatR T) < 0.00001 \/
     623.15 < T <= 1073.15 /\ p <= p23 T))
    by (intuition (try discriminate)).
  rewrite p23_eq in K. destruct K as (K0 & [(K1 & K2 & K3) | K]); split; try lra.
  left. rewrite psatR_eq in K2, K3 by lra. split; [lra|].
  apply Rnot_lt_le in K3. rewrite Rabs_left in K3 by lra. lra.
Qed.
Lemma path1_T p a b : zone1 p b -> 273.15 <= a -> forall T, a <= T <= b -> dom1 p T /\ sign1 p T.
Proof.
  intros [H1 H2] Ha T HT. apply zone1_ok. pose proof (p4_le T b ltac:(lra) ltac:(lra) ltac:(lra)).
  unfold zone1; lra.
Qed.
Lemma path1_p T a b : zone1 a T -> zone1 b T -> forall p, a <= p <= b -> dom1 p T /\ sign1 p T.
Proof. unfold zone1. intros H1 H2 p Hp. apply zone1_ok. unfold zone1; lra. Qed.
Lemma path2_T p a b : region_pT (Fin p) (Fin a) = Ok 2%Z -> b <= 1073.15 ->
  forall T, a <= T <= b -> dom2 p T /\ sign2 p T.
Proof.
  intros H Hb T HT. apply zone2_ok. apply region_zone2 in H. destruct H as (P & [(A & B) | (A & B)]).
  - destruct (Rle_dec T 623.15).
    + pose proof (p4_le a T ltac:(lra) ltac:(lra) ltac:(lra)). split; [lra|]. left; lra.
    + pose proof (p4_le a 623.15 ltac:(lra) ltac:(lra) ltac:(lra)). pose proof psat_623.
      pose proof (p23_le 623.15 T ltac:(lra) ltac:(lra)). split; [lra|].
      destruct (Rle_dec T 863.15); [right; left | right; right]; lra.
  - pose proof (p23_le a T ltac:(lra) ltac:(lra)). split; [lra|].
    destruct (Rle_dec T 863.15); [right; left | right; right]; lra.
Qed.
Lemma path2_p T a b : region_pT (Fin b) (Fin T) = Ok 2%Z -> 0.000611 <= a ->
  forall p, a <= p <= b -> dom2 p T /\ sign2 p T.
Proof.
  intros H Ha p Hp. apply zone2_ok. apply region_zone2 in H. destruct H as (P & [(A & B) | (A & B)]).
  - split; [lra|]. left; lra.
  - split; [lra|]. destruct (Rle_dec T 863.15); [right; left | right; right]; lra.
Qed.
Lemma path5 p T : 1073.15 <= T <= 2273.15 -> 0.000611 <= p <= 50 -> dom5 p T /\ sign5 p T.
Proof. intros; apply zone5_ok; unfold zone5; auto. Qed.

Section Api.
Context {F : Fuel}.
Lemma rise_bare r p T1 T2 : single_phase r -> region_pT (Fin p) (Fin T1) = Ok r ->
  region_pT (Fin p) (Fin T2) = Ok r -> T1 < T2 ->
  exists h1 h2 s1 s2, h_pt BARE (Fin p) (Fin T1) = Ok (Fin h1) /\ h_pt BARE (Fin p) (Fin T2) = Ok (Fin h2) /\
    s_pt BARE (Fin p) (Fin T1) = Ok (Fin s1) /\ s_pt BARE (Fin p) (Fin T2) = Ok (Fin s2) /\ h1 < h2 /\ s1 < s2.
Proof.
  intros Hr H1 H2 HT. destruct (api_pT _ _ _ H1 Hr) as (_ & -> & -> & _). destruct (api_pT _ _ _ H2 Hr) as (_ & -> & -> & _).
  destruct Hr as [-> | [-> | ->]]; cbn [pick Z.eqb Pos.eqb].
  - destruct (eos1 p T1 (dom_1 _ _ H1)) as (_ & -> & _ & -> & _). destruct (eos1 p T2 (dom_1 _ _ H2)) as (_ & -> & _ & -> & _).
    do 4 eexists. repeat (split; [reflexivity|]). apply rise1; [easy|].
    apply path1_T; [now apply region_zone1 | apply region_1 in H1; lra].
  - destruct (eos2 p T1 (dom_2 _ _ H1)) as (_ & -> & _ & -> & _). destruct (eos2 p T2 (dom_2 _ _ H2)) as (_ & -> & _ & -> & _).
    do 4 eexists. repeat (split; [reflexivity|]). apply rise2; [easy|].
    apply path2_T; [easy | apply region_2 in H2; lra].
  - destruct (eos5 p T1 (dom_5 _ _ H1)) as (_ & -> & _ & -> & _). destruct (eos5 p T2 (dom_5 _ _ H2)) as (_ & -> & _ & -> & _).
    do 4 eexists. repeat (split; [reflexivity|]). apply region_5 in H1, H2. apply rise5; [easy|].
    intros; apply path5; lra.
Qed.
Lemma fall_bare r T p1 p2 : single_phase r -> region_pT (Fin p1) (Fin T) = Ok r ->
  region_pT (Fin p2) (Fin T) = Ok r -> p1 < p2 ->
  exists v1 v2, v_pt BARE (Fin p1) (Fin T) = Ok (Fin v1) /\ v_pt BARE (Fin p2) (Fin T) = Ok (Fin v2) /\ v2 < v1.
Proof.
  intros Hr H1 H2 HT. destruct (api_pT _ _ _ H1 Hr) as (-> & _). destruct (api_pT _ _ _ H2 Hr) as (-> & _).
  destruct Hr as [-> | [-> | ->]]; cbn [pick Z.eqb Pos.eqb].
  - rewrite (proj1 (eos1 p1 T (dom_1 _ _ H1))), (proj1 (eos1 p2 T (dom_1 _ _ H2))).
    do 2 eexists. repeat (split; [reflexivity|]). apply fall1; [easy|].
    apply path1_p; now apply region_zone1.
  - rewrite (proj1 (eos2 p1 T (dom_2 _ _ H1))), (proj1 (eos2 p2 T (dom_2 _ _ H2))).
    do 2 eexists. repeat (split; [reflexivity|]). apply fall2; [easy|].
    apply path2_p; [easy | apply region_2 in H1; lra].
  - rewrite (proj1 (eos5 p1 T (dom_5 _ _ H1))), (proj1 (eos5 p2 T (dom_5 _ _ H2))).
    do 2 eexists. repeat (split; [reflexivity|]). apply region_5 in H1, H2. apply fall5; [easy|].
    intros; apply path5; lra.
Qed.
Lemma rise_api us r p t1 t2 : single_phase r ->
  region_pT (Fin (to_si us Qp p)) (Fin (to_si us QT t1)) = Ok r ->
  region_pT (Fin (to_si us Qp p)) (Fin (to_si us QT t2)) = Ok r -> t1 < t2 ->
  exists h1 h2 s1 s2, h_pt us (Fin p) (Fin t1) = Ok (Fin h1) /\ h_pt us (Fin p) (Fin t2) = Ok (Fin h2) /\
    s_pt us (Fin p) (Fin t1) = Ok (Fin s1) /\ s_pt us (Fin p) (Fin t2) = Ok (Fin s2) /\ h1 < h2 /\ s1 < s2.
Proof.
  intros Hr H1 H2 HT. apply (to_si_lt us QT) in HT.
  destruct (rise_bare r _ _ _ Hr H1 H2 HT) as (h1 & h2 & s1 & s2 & E1 & E2 & E3 & E4 & K1 & K2).
  pose proof (fun t => via2 F_h_pt us (Fin p) (Fin t) ltac:(discriminate)) as V1.
  pose proof (fun t => via2 F_s_pt us (Fin p) (Fin t) ltac:(discriminate)) as V2.
  cbn [run2 sig2 fst snd si lift1] in V1, V2. rewrite !V1, !V2, E1, E2, E3, E4.
  do 4 eexists. repeat (split; [reflexivity|]). split; now apply to_user_lt.
Qed.
Lemma fall_api us r t p1 p2 : single_phase r ->
  region_pT (Fin (to_si us Qp p1)) (Fin (to_si us QT t)) = Ok r ->
  region_pT (Fin (to_si us Qp p2)) (Fin (to_si us QT t)) = Ok r -> p1 < p2 ->
  exists v1 v2, v_pt us (Fin p1) (Fin t) = Ok (Fin v1) /\ v_pt us (Fin p2) (Fin t) = Ok (Fin v2) /\ v2 < v1.
Proof.
  intros Hr H1 H2 HT. apply (to_si_lt us Qp) in HT.
  destruct (fall_bare r _ _ _ Hr H1 H2 HT) as (v1 & v2 & E1 & E2 & K).
  pose proof (fun p => via2 F_v_pt us (Fin p) (Fin t) ltac:(discriminate)) as V1.
  cbn [run2 sig2 fst snd si lift1] in V1. rewrite !V1, E1, E2.
  do 2 eexists. repeat (split; [reflexivity|]). now apply to_user_lt.
Qed.
End Api.
