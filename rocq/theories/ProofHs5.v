(** * C55: the borders of the (h,s) region map; C56: expansion on heating. *)
From Coq Require Import ZArith Reals Lra Lia List Bool.
From Coquelicot Require Import Coquelicot.
From Interval Require Import Tactic.
From Verif Require ProofExamples.
From Verif Require Import Py ExactReal RealSum ModState ModUnits ModBorders ModRegion1 ModRegion2 ModRegion3 ModRegion4 ModRegion5 ModSelect ModXSteam SpecUnits SpecApi SpecThermo ProofIce
  ProofUnits ProofCovariance ProofSat ProofEos ProofSatApi ProofThermo ProofThermoApi ProofMisc ProofBack ProofBackS SatS Bound1 Bound2 Bound5 BoundR1 ProofSigns ProofMono ProofAgree ProofRound BoundE BoundE2 BoundHs ProofHs3 ProofHs4.
Import ListNotations.
Open Scope R_scope.

(** ** The 623.15 K isotherm and the B23 line *)
Lemma s_iso_lo p : 16.53 <= p <= 99.99 -> 3.397782955 < s1R p 623.15 < 3.77828134.
Proof.
  intros H. assert (P : p4R 623.15 < 16.5292) by (unfold p4R, be, qA, qB, qC, th; interval with (i_prec 60)).
  destruct (s_fall 623.15 p 99.99 ltac:(lra) ltac:(lra) ltac:(lra) ltac:(lra)) as [A _].
  destruct (s_fall 623.15 16.53 p ltac:(lra) ltac:(lra) ltac:(lra) ltac:(lra)) as [B _].
  assert (C : 3.397782955 < s1R 99.99 623.15) by (reals; interval with (i_prec 80)).
  assert (E : s1R 16.53 623.15 < 3.77828134) by (reals; interval with (i_prec 80)).
  lra.
Qed.
Lemma border_13 p h s : 16.53 <= p <= 99.99 -> h1_pT (Fin p) (Fin 623.15) = Ok (Fin h) -> s1_pT (Fin p) (Fin 623.15) = Ok (Fin s) ->
  (exists hB, hB13_s (Fin s) = Ok (Fin hB) /\ Rabs (hB - h) < 0.019) /\
  (forall h', region_hs (Fin h') (Fin s) = Ok 1%Z -> h' < h + 0.019) /\
  (forall h', region_hs (Fin h') (Fin s) = Ok 3%Z -> h - 0.019 < h').
Proof.
  intros H Eh Es. assert (Dm : dom1 p 623.15) by (unfold dom1; lra). rewrite (eos1h _ _ Dm) in Eh. rewrite (eos1s _ _ Dm) in Es.
  injection Eh as <-. injection Es as <-. assert (S := s_iso_lo p H). destruct (iso_all p ltac:(lra)) as [I _].
  assert (EB : hB13_s (Fin (s1R p 623.15)) = Ok (Fin (B13 (s1R p 623.15)))) by (apply hB13_closed; lra).
  set (s := s1R p 623.15) in *. set (h := h1R p 623.15) in *. clearbody s h. apply Rabs_def2 in I.
  split; [exists (B13 s); split; [exact EB | apply Rabs_def1; lra]|].
  assert (W : forall h' r, region_hs (Fin h') (Fin s) = Ok r -> (r = 1%Z -> h' < B13 s) /\ (r = 3%Z -> B13 s <= h')).
  { intros h' r. unfold region_hs. decide_s. red1. rewrite xdiv_Fin by known. cbn [bind]. red1.
    set (q := (_ / _)%R). destruct (Rltb h' (q * s)); [intros [= <-]; split; discriminate|].
    decide_s. rewrite h4a_closed by lra. cbn [bind]. cbn [ltb RNum cmp].
    destruct (Rltb h' (H4a s)); [intros [= <-]; split; discriminate|]. decide_s. rewrite EB. cbn [bind ltb RNum cmp].
    destruct (Rltb_spec h' (B13 s)) as [K|K]; [intros [= <-]; split; [easy | discriminate]|].
    repeat (match goal with |- context [bind ?x _] => destruct x; cbn [bind]; [|discriminate] end).
    match goal with |- (if ?b then _ else _) = _ -> _ => destruct b end; intros [= <-]; split; try discriminate; lra. }
  split; intros h' R; destruct (W _ _ R) as [W1 W2]; [specialize (W1 eq_refl) | specialize (W2 eq_refl)]; lra.
Qed.
Lemma border_23 T p h s : 623.15 <= T <= 863.15 -> B23p_T (Fin T) = Ok (Fin p) ->
  h2_pT (Fin p) (Fin T) = Ok (Fin h) -> s2_pT (Fin p) (Fin T) = Ok (Fin s) ->
  exists T', TB23_hs (Fin h) (Fin s) = Ok (Fin T') /\ Rabs (T' - T) < 0.006.
Proof.
  intros H Ep Eh Es. assert (Q : ProofIce.q23 T = p23R T) by (unfold ProofIce.q23, p23R, ProofIce.n1, ProofIce.n2, ProofIce.n3; replace (T ^ 2) with (T * T) by ring; lra).
  rewrite ProofIce.B23p_closed, Q in Ep. assert (E : p = p23R T) by congruence. subst p. clear Ep Q.
  assert (P1 := p23_le 623.15 T ltac:(lra) ltac:(lra)). assert (P2 := p23_le T 863.15 ltac:(lra) ltac:(lra)).
  assert (P3 : 16 < p23R 623.15) by (unfold p23R; lra).
  assert (P4 : p23R 863.15 < 101) by (unfold p23R; lra).
  destruct (eos2 (p23R T) T ltac:(unfold dom2; lra)) as (_ & E1 & _ & E2 & _). rewrite E1 in Eh. rewrite E2 in Es.
  injection Eh as <-. injection Es as <-. destruct (b23_all T H) as (B & B1 & B2).
  exists (TB23R (h2R (p23R T) T) (s2R (p23R T) T)). split; [apply TB23_closed; lra | exact B].
Qed.

(** ** Expansion on heating *)
Definition warm (r : Z) (T : R) : Prop := r = 1%Z -> 277.5 <= T.
Lemma way1_T p a b : zone1 p b -> 277.5 <= a -> forall T, a <= T <= b -> dom1 p T /\ 0 < v1T p T.
Proof.
  intros [H1 H2] Ha T HT. pose proof (p4_le T b ltac:(lra) ltac:(lra) ltac:(lra)). assert (P := p4_pos T ltac:(lra)).
  split; [unfold dom1; lra | apply v1T_pos; lra].
Qed.
Lemma way2 p T : zone2 p T -> dom2 p T /\ 0 < v2T p T.
Proof.
  intros [H1 H2]. split; [unfold dom2; lra | apply v2T_pos; [lra|]].
  destruct H2 as [(A & B)|[(A & B)|A]]; [apply grow2_sat | apply grow2_b23 | apply grow2_hot]; lra.
Qed.
Lemma way2_T p a b : region_pT (Fin p) (Fin a) = Ok 2%Z -> b <= 1073.15 -> forall T, a <= T <= b -> dom2 p T /\ 0 < v2T p T.
Proof.
  intros H Hb T HT. apply way2. apply region_zone2 in H. destruct H as (P & [(A & B) | (A & B)]).
  - destruct (Rle_dec T 623.15).
    + pose proof (p4_le a T ltac:(lra) ltac:(lra) ltac:(lra)). split; [lra|]. left; lra.
    + pose proof (p4_le a 623.15 ltac:(lra) ltac:(lra) ltac:(lra)). pose proof psat_623.
      pose proof (p23_le 623.15 T ltac:(lra) ltac:(lra)). split; [lra|].
      destruct (Rle_dec T 863.15); [right; left | right; right]; lra.
  - pose proof (p23_le a T ltac:(lra) ltac:(lra)). split; [lra|].
    destruct (Rle_dec T 863.15); [right; left | right; right]; lra.
Qed.
Lemma way2_p T a b : region_pT (Fin b) (Fin T) = Ok 2%Z -> 0.000611 <= a -> forall p, a <= p <= b -> dom2 p T /\ 0 < v2T p T.
Proof.
  intros H Ha p Hp. apply way2. apply region_zone2 in H. destruct H as (P & [(A & B) | (A & B)]).
  - split; [lra|]. left; lra.
  - split; [lra|]. destruct (Rle_dec T 863.15); [right; left | right; right]; lra.
Qed.
Lemma way5 p T : 1073.15 <= T <= 2273.15 -> 0.000611 <= p <= 50 -> dom5 p T /\ 0 < v5T p T.
Proof. intros HT Hp. split; [unfold dom5; lra | apply v5T_pos; [lra | now apply grow5_all]]. Qed.

Section Api.
Context {F : Fuel}.
Lemma heat_bare r p T1 T2 : single_phase r -> warm r T1 -> region_pT (Fin p) (Fin T1) = Ok r ->
  region_pT (Fin p) (Fin T2) = Ok r -> T1 < T2 ->
  exists v1 v2, v_pt BARE (Fin p) (Fin T1) = Ok (Fin v1) /\ v_pt BARE (Fin p) (Fin T2) = Ok (Fin v2) /\ v1 < v2.
Proof.
  intros Hr Hw H1 H2 HT. destruct (api_pT _ _ _ H1 Hr) as (-> & _). destruct (api_pT _ _ _ H2 Hr) as (-> & _).
  destruct Hr as [-> | [-> | ->]]; cbn [pick Z.eqb Pos.eqb].
  - rewrite (proj1 (eos1 p T1 (dom_1 _ _ H1))), (proj1 (eos1 p T2 (dom_1 _ _ H2))).
    do 2 eexists. repeat (split; [reflexivity|]). pose proof (way1_T p T1 T2 (region_zone1 _ _ H2) (Hw eq_refl)) as W.
    apply (rising (v1R p) (v1T p)); [easy | intros x Hx; apply (thermo1 p x), W, Hx | intros x Hx; apply W, Hx].
  - rewrite (proj1 (eos2 p T1 (dom_2 _ _ H1))), (proj1 (eos2 p T2 (dom_2 _ _ H2))).
    do 2 eexists. repeat (split; [reflexivity|]). pose proof (way2_T p T1 T2 H1 ltac:(apply region_2 in H2; lra)) as W.
    apply (rising (v2R p) (v2T p)); [easy | intros x Hx; apply (thermo2 p x), W, Hx | intros x Hx; apply W, Hx].
  - rewrite (proj1 (eos5 p T1 (dom_5 _ _ H1))), (proj1 (eos5 p T2 (dom_5 _ _ H2))).
    do 2 eexists. repeat (split; [reflexivity|]). apply region_5 in H1, H2.
    assert (W : forall x, T1 <= x <= T2 -> dom5 p x /\ 0 < v5T p x) by (intros; apply way5; lra).
    apply (rising (v5R p) (v5T p)); [easy | intros x Hx; apply (thermo5 p x), W, Hx | intros x Hx; apply W, Hx].
Qed.
Lemma squeeze_bare r T p1 p2 : single_phase r -> warm r T -> region_pT (Fin p1) (Fin T) = Ok r ->
  region_pT (Fin p2) (Fin T) = Ok r -> p1 < p2 ->
  exists s1 s2, s_pt BARE (Fin p1) (Fin T) = Ok (Fin s1) /\ s_pt BARE (Fin p2) (Fin T) = Ok (Fin s2) /\ s2 < s1.
Proof.
  intros Hr Hw H1 H2 HT. destruct (api_pT _ _ _ H1 Hr) as (_ & _ & -> & _). destruct (api_pT _ _ _ H2 Hr) as (_ & _ & -> & _).
  destruct Hr as [-> | [-> | ->]]; cbn [pick Z.eqb Pos.eqb].
  - destruct (eos1 p1 T (dom_1 _ _ H1)) as (_ & _ & _ & -> & _). destruct (eos1 p2 T (dom_1 _ _ H2)) as (_ & _ & _ & -> & _).
    do 2 eexists. repeat (split; [reflexivity|]). pose proof (region_zone1 _ _ H1) as [Z1 Z2]. pose proof (region_zone1 _ _ H2) as [Z3 Z4].
    assert (W : forall x, p1 <= x <= p2 -> dom1 x T /\ 0 < v1T x T).
    { intros x Hx. apply (way1_T x T T); [unfold zone1; lra | exact (Hw eq_refl) | lra]. }
    apply (falling (fun p => s1R p T) (fun p => - (1000 * v1T p T))); [easy | intros x Hx; apply (thermo1 x T), W, Hx | intros x Hx; destruct (W x Hx); lra].
  - destruct (eos2 p1 T (dom_2 _ _ H1)) as (_ & _ & _ & -> & _). destruct (eos2 p2 T (dom_2 _ _ H2)) as (_ & _ & _ & -> & _).
    do 2 eexists. repeat (split; [reflexivity|]). pose proof (way2_p T p1 p2 H2 ltac:(apply region_2 in H1; lra)) as W.
    apply (falling (fun p => s2R p T) (fun p => - (1000 * v2T p T))); [easy | intros x Hx; apply (thermo2 x T), W, Hx | intros x Hx; destruct (W x Hx); lra].
  - destruct (eos5 p1 T (dom_5 _ _ H1)) as (_ & _ & _ & -> & _). destruct (eos5 p2 T (dom_5 _ _ H2)) as (_ & _ & _ & -> & _).
    do 2 eexists. repeat (split; [reflexivity|]). apply region_5 in H1, H2.
    assert (W : forall x, p1 <= x <= p2 -> dom5 x T /\ 0 < v5T x T) by (intros; apply way5; lra).
    apply (falling (fun p => s5R p T) (fun p => - (1000 * v5T p T))); [easy | intros x Hx; apply (thermo5 x T), W, Hx | intros x Hx; destruct (W x Hx); lra].
Qed.
Lemma heat_api us r p t1 t2 : single_phase r -> (r = 1%Z -> 277.5 <= to_si us QT t1) ->
  region_pT (Fin (to_si us Qp p)) (Fin (to_si us QT t1)) = Ok r ->
  region_pT (Fin (to_si us Qp p)) (Fin (to_si us QT t2)) = Ok r -> t1 < t2 ->
  exists v1 v2, v_pt us (Fin p) (Fin t1) = Ok (Fin v1) /\ v_pt us (Fin p) (Fin t2) = Ok (Fin v2) /\ v1 < v2.
Proof.
  intros Hr Hw H1 H2 HT. apply (to_si_lt us QT) in HT.
  destruct (heat_bare r _ _ _ Hr Hw H1 H2 HT) as (v1 & v2 & E1 & E2 & K).
  pose proof (fun t => via2 F_v_pt us (Fin p) (Fin t) ltac:(discriminate)) as V1.
  cbn [run2 sig2 fst snd si lift1] in V1. rewrite !V1, E1, E2.
  do 2 eexists. repeat (split; [reflexivity|]). now apply to_user_lt.
Qed.
Lemma squeeze_api us r t p1 p2 : single_phase r -> (r = 1%Z -> 277.5 <= to_si us QT t) ->
  region_pT (Fin (to_si us Qp p1)) (Fin (to_si us QT t)) = Ok r ->
  region_pT (Fin (to_si us Qp p2)) (Fin (to_si us QT t)) = Ok r -> p1 < p2 ->
  exists s1 s2, s_pt us (Fin p1) (Fin t) = Ok (Fin s1) /\ s_pt us (Fin p2) (Fin t) = Ok (Fin s2) /\ s2 < s1.
Proof.
  intros Hr Hw H1 H2 HT. apply (to_si_lt us Qp) in HT.
  destruct (squeeze_bare r _ _ _ Hr Hw H1 H2 HT) as (s1 & s2 & E1 & E2 & K).
  pose proof (fun p => via2 F_s_pt us (Fin p) (Fin t) ltac:(discriminate)) as V1.
  cbn [run2 sig2 fst snd si lift1] in V1. rewrite !V1, E1, E2.
  do 2 eexists. repeat (split; [reflexivity|]). now apply to_user_lt.
Qed.

(** Cold water: the density maximum lies inside region 1. *)
Lemma water_at p T : 273.15 < T <= 623.15 -> p4R T + 0.0001 < p <= 100 -> 0.000611 < p -> region_pT (Fin p) (Fin T) = Ok 1%Z.
Proof.
  intros H1 H2 H3. apply region_map. left. unfold in_range, at_saturation.
  rewrite psatR_eq, Rabs_pos_eq by lra. repeat split; lra.
Qed.
Lemma p4_cold T : 273.15 <= T <= 276 -> p4R T < 0.01.
Proof. intros H. assert (P := p4_le T 276 ltac:(lra) ltac:(lra) ltac:(lra)). assert (p4R 276 < 0.01) by (unfold p4R, be, qA, qB, qC, th; interval). lra. Qed.
Lemma cold_shrinks : exists p T1 T2 v1 v2, T1 < T2 /\ region_pT (Fin p) (Fin T1) = Ok 1%Z /\ region_pT (Fin p) (Fin T2) = Ok 1%Z /\
  v_pt BARE (Fin p) (Fin T1) = Ok (Fin v1) /\ v_pt BARE (Fin p) (Fin T2) = Ok (Fin v2) /\ v2 < v1.
Proof.
  assert (A := p4_cold 274 ltac:(lra)). assert (B := p4_cold 276 ltac:(lra)).
  assert (R1 : region_pT (Fin 0.1) (Fin 274) = Ok 1%Z) by (apply water_at; lra).
  assert (R2 : region_pT (Fin 0.1) (Fin 276) = Ok 1%Z) by (apply water_at; lra).
  exists 0.1, 274, 276, (v1R 0.1 274), (v1R 0.1 276). split; [lra|]. split; [exact R1|]. split; [exact R2|].
  destruct (api_pT _ _ _ R1) as (-> & _); [tauto|]. destruct (api_pT _ _ _ R2) as (-> & _); [tauto|]. cbn [pick Z.eqb Pos.eqb].
  rewrite (proj1 (eos1 0.1 274 (dom_1 _ _ R1))), (proj1 (eos1 0.1 276 (dom_1 _ _ R2))).
  split; [reflexivity|]. split; [reflexivity|]. clear. reals. interval with (i_prec 80).
Qed.
End Api.

(** ** States that meet the hypotheses *)
Lemma p4_400 : 0.2 < p4R 400 < 0.3.
Proof. unfold p4R, be, qA, qB, qC, th. split; interval. Qed.
Lemma ex_found {F : Fuel} : exists ps h s, region_pT (Fin 50) (Fin 400) = Ok 1%Z /\ psat_t BARE (Fin 400) = Ok (Fin ps) /\ ps + 0.04 <= 50 <= 99.8 /\
  h_pt BARE (Fin 50) (Fin 400) = Ok (Fin h) /\ s_pt BARE (Fin 50) (Fin 400) = Ok (Fin s) /\ 0 <= s.
Proof.
  assert (P := p4_400). assert (R : region_pT (Fin 50) (Fin 400) = Ok 1%Z) by (apply water_at; lra).
  exists (p4R 400), (h1R 50 400), (s1R 50 400). split; [exact R|]. split; [apply psat_bare; lra|]. split; [lra|].
  destruct (api_pT _ _ _ R) as (_ & -> & -> & _); [tauto|]. cbn [pick Z.eqb Pos.eqb].
  split; [apply eos1h; unfold dom1; lra|]. split; [apply eos1s; unfold dom1; lra|]. clear. reals. interval with (i_prec 80).
Qed.
Lemma ex_border : exists h s p h' s', h1_pT (Fin 30) (Fin 623.15) = Ok (Fin h) /\ s1_pT (Fin 30) (Fin 623.15) = Ok (Fin s) /\
  B23p_T (Fin 700) = Ok (Fin p) /\ h2_pT (Fin p) (Fin 700) = Ok (Fin h') /\ s2_pT (Fin p) (Fin 700) = Ok (Fin s').
Proof.
  assert (Q : 30 < ProofIce.q23 700 < 31) by (unfold ProofIce.q23, ProofIce.n1, ProofIce.n2, ProofIce.n3; lra).
  exists (h1R 30 623.15), (s1R 30 623.15), (ProofIce.q23 700), (h2R (ProofIce.q23 700) 700), (s2R (ProofIce.q23 700) 700).
  split; [apply eos1h; unfold dom1; lra|]. split; [apply eos1s; unfold dom1; lra|]. split; [apply ProofIce.B23p_closed|].
  destruct (eos2 (ProofIce.q23 700) 700 ltac:(unfold dom2; lra)) as (_ & E1 & _ & E2 & _). now split.
Qed.
Lemma ex_warm : 277.5 <= to_si MKS QT 20 /\
  region_pT (Fin (to_si MKS Qp 10)) (Fin (to_si MKS QT 20)) = Ok 1%Z /\
  region_pT (Fin (to_si MKS Qp 10)) (Fin (to_si MKS QT 80)) = Ok 1%Z /\
  region_pT (Fin (to_si MKS Qp 500)) (Fin (to_si MKS QT 20)) = Ok 1%Z.
Proof. split; [unfold to_si; cbn [origin SpecUnits.shift factor]; lra | exact ProofExamples.ex_rise]. Qed.
