(** Concrete cases that meet the hypotheses of the property theorems. *)
From Coq Require Import ZArith Reals Lra Lia List Bool.
From Flocq Require Import Core BinarySingleNaN.
From Interval Require Import Tactic.
From Verif Require Import Py ModState ModConstants ModUnits ModBorders ModRegion1 ModRegion2 ModRegion4
  ModRegion5 ModSelect ModXSteam ModXSteamHW ExactReal Float64 SpecUnits SpecApi SpecRange SpecCov
  SpecThermo SpecHW ProofUnits ProofApi ProofCovariance ProofGeneric RealSum ProofEos ProofThermo
  ProofSat ProofSatApi ProofThermoApi ProofFloat ProofRange ProofHW ProofMisc ProofWet.
Import ListNotations.
Open Scope R_scope.

Lemma ex_units : has_converter QT = true /\
  code_from QT FLS (Fin 373.15) = Ok (Fin 212) /\ code_to QT FLS (Fin 212) = Ok (Fin 373.15) /\
  is_fraction (Fin 0.25) /\ ~ is_fraction (Fin 1.25) /\ ~ is_fraction NaN.
Proof.
  rewrite code_from_spec, code_to_spec by reflexivity. cbn [user si lift1].
  unfold to_user, to_si; cbn [origin shift factor]. unfold is_fraction. repeat split.
  - apply f_equal, f_equal. lra.
  - apply f_equal, f_equal. lra.
  - exists 0.25. split; [reflexivity | lra].
  - intros (r & [= <-] & H). lra.
  - intros (r & [=] & _).
Qed.
Lemma ex_float : multiplicative Qp = true /\ is_finite (flit 3.7%dec) = true /\
  bpow radix2 (-1000) <= Rabs (B2R (flit 3.7%dec)) <= bpow radix2 1000.
Proof.
  split; [reflexivity|]. split; [reflexivity|].
  pose proof (good_lit 3.7%dec) as (_ & H).
  - unfold D; cbn [dec_e dec_m bpow]; unfold Z.pow_pos; simpl; lra.
  - destruct H as [H1 H2]. rewrite Rabs_pos_eq by (eapply Rle_trans; [apply bpow_ge_0 | exact H1]).
    split; [refine (Rle_trans _ _ _ _ H1) | refine (Rle_trans _ _ _ H2 _)]; apply bpow_le; lia.
Qed.
Lemma ex_factor : has_converter Qp = true /\ rel_tol Qp = 2e-9 /\
  defined_factor Qp = 1000000 / (0.45359237 * 9.80665 / (0.0254 * 0.0254)).
Proof. repeat split. cbn [defined_factor]. unfold lbf, lb, ft. lits. field. Qed.
Lemma constructing o :
  (forall us, valid_unit o = Some us -> construct o = Ok us) /\
  (valid_unit o = None -> construct o = Err ValueError) /\ construct_default = Ok BARE.
Proof.
  split; [|split]; [intros us; apply construct_valid | apply construct_invalid | reflexivity].
Qed.
Lemma ex_cov p h : wrong_quantity (Call2 F_t_ph (Fin p) (Fin h)) = false /\
  in_units MKS (Call2 F_t_ph (Fin p) (Fin h)) = Call2 F_t_ph (Fin (to_user MKS Qp p)) (Fin (to_user MKS Qh h)) /\
  to_user MKS Qp 1 = 10.
Proof. repeat split. unfold to_user; cbn [origin shift factor]. lra. Qed.

(** ** Ranges *)
Lemma ex_range (L : libm) :
  range1 F_hV_p = Some (0.000611657%dec, 22.06395%dec) /\
  ~ 0.000611657 < to_si MKS Qp 250 < 22.06395 /\
  code_to (N := FNum L) Qp BARE (B754_infinity false) = Ok (B754_infinity false : f64) /\
  ~ fbetween 0.000611657%dec 22.06395%dec (B754_infinity false).
Proof.
  repeat split.
  - unfold to_si; cbn [origin shift factor]. lra.
  - intros [H _]. discriminate H.
Qed.
Lemma rnd_le_bpow x e : (-1000 <= e)%Z -> x <= bpow radix2 e -> rnd x <= bpow radix2 e.
Proof.
  intros He H. unfold rnd. apply round_le_generic; [apply valid64 | apply valid_rnd_N | | easy].
  apply generic_format_bpow. unfold SpecFloat.fexp, SpecFloat.emin. lia.
Qed.
Lemma rnd_ge_bpow x e : (-1000 <= e)%Z -> bpow radix2 e <= x -> bpow radix2 e <= rnd x.
Proof.
  intros He H. unfold rnd. apply round_ge_generic; [apply valid64 | apply valid_rnd_N | | easy].
  apply generic_format_bpow. unfold SpecFloat.fexp, SpecFloat.emin. lia.
Qed.
Ltac bp := unfold D; cbn [dec_e dec_m bpow]; unfold Z.pow_pos; simpl; lra.
Lemma ex_nan : direct_pt F_h_pt = true /\ of_quality F_x_ph = true /\
  0.000611657 < to_si MKS Qp 10 < 22.06395 /\ fbetween 0.000611657%dec 22.06395%dec (flit 1.0%dec).
Proof.
  split; [reflexivity|]. split; [reflexivity|]. split; [unfold to_si; cbn [origin shift factor]; lra|].
  split; [reflexivity|]. rewrite (proj2 lit_1). split.
  - eapply Rle_lt_trans; [apply (rnd_le_bpow _ (-1)); [lia | bp] | bp].
  - eapply Rlt_le_trans; [| apply (rnd_ge_bpow _ 4); [lia | bp]]. bp.
Qed.
Lemma ex_quality : ~ is_fraction (Fin 1.5) /\ ~ is_fraction NaN /\ ~ f_fraction B754_nan /\
  ~ f_fraction (flit 1.5%dec).
Proof.
  repeat split.
  - intros (r & [= <-] & H). lra.
  - intros (r & [=] & _).
  - intros [H _]. discriminate H.
  - intros [_ H]. rewrite <- SF2R_B2SF in H.
    assert (E : B2SF (flit 1.5%dec) = SpecFloat.S754_finite false 6755399441055744 (-52)) by reflexivity.
    rewrite E in H. unfold SF2R, F2R in H; cbn [Fnum Fexp cond_Zopp bpow] in H; unfold Z.pow_pos in H; simpl in H. lra.
Qed.
Lemma density_any (N : Num) (F : Fuel) :
  (forall f g us x, volume1 f = Some g -> run1 f us x = (let* v := run1 g us x in div #1%num v)) /\
  (forall f g us x y, volume2 f = Some g -> run2 f us x y = (let* v := run2 g us x y in div #1%num v)).
Proof. split; [exact density1 | exact density2]. Qed.
Lemma ex_density : volume2 F_rho_pt = Some F_v_pt /\ forall F : Fuel, exists v,
  v_pt BARE (Fin 1) (Fin 400) = Ok (Fin v) /\ 0.00105 < v < 0.00108.
Proof.
  split; [reflexivity|]. intros F.
  destruct (api_pT _ _ _ (inside_at _ _ _ inside_1)) as (-> & _); [auto|].
  cbn [pick Z.eqb Pos.eqb]. eexists. split.
  - apply (proj1 (eos1 1 400 ltac:(unfold dom1; lra))).
  - split; reals; interval with (i_prec 60).
Qed.

(** ** Wet states *)
Section WetEx.
Context {F : Fuel}.
Lemma low_1 : low 1. Proof. unfold low; lra. Qed.
Lemma T_1 : 453 < T4R 1 < 453.1.
Proof. unfold T4R, Tb, de, qE, qF, qG. split; interval with (i_prec 60). Qed.
Lemma region_1_1500 : region_ph (Fin 1) (Fin 1500) = Ok 4%Z.
Proof.
  unfold region_ph. cbn [add mul RNum lit lift2]. cmps. cbn [bind].
  rewrite (proj1 (T4_low 1 low_1)). cbn [bind]. rewrite log_Fin by lra. rewrite ln_1. cbn [bind].
  cbn [add mul sub fabs RNum lit lift2 lift1].
  rewrite (Rabs_pos_eq (1500 - _)) by (undec; lra). cmps. cbn [bind]. cmps. cbn [bind].
  rewrite Rabs_left by (undec; lra). cmps. cbn [bind]. cmps. reflexivity.
Qed.
Lemma s_1_wet : sL 1 < 4 < sV 1 /\ s5R 1 2273.15 > 4 /\ s2R 1 1073.15 > 4.
Proof.
  pose proof T_1. unfold sL, sV. set (T := T4R 1) in *. clearbody T. split; [split|split].
  - reals; interval with (i_prec 60).
  - reals; interval with (i_prec 60).
  - reals; interval with (i_prec 60).
  - reals; interval with (i_prec 60).
Qed.
Lemma region_1_s4 : region_ps (Fin 1) (Fin 4) = Ok 4%Z.
Proof.
  destruct s_1_wet as ((A & B) & C & E). unfold sL, sV in *.
  unfold region_ps. cmps. unfold or_else, and_then. cbn [bind].
  change (lit 623.15%dec) with (Fin (D 623.15%dec)). change (lit 1073.15%dec) with (Fin (D 1073.15%dec)).
  change (lit 2273.15%dec) with (Fin (D 2273.15%dec)).
  change (D 623.15%dec) with 623.15. change (D 1073.15%dec) with 1073.15. change (D 2273.15%dec) with 2273.15.
  destruct (eos5 1 2273.15) as (_ & _ & _ & -> & _); [unfold dom5; lra|]. cbn [bind]. cmps. cbn [bind].
  destruct (eos2 1 1073.15) as (_ & _ & _ & -> & _); [unfold dom2; lra|]. cbn [bind]. cmps. cbn [bind].
  rewrite (proj1 (T4_low 1 low_1)). cbn [bind].
  destruct (eos2 _ _ (dom2_low 1 low_1)) as (_ & _ & _ & -> & _). cbn [bind]. cmps. cbn [bind].
  destruct (eos1 1 623.15) as (_ & _ & _ & -> & _); [unfold dom1; lra|]. cbn [bind]. cmps. cbn [bind].
  destruct (eos1 _ _ (dom1_low 1 low_1)) as (_ & _ & _ & -> & _). cbn [bind]. cmps. reflexivity.
Qed.
End WetEx.

(** ** Regions *)
Lemma region_numbers (N : Num) (F : Fuel) (x y : num) r :
  (region_pT x y = Ok r -> (0 <= r <= 5)%Z) /\ (region_ph x y = Ok r -> (0 <= r <= 5)%Z) /\
  (region_ps x y = Ok r -> (0 <= r <= 5)%Z) /\ (region_prho x y = Ok r -> (0 <= r <= 5)%Z) /\
  (region_hs x y = Ok r -> (0 <= r <= 4)%Z).
Proof.
  repeat match goal with |- _ /\ _ => split end;
  [apply region_pT_range | apply region_ph_range | apply region_ps_range | apply region_prho_range
  | apply region_hs_range].
Qed.
Lemma ex_regions (F : Fuel) : region_pT (Fin 1) (Fin 1500) = Ok 5%Z /\
  region_ph (Fin 1) (Fin 1500) = Ok 4%Z /\ region_ps (Fin 1) (Fin 4) = Ok 4%Z.
Proof.
  split; [apply (inside_at _ _ _ inside_5)|]. split; [apply region_1_1500 | apply region_1_s4].
Qed.
Lemma region_map_F (F : Fuel) p T r : region_pT (Fin p) (Fin T) = Ok r <-> if97_region psatR p T r.
Proof. apply region_map. Qed.
Lemma region_total (F : Fuel) p T : exists! r, region_pT (Fin p) (Fin T) = Ok r.
Proof.
  exists (reg p T). split; [apply region_pT_reg|]. intros r H. rewrite region_pT_reg in H. congruence.
Qed.
Lemma region_nan_F (F : Fuel) x y : x = NaN \/ y = NaN -> region_pT x y = Ok 0%Z.
Proof. apply region_map_nan. Qed.
Lemma ex_map : if97_region psatR 1 400 1 /\ if97_region psatR 1 600 2 /\
  if97_region psatR 1 1500 5 /\ if97_region psatR 101 400 0 /\ if97_region psatR 30 650 3 /\
  if97_region psatR (psatR 400) 400 4.
Proof.
  split; [apply region_map, (inside_at _ _ _ inside_1)|].
  split; [apply region_map, (inside_at _ _ _ inside_2)|].
  split; [apply region_map, (inside_at _ _ _ inside_5)|].
  split; [|split].
  - do 7 right. unfold in_range. split; [reflexivity|]. split; lra.
  - do 3 right; left. unfold in_range. repeat split; try lra. unfold p23; lra.
  - do 4 right; left. rewrite psatR_eq by lra.
    assert (0.2 < p4R 400 < 0.3) by (unfold p4R, be, qA, qB, qC, th; split; interval with (i_prec 60)).
    unfold in_range, at_saturation. repeat split; try lra. rewrite psatR_eq by lra.
    rewrite Rminus_diag_eq, Rabs_R0 by reflexivity. lra.
Qed.
Lemma wet_any (N : Num) (F : Fuel) us p y p' :
  toSIunit_p us p = Ok p' -> ((#0.000611657 <? p') && (p' <? #22.06395))%num = true ->
  (forall h', toSIunit_h us y = Ok h' -> region_ph p' h' = Ok 4%Z -> t_ph us p y = tsat_p us p) /\
  (forall s', toSIunit_s us y = Ok s' -> region_ps p' s' = Ok 4%Z -> t_ps us p y = tsat_p us p).
Proof. intros E G. split; intros z Ez R; [eapply wet_ph | eapply wet_ps]; eassumption. Qed.
Lemma si_bare q x : to_si BARE q x = x.
Proof. pose proof (si_BARE q (Fin x)) as E. cbn in E. now injection E. Qed.
Lemma ex_wet (F : Fuel) :
  region_ph (Fin (to_si BARE Qp 1)) (Fin (to_si BARE Qh 1500)) = Ok 4%Z /\
  region_ps (Fin (to_si BARE Qp 1)) (Fin (to_si BARE Qs 4)) = Ok 4%Z /\
  0.000611657 < to_si BARE Qp 1 < 22.06395.
Proof. rewrite !si_bare. split; [apply region_1_1500 |split; [apply region_1_s4 | lra]]. Qed.
Lemma gap (F : Fuel) : exists p t h,
  h_pt BARE (Fin p) (Fin t) = Ok (Fin h) /\ t_ph BARE (Fin p) (Fin h) = Ok NaN.
Proof. destruct high_pressure_gap as (h & H). now exists 30, 1500, h. Qed.

(** ** Saturation *)
Lemma sat_answers (F : Fuel) us x :
  (273.1 < to_si us QT x < 647.096 -> exists p, psat_t us (Fin x) = Ok (Fin p)) /\
  (0.000611657 < to_si us Qp x < 22.06395 -> exists t, tsat_p us (Fin x) = Ok (Fin t)).
Proof. split; intros H; eexists; [now apply psat_total | now apply tsat_total]. Qed.
Lemma ex_sat (F : Fuel) : exists p, psat_t BARE (Fin 400) = Ok (Fin p) /\
  0.000611657 < to_si BARE Qp p < 22.06395.
Proof.
  eexists. split; [apply psat_bare; lra|]. rewrite si_bare. unfold p4R, be, qA, qB, qC, th.
  split; interval with (i_prec 60).
Qed.
Lemma ex_mono (F : Fuel) : exists p1 p2 t1 t2,
  psat_t FLS (Fin 212) = Ok (Fin p1) /\ psat_t FLS (Fin 300) = Ok (Fin p2) /\
  tsat_p FLS (Fin 14.7) = Ok (Fin t1) /\ tsat_p FLS (Fin 1000) = Ok (Fin t2).
Proof.
  do 4 eexists. repeat split.
  - apply psat_total. unfold to_si; cbn [origin shift factor]; lra.
  - apply psat_total. unfold to_si; cbn [origin shift factor]; lra.
  - apply tsat_total. unfold to_si; cbn [origin shift factor]; lra.
  - apply tsat_total. unfold to_si; cbn [origin shift factor]; lra.
Qed.
Lemma fixed_points (F : Fuel) : exists p1 p2 t3,
    psat_t BARE (Fin 273.16) = Ok (Fin p1) /\ Rabs (p1 / 0.000611657 - 1) <= 1e-7 /\
    p4_T (Fin 647.096) = Ok (Fin p2) /\ Rabs (p2 / 22.064 - 1) <= 1e-6 /\
    tsat_p BARE (Fin 0.101325) = Ok (Fin t3) /\ Rabs (t3 - 373.124) <= 0.001.
Proof. apply reference_points. Qed.
Lemma critical (F : Fuel) us :
  psat_t us (Fin (to_user us QT 647.096)) = Ok NaN /\ tsat_p us (Fin (to_user us Qp 22.06395)) = Ok NaN /\
  forall t, 647.09 < to_si us QT t < 647.096 ->
  exists p, psat_t us (Fin t) = Ok (Fin p) /\ Rabs (to_si us Qp p / 22.06395 - 1) <= 1e-4.
Proof.
  destruct (critical_point us) as [A B]. split; [exact A|]. split; [exact B|]. apply near_critical.
Qed.
Lemma ex_by_pressure (F : Fuel) : by_pressure F_hV_t = Some F_hV_p /\
  273.16 <= to_si MKS QT 100 <= 623.14 /\ exists p, psat_t MKS (Fin 100) = Ok (Fin p).
Proof.
  split; [reflexivity|]. split; [unfold to_si; cbn [origin shift factor]; lra|].
  eexists. apply psat_total. unfold to_si; cbn [origin shift factor]; lra.
Qed.

(** ** Thermodynamics *)
Lemma answers3 rho T : 0 < rho /\ 0 < T ->
  answers (ModRegion3.p3_rhoT (Fin rho) (Fin T)) /\ answers (ModRegion3.u3_rhoT (Fin rho) (Fin T)) /\
  answers (ModRegion3.h3_rhoT (Fin rho) (Fin T)) /\ answers (ModRegion3.s3_rhoT (Fin rho) (Fin T)) /\
  answers (ModRegion3.Cv3_rhoT (Fin rho) (Fin T)).
Proof.
  intros H. destruct (eos3 rho T H) as (-> & -> & -> & -> & ->). unfold answers.
  repeat match goal with |- _ /\ _ => split end; eexists; reflexivity.
Qed.
Lemma ex_inside (F : Fuel) : (single_phase 1 /\ inside 1 1 400) /\ (single_phase 2 /\ inside 2 1 600) /\
  (single_phase 5 /\ inside 5 1 1500).
Proof.
  unfold single_phase.
  split; [split; [auto | apply inside_1] | split; split; [auto | apply inside_2 | auto | apply inside_5]].
Qed.
Lemma ex_cv (F : Fuel) : answers (Cv_pt BARE (Fin 1) (Fin 400)) /\
  answers (w_pt BARE (Fin 1) (Fin 400)) /\ answers (ModRegion3.Cp3_rhoT (Fin 500) (Fin 650)) /\
  answers (ModRegion3.w3_rhoT (Fin 500) (Fin 650)).
Proof. split; [apply Cv_1_400|]. split; [apply w_1_400 | apply Cp3_w3_500_650]. Qed.

(** ** Heavy water *)
Lemma user_bare q x : to_user BARE q x = x.
Proof. pose proof (user_BARE q (Fin x)) as E. cbn in E. now injection E. Qed.
Lemma hw_default rho T :
  (277 <= T <= 775 -> hw_my_rhoT BARE (Fin rho) (Fin T) = Ok (Fin (R4_viscosity rho T))) /\
  (277 <= T <= 825 -> hw_tc_rhoT BARE (Fin rho) (Fin T) = Ok (Fin (R4_conductivity rho T))).
Proof.
  split; intros H; [rewrite hw_my_in | rewrite hw_tc_in]; rewrite ?si_bare, ?user_bare; auto.
Qed.
Lemma ex_hw : 277 <= to_si MKS QT 26.85 <= 775 /\ ~ 277 <= to_si BARE QT 276.9 <= 775.
Proof. unfold to_si; cbn [origin shift factor]; split; lra. Qed.

Lemma ex_rise : region_pT (Fin (to_si MKS Qp 10)) (Fin (to_si MKS QT 20)) = Ok 1%Z /\
  region_pT (Fin (to_si MKS Qp 10)) (Fin (to_si MKS QT 80)) = Ok 1%Z /\
  region_pT (Fin (to_si MKS Qp 500)) (Fin (to_si MKS QT 20)) = Ok 1%Z.
Proof.
  assert (E1 : to_si MKS Qp 10 = 1) by (unfold to_si; cbn [origin shift factor]; lra).
  assert (E2 : to_si MKS QT 20 = 293.15) by (unfold to_si; cbn [origin shift factor]; lra).
  assert (E3 : to_si MKS QT 80 = 353.15) by (unfold to_si; cbn [origin shift factor]; lra).
  assert (E4 : to_si MKS Qp 500 = 50) by (unfold to_si; cbn [origin shift factor]; lra).
  rewrite E1, E2, E3, E4. clear.
  assert (P3 : p4R 353.15 < 0.9) by (unfold p4R, be, qA, qB, qC, th; interval with (i_prec 60)).
  assert (P2 : p4R 293.15 < p4R 353.15) by (apply p4_incr; lra).
  assert (K : forall p T, 273.15 < T <= 623.15 -> p4R T + 0.0001 < p <= 100 -> 0.9 < p ->
    region_pT (Fin p) (Fin T) = Ok 1%Z).
  { intros p T H1 H2 H3. apply region_map. left. unfold in_range, at_saturation.
    rewrite psatR_eq, Rabs_pos_eq by lra. repeat split; lra. }
  repeat split; apply K; lra.
Qed.
