(** Wet steam over the whole saturation range, in every unit system. *)
From Coq Require Import ZArith Reals Lra Lia List Bool.
From Interval Require Import Tactic.
From Verif Require Import Py ExactReal ModState ModConstants ModUnits ModRegion1 ModRegion3 ModSelect ModXSteam SpecUnits SpecApi SpecRange
  SpecThermo SpecWet SpecWet2 RealSum ProofUnits ProofCovariance ProofSat ProofSatApi ProofEos ProofThermo ProofThermoApi ProofMisc ProofWet ProofWetApi ProofWet2 ProofWet3
  ProofDense ProofDense2 BoundY.
Open Scope R_scope.

Section Api.
Context {F : Fuel}.
Ltac up1 f us p :=
  let V := fresh "V" in
  pose proof (via1 f us (Fin p)) as V; cbn [run1 sig1 fst snd si lift1] in V; rewrite V; clear V.
Ltac up2 f us p y :=
  let V := fresh "V" in
  pose proof (via2 f us (Fin p) (Fin y) ltac:(discriminate)) as V;
  cbn [run2 sig2 fst snd si lift1] in V; rewrite V; clear V.

Lemma wet_all P : 0.000611657 < P < 22.06395 -> (16.529 <= P -> (32 <= Z.of_nat fuel)%Z) ->
  exists hl hv sl sv vl vv ul uv T, wet P hl hv sl sv vl vv ul uv T /\ Rabs (hv - hl - T * (sv - sl)) < 0.015.
Proof.
  intros H Hf. destruct (Rlt_or_le P 16.529) as [L|L].
  - do 9 eexists. split; [apply low_wet; lra|]. destruct (T4_low P ltac:(unfold low; lra)) as (_ & T1 & T2).
    pose proof (gap_all (T4R P) ltac:(lra)) as G. rewrite T2 in G. exact G.
  - destruct (dense_ok P ltac:(lra) (Hf L)) as (hl & hv & sl & sv & vl & vv & ul & uv & Q).
    do 9 eexists. split; [apply dense_wet; [lra | exact Q] | apply (d_g _ _ _ _ _ _ _ _ _ Q)].
Qed.
Section At.
Variables (us : unit_system) (p : R).
Hypotheses (H : in_sat us p) (E : enough us p).
Let P := to_si us Qp p.
Variables (hl hv sl sv vl vv ul uv T : R).
Hypothesis W : wet P hl hv sl sv vl vv ul uv T.
Lemma sat_user : saturated us p (to_user us Qh hl) (to_user us Qh hv) (to_user us Qs sl) (to_user us Qs sv)
    (to_user us Qv vl) (to_user us Qv vv) (to_user us Qu ul) (to_user us Qu uv).
Proof.
  unfold saturated. up1 F_hL_p us p. up1 F_hV_p us p. up1 F_sL_p us p. up1 F_sV_p us p.
  up1 F_vL_p us p. up1 F_vV_p us p. up1 F_uL_p us p. up1 F_uV_p us p.
  fold P. destruct (w_sat _ _ _ _ _ _ _ _ _ _ W) as (-> & -> & -> & -> & -> & -> & -> & ->). repeat split.
Qed.
Lemma x_ph_user h : x_ph us (Fin p) (Fin h) = Ok (Fin (quality hl hv (to_si us Qh h))).
Proof. up2 F_x_ph us p h. fold P. rewrite (w_xh _ _ _ _ _ _ _ _ _ _ W). cbn [map_res user lift1]. now rewrite one_user. Qed.
Lemma x_ps_user s : x_ps us (Fin p) (Fin s) = Ok (Fin (quality sl sv (to_si us Qs s))).
Proof. up2 F_x_ps us p s. fold P. rewrite (w_xs _ _ _ _ _ _ _ _ _ _ W). cbn [map_res user lift1]. now rewrite one_user. Qed.
Lemma part_user x : 0 <= x <= 1 -> let a := to_user us Qv vl in let b := to_user us Qv vv in
  0 <= part vl vv x <= 1 /\ part vl vv x * (x * b + (1 - x) * a) = x * b /\ 0 < x * b + (1 - x) * a.
Proof.
  clear H E. intros Hx. cbv zeta. assert (V := w_v _ _ _ _ _ _ _ _ _ _ W). split; [now apply part_range|].
  pose proof (part_den vl vv x V Hx) as K.
  assert (U : forall y, to_user us Qv y = y * factor us Qv) by (intros y; unfold to_user; destruct us; cbn [origin shift]; ring).
  rewrite !U. replace (x * (vv * factor us Qv) + (1 - x) * (vl * factor us Qv)) with ((x * vv + (1 - x) * vl) * factor us Qv) by ring.
  split; [unfold part; field; lra | apply Rmult_lt_0_compat; [easy | apply factor_pos]].
Qed.
End At.

Ltac start us p H E := let D := fresh in destruct (wet_all (to_si us Qp p) H E) as (hl & hv & sl & sv & vl & vv & ul & uv & T & W & G).
Lemma above_all us p : in_sat us p -> enough us p ->
  exists hl hv sl sv vl vv ul uv, saturated us p hl hv sl sv vl vv ul uv /\ hl < hv /\ sl < sv /\ 0 < vl < vv /\ ul < uv.
Proof.
  intros H E. start us p H E. do 8 eexists. split; [eapply sat_user; eassumption|]. destruct W as [_ _ W1 W2 W3 W4 _ _ _ _ _ _ _].
  rewrite <- (zero_v us). repeat split; apply to_user_lt; lra.
Qed.
Lemma x_ph_all us p h : in_sat us p -> enough us p -> exists hl hv x,
  hL_p us (Fin p) = Ok (Fin hl) /\ hV_p us (Fin p) = Ok (Fin hv) /\ x_ph us (Fin p) (Fin h) = Ok (Fin x) /\
  0 <= x <= 1 /\ (h <= hl -> x = 0) /\ (hv <= h -> x = 1) /\ (hl <= h <= hv -> h = hl + x * (hv - hl)).
Proof.
  intros H E. start us p H E. destruct (sat_user us p _ _ _ _ _ _ _ _ _ W) as (E1 & E2 & _). do 3 eexists. split; [exact E1|]. split; [exact E2|].
  split; [eapply x_ph_user; eassumption|]. apply quality_user. apply (w_h _ _ _ _ _ _ _ _ _ _ W).
Qed.
Lemma x_ps_all us p s : in_sat us p -> enough us p -> exists sl sv x,
  sL_p us (Fin p) = Ok (Fin sl) /\ sV_p us (Fin p) = Ok (Fin sv) /\ x_ps us (Fin p) (Fin s) = Ok (Fin x) /\
  0 <= x <= 1 /\ (s <= sl -> x = 0) /\ (sv <= s -> x = 1) /\ (sl <= s <= sv -> s = sl + x * (sv - sl)).
Proof.
  intros H E. start us p H E. destruct (sat_user us p _ _ _ _ _ _ _ _ _ W) as (_ & _ & E1 & E2 & _). do 3 eexists. split; [exact E1|]. split; [exact E2|].
  split; [eapply x_ps_user; eassumption|]. apply quality_user. apply (w_s _ _ _ _ _ _ _ _ _ _ W).
Qed.
Lemma h_px_all us p x : in_sat us p -> enough us p -> 0 <= x <= 1 -> exists hl hv h,
  hL_p us (Fin p) = Ok (Fin hl) /\ hV_p us (Fin p) = Ok (Fin hv) /\
  h_px us (Fin p) (Fin x) = Ok (Fin h) /\ h = hl + x * (hv - hl) /\ x_ph us (Fin p) (Fin h) = Ok (Fin x).
Proof.
  intros H E Hx. start us p H E. destruct (sat_user us p _ _ _ _ _ _ _ _ _ W) as (E1 & E2 & _). do 3 eexists. split; [exact E1|]. split; [exact E2|].
  split; [up2 F_h_px us p x; rewrite one_si, (w_hx _ _ _ _ _ _ _ _ _ _ W) by assumption; reflexivity|].
  split; [apply (to_user_mix us Qh)|].
  rewrite (x_ph_user us p _ _ _ _ _ _ _ _ _ W), to_si_to_user. unfold mix. rewrite quality_mix; [reflexivity | apply (w_h _ _ _ _ _ _ _ _ _ _ W) | exact Hx].
Qed.
Lemma vx_ph_all us p h : in_sat us p -> enough us p -> exists x vl vv vx,
  x_ph us (Fin p) (Fin h) = Ok (Fin x) /\ vL_p us (Fin p) = Ok (Fin vl) /\ vV_p us (Fin p) = Ok (Fin vv) /\
  vx_ph us (Fin p) (Fin h) = Ok (Fin vx) /\
  0 <= vx <= 1 /\ vx * (x * vv + (1 - x) * vl) = x * vv /\ 0 < x * vv + (1 - x) * vl.
Proof.
  intros H E. start us p H E. destruct (sat_user us p _ _ _ _ _ _ _ _ _ W) as (_ & _ & _ & _ & E1 & E2 & _). do 4 eexists.
  split; [eapply x_ph_user; eassumption|]. split; [exact E1|]. split; [exact E2|]. split.
  { up2 F_vx_ph us p h. rewrite (w_vh _ _ _ _ _ _ _ _ _ _ W). cbn [map_res user lift1]. rewrite one_user. reflexivity. }
  eapply part_user; [exact W|]. apply quality_spec, (w_h _ _ _ _ _ _ _ _ _ _ W).
Qed.
Lemma vx_ps_all us p s : in_sat us p -> enough us p -> exists x vl vv vx,
  x_ps us (Fin p) (Fin s) = Ok (Fin x) /\ vL_p us (Fin p) = Ok (Fin vl) /\ vV_p us (Fin p) = Ok (Fin vv) /\
  vx_ps us (Fin p) (Fin s) = Ok (Fin vx) /\
  0 <= vx <= 1 /\ vx * (x * vv + (1 - x) * vl) = x * vv /\ 0 < x * vv + (1 - x) * vl.
Proof.
  intros H E. start us p H E. destruct (sat_user us p _ _ _ _ _ _ _ _ _ W) as (_ & _ & _ & _ & E1 & E2 & _). do 4 eexists.
  split; [eapply x_ps_user; eassumption|]. split; [exact E1|]. split; [exact E2|]. split.
  { up2 F_vx_ps us p s. rewrite (w_vs _ _ _ _ _ _ _ _ _ _ W). cbn [map_res user lift1]. rewrite one_user. reflexivity. }
  eapply part_user; [exact W|]. apply quality_spec, (w_s _ _ _ _ _ _ _ _ _ _ W).
Qed.
(** region 4 by (p,h) and by (p,s) *)
Lemma region4_ph us p h : in_sat us p -> enough us p -> region_ph (Fin (to_si us Qp p)) (Fin (to_si us Qh h)) = Ok 4%Z ->
  exists hl hv sl sv vl vv ul uv x, saturated us p hl hv sl sv vl vv ul uv /\ 0 <= x <= 1 /\ x_ph us (Fin p) (Fin h) = Ok (Fin x) /\
    v_ph us (Fin p) (Fin h) = Ok (Fin (mix vl vv x)) /\ s_ph us (Fin p) (Fin h) = Ok (Fin (mix sl sv x)) /\
    u_ph us (Fin p) (Fin h) = Ok (Fin (mix ul uv x)) /\ t_ph us (Fin p) (Fin h) = tsat_p us (Fin p).
Proof.
  intros H E K. start us p H E. do 9 eexists. split; [eapply sat_user; eassumption|].
  split; [|split; [eapply x_ph_user; eassumption|]]; [apply quality_spec, (w_h _ _ _ _ _ _ _ _ _ _ W)|].
  destruct (w_ph _ _ _ _ _ _ _ _ _ _ W _ K) as (W1 & W2 & W3 & W4). rewrite <- !to_user_mix.
  split; [up2 F_v_ph us p h; now rewrite W1|]. split; [up2 F_s_ph us p h; now rewrite W2|]. split; [up2 F_u_ph us p h; now rewrite W3|].
  up2 F_t_ph us p h. rewrite W4. up1 F_tsat_p us p. rewrite (w_T _ _ _ _ _ _ _ _ _ _ W). reflexivity.
Qed.
Lemma region4_ps us p s : in_sat us p -> enough us p -> region_ps (Fin (to_si us Qp p)) (Fin (to_si us Qs s)) = Ok 4%Z ->
  exists hl hv sl sv vl vv ul uv x, saturated us p hl hv sl sv vl vv ul uv /\ 0 <= x <= 1 /\ x_ps us (Fin p) (Fin s) = Ok (Fin x) /\
    v_ps us (Fin p) (Fin s) = Ok (Fin (mix vl vv x)) /\ h_ps us (Fin p) (Fin s) = Ok (Fin (mix hl hv x)) /\
    u_ps us (Fin p) (Fin s) = Ok (Fin (mix ul uv x)) /\ t_ps us (Fin p) (Fin s) = tsat_p us (Fin p).
Proof.
  intros H E K. start us p H E. do 9 eexists. split; [eapply sat_user; eassumption|].
  split; [|split; [eapply x_ps_user; eassumption|]]; [apply quality_spec, (w_s _ _ _ _ _ _ _ _ _ _ W)|].
  destruct (w_ps _ _ _ _ _ _ _ _ _ _ W _ K) as (W1 & W2 & W3 & W4). rewrite <- !to_user_mix.
  split; [up2 F_v_ps us p s; now rewrite W1|]. split; [up2 F_h_ps us p s; now rewrite W2|]. split; [up2 F_u_ps us p s; now rewrite W3|].
  up2 F_t_ps us p s. rewrite W4. up1 F_tsat_p us p. rewrite (w_T _ _ _ _ _ _ _ _ _ _ W). reflexivity.
Qed.
(** equal Gibbs energies *)
Lemma gibbs_all us p : in_sat us p -> enough us p -> exists hl hv sl sv T,
  hL_p us (Fin p) = Ok (Fin hl) /\ hV_p us (Fin p) = Ok (Fin hv) /\ sL_p us (Fin p) = Ok (Fin sl) /\ sV_p us (Fin p) = Ok (Fin sv) /\
  tsat_p us (Fin p) = Ok (Fin T) /\
  Rabs (to_si us Qh hv - to_si us Qh hl - to_si us QT T * (to_si us Qs sv - to_si us Qs sl)) < 0.015.
Proof.
  intros H E. start us p H E. destruct (sat_user us p _ _ _ _ _ _ _ _ _ W) as (E1 & E2 & E3 & E4 & _).
  exists (to_user us Qh hl), (to_user us Qh hv), (to_user us Qs sl), (to_user us Qs sv), (to_user us QT T).
  repeat (split; [assumption|]). split; [up1 F_tsat_p us p; now rewrite (w_T _ _ _ _ _ _ _ _ _ _ W)|]. now rewrite !to_si_to_user.
Qed.
End Api.

(** The two ways of naming a wet state agree. *)
Section Inv.
Context {F : Fuel}.
Lemma same_fin a b : Ok (Fin a) = Ok (Fin b) -> a = b.
Proof. intros K. apply (f_equal (fun r => match r with Ok x => x | _ => NaN end)) in K. now apply Fin_inj in K. Qed.
Lemma same_sat us p a1 a2 a3 a4 a5 a6 a7 a8 b1 b2 b3 b4 b5 b6 b7 b8 :
  saturated us p a1 a2 a3 a4 a5 a6 a7 a8 -> saturated us p b1 b2 b3 b4 b5 b6 b7 b8 ->
  (a1 = b1 /\ a2 = b2 /\ a3 = b3 /\ a4 = b4) /\ a5 = b5 /\ a6 = b6 /\ a7 = b7 /\ a8 = b8.
Proof.
  intros (A1 & A2 & A3 & A4 & A5 & A6 & A7 & A8) (B1 & B2 & B3 & B4 & B5 & B6 & B7 & B8).
  repeat split; apply same_fin; congruence.
Qed.
Lemma region4_inverse us p h s hl hv : in_sat us p -> enough us p ->
  region_ph (Fin (to_si us Qp p)) (Fin (to_si us Qh h)) = Ok 4%Z -> s_ph us (Fin p) (Fin h) = Ok (Fin s) ->
  region_ps (Fin (to_si us Qp p)) (Fin (to_si us Qs s)) = Ok 4%Z ->
  hL_p us (Fin p) = Ok (Fin hl) -> hV_p us (Fin p) = Ok (Fin hv) ->
  (hl <= h <= hv -> h_ps us (Fin p) (Fin s) = Ok (Fin h)) /\ x_ps us (Fin p) (Fin s) = x_ph us (Fin p) (Fin h) /\
  v_ps us (Fin p) (Fin s) = v_ph us (Fin p) (Fin h) /\ u_ps us (Fin p) (Fin s) = u_ph us (Fin p) (Fin h) /\
  t_ps us (Fin p) (Fin s) = t_ph us (Fin p) (Fin h).
Proof.
  intros H E K Es K' E1 E2.
  destruct (region4_ph us p h H E K) as (a1 & a2 & a3 & a4 & a5 & a6 & a7 & a8 & x & S & Hx & X & V & Es' & U & T).
  destruct (region4_ps us p s H E K') as (b1 & b2 & b3 & b4 & b5 & b6 & b7 & b8 & y & S' & Hy & Y & V' & Eh & U' & T').
  destruct (above_all us p H E) as (c1 & c2 & c3 & c4 & c5 & c6 & c7 & c8 & S'' & Lh & Ls & _).
  destruct (same_sat _ _ _ _ _ _ _ _ _ _ _ _ _ _ _ _ _ _ S S') as ((<- & <- & <- & <-) & <- & <- & <- & <-).
  destruct (same_sat _ _ _ _ _ _ _ _ _ _ _ _ _ _ _ _ _ _ S S'') as ((<- & <- & <- & <-) & <- & <- & <- & <-).
  rewrite Es' in Es. apply same_fin in Es.
  assert (Exy : y = x).
  { destruct (x_ps_all us p s H E) as (sl & sv & x' & F1 & F2 & F3 & _ & _ & _ & F4). destruct S as (_ & _ & S3 & S4 & _).
    assert (sl = a3) by (apply same_fin; congruence). assert (sv = a4) by (apply same_fin; congruence). assert (x' = y) by (apply same_fin; congruence). subst sl sv x'.
    assert (B : a3 <= s <= a4) by (rewrite <- Es; unfold mix; assert (0 <= x * (a4 - a3)) by (apply Rmult_le_pos; lra); assert (0 <= (1 - x) * (a4 - a3)) by (apply Rmult_le_pos; lra); lra).
    specialize (F4 B). rewrite F4 in Es. unfold mix in Es. apply Rplus_eq_reg_l in Es. apply Rmult_eq_reg_r in Es; [easy | lra]. }
  subst y. split; [|rewrite Y, X, V', V, U', U, T', T; repeat split].
  intros B. rewrite Eh. do 2 f_equal. destruct S as (S1 & S2 & _). assert (hl = a1) by (apply same_fin; congruence). assert (hv = a2) by (apply same_fin; congruence). subst hl hv.
  destruct (x_ph_all us p h H E) as (hl & hv & x' & F1 & F2 & F3 & _ & _ & _ & F4).
  assert (hl = a1) by (apply same_fin; congruence). assert (hv = a2) by (apply same_fin; congruence). assert (x' = x) by (apply same_fin; congruence). subst hl hv x'. symmetry. apply F4, B.
Qed.
(** a wet state with negative entropy has no (p,s) name *)
Definition pz := 0.00061165701.
Lemma T_pz : 273.1600002246 < T4R pz < 273.1600002249.
Proof. unfold T4R, Tb, de, qE, qF, qG, pz. set (b := Rpower _ _). assert (B : 0.1572631 < b < 0.1572632) by (unfold b; split; interval with (i_prec 60)). unfold b. split; interval with (i_prec 80). Qed.
Lemma s_pz : sL pz < -2e-8 /\ sV pz < 9.2.
Proof.
  pose proof T_pz as H. unfold sL, sV, pz in *. set (T := T4R _) in *. clearbody T. split; reals; interval.
Qed.
Lemma no_inverse : exists p h s, in_low BARE p /\ region_ph (Fin p) (Fin h) = Ok 4%Z /\
  s_ph BARE (Fin p) (Fin h) = Ok (Fin s) /\ h_ps BARE (Fin p) (Fin s) = Ok NaN.
Proof.
  assert (L : 0.000611657 < pz < 16.529) by (unfold pz; lra). destruct s_pz as (S1 & S3).
  destruct (above_low pz ltac:(lra)) as (A & B & _).
  assert (M : hL pz < mix (hL pz) (hV pz) 1e-9 < hV pz) by (apply mix_between; lra).
  assert (K : region_ph (Fin pz) (Fin (mix (hL pz) (hV pz) 1e-9)) = Ok 4%Z) by (apply (region_ph_wet pz L), M).
  exists pz, (mix (hL pz) (hV pz) 1e-9), (mix (sL pz) (sV pz) 1e-9).
  assert (I : in_low BARE pz) by (unfold in_low, to_si; cbn [origin shift factor]; rewrite Rmult_1_r || idtac; lra).
  split; [exact I|]. split; [exact K|].
  destruct (w_ph _ _ _ _ _ _ _ _ _ _ (low_wet pz L) _ K) as (_ & W & _). split.
  - rewrite W. unfold mix at 2. rewrite quality_mix; [reflexivity | exact A | lra].
  - unfold h_ps. bare. rewrite (region_ps_low pz ltac:(lra)). unfold regps.
    replace (Rltb (mix (sL pz) (sV pz) 1e-9) 0) with true; [reflexivity|]. symmetry. apply Rltb_true. unfold mix. lra.
Qed.
End Inv.
