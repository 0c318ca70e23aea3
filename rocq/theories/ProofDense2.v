(** Saturated states and wet steam from 16.529 MPa to the critical point. *)
From Coq Require Import ZArith Reals Lra Lia List Bool Qreals.
From Interval Require Import Tactic.
From Verif Require Import Py ExactReal ModState ModConstants ModUnits ModBorders ModRegion1 ModRegion2 ModRegion3
  ModRegion4 ModRegion5 ModSelect ModXSteam SpecUnits SpecApi SpecRange SpecThermo SpecWet SpecWet2 ProofUnits
  ProofCovariance ProofGeneric RealSum ProofEos ProofThermo ProofSat ProofSatApi ProofThermoApi ProofMisc
  ProofWet ProofWetApi ProofWet2 ProofWet3 ProofDense Sat3 ProofBack BoundW.
Open Scope R_scope.

Lemma P3_mid h : 2087.2 <= h <= 2087.6 -> 22.063951 < P3 h.
Proof. intros H. unfold P3. reals. interval with (i_prec 60, i_bisect h, i_taylor h, i_degree 8, i_depth 25). Qed.

Section S.
Context {F : Fuel}.
(** what is known of the two saturated states in region 3 *)
Record dense (p hl hv sl sv vl vv ul uv : R) : Prop := {
  d_T : T4_p (Fin p) = Ok (Fin (T4R p));
  d_Tr : 273 <= T4R p <= 647.1;
  d_h : hl < hv; d_s : sl < sv; d_v : 0 < vl < vv; d_u : ul < uv;
  d_hl : h4L_p (Fin p) = Ok (Fin hl); d_hv : h4V_p (Fin p) = Ok (Fin hv);
  d_vl : v3_ph (Fin p) (Fin hl) = Ok (Fin vl); d_vv : v3_ph (Fin p) (Fin hv) = Ok (Fin vv);
  d_sl : s3_rhoT (Fin (1 / vl)) (Fin (T4R p)) = Ok (Fin sl); d_sv : s3_rhoT (Fin (1 / vv)) (Fin (T4R p)) = Ok (Fin sv);
  d_ul : u3_rhoT (Fin (1 / vl)) (Fin (T4R p)) = Ok (Fin ul); d_uv : u3_rhoT (Fin (1 / vv)) (Fin (T4R p)) = Ok (Fin uv);
  d_pl : exists q, p3_rhoT (Fin (1 / vl)) (Fin (T4R p)) = Ok (Fin q) /\ Rabs (q - p) < 0.0004;
  d_pv : exists q, p3_rhoT (Fin (1 / vv)) (Fin (T4R p)) = Ok (Fin q) /\ Rabs (q - p) < 0.0001;
  d_el : exists q, h3_rhoT (Fin (1 / vl)) (Fin (T4R p)) = Ok (Fin q) /\ Rabs (q - hl) < 0.006;
  d_ev : exists q, h3_rhoT (Fin (1 / vv)) (Fin (T4R p)) = Ok (Fin q) /\ Rabs (q - hv) < 0.007;
  d_g : Rabs (hv - hl - T4R p * (sv - sl)) < 0.015 }.
Ltac q2 H := unfold Q2R in H; cbn [QArith_base.Qnum QArith_base.Qden] in H.
Lemma dense_ok p : 16.529 <= p < 22.06395 -> (32 <= Z.of_nat fuel)%Z -> exists hl hv sl sv vl vv ul uv, dense p hl hv sl sv vl vv ul uv.
Proof.
  intros H Hf. destruct (h4L_dense p H Hf) as (hl & El & Rl & Al). destruct (h4V_dense p H Hf) as (hv & Ev & Rv & Av).
  destruct (p4_T4 p ltac:(lra)) as (_ & HT & _).
  assert (Hv : 2087.6 <= hv).
  { apply Rnot_lt_le. intros K. pose proof (P3_mid hv ltac:(lra)). pose proof (Rle_abs (P3 hv - p)) as Z; rewrite Rabs_minus_sym in Z; lra. }
  assert (SL := sat3L_all (p - P3 hl) ltac:(lra) hl ltac:(lra)). assert (SV := sat3V_all (p - P3 hv) ltac:(lra) hv ltac:(lra)).
  unfold sat3 in SL, SV. cbv zeta in SL, SV.
  replace (P3 hl + (p - P3 hl)) with p in SL by ring. replace (P3 hv + (p - P3 hv)) with p in SV by ring.
  set (vl := v3aR p hl) in *. set (vv := v3bR p hv) in *. set (T := T4R p) in *.
  destruct SL as (L1 & L2 & L3 & L4 & L5 & L6 & L7). destruct SV as (V1 & V2 & V3 & V4 & V5 & V6 & V7).
  assert (X1 : 0.0017 < vl < 0.0031045) by (clearbody vl; q2 L1; lra). assert (Y1 : 0.0031055 < vv < 0.0090) by (clearbody vv; q2 V1; lra).
  assert (X4 : hl < ProofBack.ab p) by (clear - L4; set (a := ProofBack.ab p) in *; clearbody a; q2 L4; lra).
  assert (Y4 : ProofBack.ab p <= hv) by (clear - V4; set (a := ProofBack.ab p) in *; clearbody a; q2 V4; lra).
  assert (Pl : 0 < 1 / vl) by (apply Rdiv_lt_0_compat; lra). assert (Pv : 0 < 1 / vv) by (apply Rdiv_lt_0_compat; lra).
  destruct (eos3 (1 / vl) T ltac:(unfold dom3; lra)) as (A1 & A2 & A3 & A4 & _).
  destruct (eos3 (1 / vv) T ltac:(unfold dom3; lra)) as (B1 & B2 & B3 & B4 & _).
  assert (C1 : v3_ph (Fin p) (Fin hl) = Ok (Fin vl)) by (apply v3a_ph_closed; lra).
  assert (C2 : v3_ph (Fin p) (Fin hv) = Ok (Fin vv)) by (apply v3b_ph_closed; lra).
  set (sl := s3R (1 / vl) T) in *. set (sv := s3R (1 / vv) T) in *. set (ul := u3R (1 / vl) T) in *. set (uv := u3R (1 / vv) T) in *.
  set (pl := p3R (1 / vl) T) in *. set (pv := p3R (1 / vv) T) in *. set (el := h3R (1 / vl) T) in *. set (ev := h3R (1 / vv) T) in *. set (g := gref p) in *.
  assert (ET := T4_dense p H). fold T in ET. assert (QT : T4R p = T) by reflexivity.
  clearbody vl vv sl sv ul uv pl pv el ev g T. clear X4 Y4 L1 V1 L4 V4.
  q2 L2. q2 L3. q2 L5. q2 L6. q2 L7. q2 V2. q2 V3. q2 V5. q2 V6. q2 V7.
  exists hl, hv, sl, sv, vl, vv, ul, uv. constructor; rewrite ?QT; try assumption; try lra.
  - exists pl. split; [exact A1 | apply Rabs_def1; lra].
  - exists pv. split; [exact B1 | apply Rabs_def1; lra].
  - exists el. split; [exact A2 | apply Rabs_def1; lra].
  - exists ev. split; [exact B2 | apply Rabs_def1; lra].
  - apply Rabs_def1; lra.
Qed.

(** ** What the API answers, SI units *)
Definition part (vl vv x : R) : R := x * vv / (x * vv + (1 - x) * vl).
Lemma part_den vl vv x : 0 < vl < vv -> 0 <= x <= 1 -> 0 < x * vv + (1 - x) * vl.
Proof. intros A H. assert (0 <= x * (vv - vl)) by (apply Rmult_le_pos; lra). lra. Qed.
Lemma part_range vl vv x : 0 < vl < vv -> 0 <= x <= 1 -> 0 <= part vl vv x <= 1.
Proof.
  intros A H. pose proof (part_den vl vv x A H) as K.
  assert (0 <= x * vv) by (apply Rmult_le_pos; lra). assert (0 <= (1 - x) * vl) by (apply Rmult_le_pos; lra).
  unfold part. split.
  - apply Rmult_le_pos; [easy|]. apply Rlt_le, Rinv_0_lt_compat, K.
  - apply Rmult_le_reg_r with (x * vv + (1 - x) * vl); [easy|]. unfold Rdiv. rewrite Rmult_assoc, Rinv_l by lra. lra.
Qed.
Record wet (p hl hv sl sv vl vv ul uv T : R) : Prop := {
  w_sat : saturated BARE p hl hv sl sv vl vv ul uv;
  w_T : tsat_p BARE (Fin p) = Ok (Fin T);
  w_h : hl < hv; w_s : sl < sv; w_v : 0 < vl < vv; w_u : ul < uv;
  w_xh : forall h, x_ph BARE (Fin p) (Fin h) = Ok (Fin (quality hl hv h));
  w_xs : forall s, x_ps BARE (Fin p) (Fin s) = Ok (Fin (quality sl sv s));
  w_hx : forall x, 0 <= x <= 1 -> h_px BARE (Fin p) (Fin x) = Ok (Fin (mix hl hv x));
  w_vh : forall h, vx_ph BARE (Fin p) (Fin h) = Ok (Fin (part vl vv (quality hl hv h)));
  w_vs : forall s, vx_ps BARE (Fin p) (Fin s) = Ok (Fin (part vl vv (quality sl sv s)));
  w_ph : forall h, region_ph (Fin p) (Fin h) = Ok 4%Z -> let x := quality hl hv h in
    v_ph BARE (Fin p) (Fin h) = Ok (Fin (mix vl vv x)) /\ s_ph BARE (Fin p) (Fin h) = Ok (Fin (mix sl sv x)) /\
    u_ph BARE (Fin p) (Fin h) = Ok (Fin (mix ul uv x)) /\ t_ph BARE (Fin p) (Fin h) = Ok (Fin T);
  w_ps : forall s, region_ps (Fin p) (Fin s) = Ok 4%Z -> let x := quality sl sv s in
    v_ps BARE (Fin p) (Fin s) = Ok (Fin (mix vl vv x)) /\ h_ps BARE (Fin p) (Fin s) = Ok (Fin (mix hl hv x)) /\
    u_ps BARE (Fin p) (Fin s) = Ok (Fin (mix ul uv x)) /\ t_ps BARE (Fin p) (Fin s) = Ok (Fin T) }.

Section D.
Variables (p hl hv sl sv vl vv ul uv : R).
Hypotheses (Hp : 16.529 <= p < 22.06395) (Q : dense p hl hv sl sv vl vv ul uv).
Lemma over1 v : 0 < v -> div (Num := RNum) (lit 1%dec) (Fin v) = Ok (Fin (1 / v)).
Proof. intros H. cbn [div RNum lit]. rewrite xdiv_Fin by lra. change (D 1%dec) with 1. reflexivity. Qed.
Let QT := d_T _ _ _ _ _ _ _ _ _ Q.
Let QTr := d_Tr _ _ _ _ _ _ _ _ _ Q.
Let Qh := d_h _ _ _ _ _ _ _ _ _ Q.
Let Qs := d_s _ _ _ _ _ _ _ _ _ Q.
Let Qv := d_v _ _ _ _ _ _ _ _ _ Q.
Let Qu := d_u _ _ _ _ _ _ _ _ _ Q.
Let Qhl := d_hl _ _ _ _ _ _ _ _ _ Q.
Let Qhv := d_hv _ _ _ _ _ _ _ _ _ Q.
Let Qvl := d_vl _ _ _ _ _ _ _ _ _ Q.
Let Qvv := d_vv _ _ _ _ _ _ _ _ _ Q.
Let Qsl := d_sl _ _ _ _ _ _ _ _ _ Q.
Let Qsv := d_sv _ _ _ _ _ _ _ _ _ Q.
Let Qul := d_ul _ _ _ _ _ _ _ _ _ Q.
Let Quv := d_uv _ _ _ _ _ _ _ _ _ Q.
Let Qvp : 0 < vl /\ 0 < vv. Proof. pose proof Qv; lra. Qed.
Lemma over1' v : 0 < v -> div (Num := RNum) (Fin (D 1%dec)) (Fin v) = Ok (Fin (1 / v)).
Proof. apply over1. Qed.
Ltac known_d := repeat progress (rewrite ?Qhl, ?Qhv, ?QT; cbn [bind]; rewrite ?Qvl, ?Qvv; cbn [bind]; rewrite ?(over1 vl), ?(over1 vv), ?(over1' vl), ?(over1' vv) by apply Qvp; cbn [bind];
  rewrite ?Qsl, ?Qsv, ?Qul, ?Quv; cbn [bind]).
Lemma x4_ph_d h : x4_ph (Fin p) (Fin h) = Ok (Fin (quality hl hv h)).
Proof.
  unfold x4_ph, quality. known_d. cbn [ltb RNum cmp sub lift2]. cbn [div RNum]. rewrite xdiv_Fin by (pose proof Qh; pose proof Qs; lra). undec.
  repeat cases1; try reflexivity.
Qed.
Lemma x4_ps_d s : x4_ps (Fin p) (Fin s) = Ok (Fin (quality sl sv s)).
Proof.
  unfold x4_ps, quality. cmps. known_d. cbn [ltb RNum cmp sub lift2]. cbn [div RNum]. rewrite xdiv_Fin by (pose proof Qh; pose proof Qs; lra). undec.
  repeat cases1; try reflexivity; pose proof Qs; lra.
Qed.
Lemma dense_wet : wet p hl hv sl sv vl vv ul uv (T4R p).
Proof.
  assert (X := x4_ph_d). assert (Y := x4_ps_d).
  constructor; try assumption; try lra.
  - unfold saturated, hL_p, hV_p, sL_p, sV_p, vL_p, vV_p, uL_p, uV_p. bare. cmps. known_d. bare. repeat split.
  - unfold tsat_p. bare. cmps. known_d. bare. reflexivity.
  - intros h. unfold x_ph. bare. cmps. rewrite X. bare. apply frac_ok, quality_spec, Qh.
  - intros s. unfold x_ps. bare. cmps. rewrite Y. bare. apply frac_ok, quality_spec, Qs.
  - intros x H. unfold h_px. bare. rewrite (proj2 (proj2 (frac_ok x H))). bare. cmps. known_d. cbn [add mul sub RNum lift2]. bare. reflexivity.
  - intros h. destruct (quality_spec hl hv h Qh) as (R1 & _). unfold vx_ph. bare. cmps. known_d. rewrite X. bare.
    cbn [add mul sub RNum lift2 lit]. change (D 1%dec) with 1. pose proof (part_den vl vv _ Qv R1).
    cbn [div RNum]. rewrite xdiv_Fin by lra. bare. apply frac_ok, part_range; [exact Qv | exact R1].
  - intros s. destruct (quality_spec sl sv s Qs) as (R1 & _). unfold vx_ps. bare. cmps. known_d. rewrite Y. bare.
    cbn [add mul sub RNum lift2 lit]. change (D 1%dec) with 1. pose proof (part_den vl vv _ Qv R1).
    cbn [div RNum]. rewrite xdiv_Fin by lra. bare. apply frac_ok, part_range; [exact Qv | exact R1].
  - intros h H. cbv zeta. rewrite <- !one_minus. unfold v_ph, s_ph, u_ph, t_ph. bare. rewrite H. cbn [bind Z.eqb Pos.eqb]. cmps. known_d.
    rewrite X. bare. cbn [add mul sub RNum lift2 lit]. change (D 1%dec) with 1. repeat split.
  - intros s H. cbv zeta. rewrite <- !one_minus. unfold v_ps, h_ps, u_ps, t_ps. bare. rewrite H. cbn [bind Z.eqb Pos.eqb]. cmps. known_d.
    rewrite Y. bare. cbn [add mul sub RNum lift2 lit]. change (D 1%dec) with 1. repeat split.
Qed.
End D.
Lemma low_wet p : 0.000611657 < p < 16.529 -> wet p (hL p) (hV p) (sL p) (sV p) (vL p) (vV p) (uL p) (uV p) (T4R p).
Proof.
  intros H. destruct (above_low p ltac:(lra)) as (A & B & C & E). constructor; try assumption.
  - unfold saturated. destruct (sat_low p H) as (E1 & E2 & E3 & E4 & E5 & E6 & E7 & E8). repeat split; assumption.
  - unfold tsat_p. bare. cmps. rewrite (eT p ltac:(lra)). bare. reflexivity.
  - apply x_ph_low, H.
  - apply x_ps_low, H.
  - apply h_px_low, H.
  - apply vx_ph_low, H.
  - apply vx_ps_low, H.
  - intros h K. apply (wet_ph_low p H h), (region_ph_wet p H h), K.
  - intros s K. apply (wet_ps_low p H s), (region_ps_wet p H s), K.
Qed.
End S.
