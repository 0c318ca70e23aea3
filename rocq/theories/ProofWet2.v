(** Wet steam below 16.529 MPa: what the API answers. *)
From Coq Require Import ZArith Reals Lra Lia List Bool.
From Verif Require Import Py ExactReal ModState ModConstants ModUnits ModBorders ModRegion1 ModRegion2
  ModRegion4 ModRegion5 ModSelect ModXSteam SpecUnits SpecApi SpecRange SpecThermo SpecWet ProofUnits
  ProofCovariance ProofGeneric RealSum ProofEos ProofThermo ProofSat ProofSatApi ProofThermoApi ProofMisc
  ProofWet ProofWetApi.
Open Scope R_scope.

Definition quality (lo hi y : R) : R :=
  if Rltb hi y then 1 else if Rltb y lo then 0 else (y - lo) / (hi - lo).
Lemma quality_spec lo hi y : lo < hi ->
  let x := quality lo hi y in 0 <= x <= 1 /\ (y <= lo -> x = 0) /\ (hi <= y -> x = 1) /\
  (lo <= y <= hi -> y = lo + x * (hi - lo)) /\ (lo < y -> 0 < x) /\ (y < hi -> x < 1).
Proof.
  intros H. unfold quality; cbv zeta.
  destruct (Rltb_spec hi y); [repeat split; lra|]. destruct (Rltb_spec y lo); [repeat split; lra|].
  assert (0 < hi - lo) by lra.
  assert (E : (y - lo) / (hi - lo) * (hi - lo) = y - lo) by (field; lra).
  set (x := (y - lo) / (hi - lo)) in *. clearbody x.
  assert (0 <= x) by (apply Rmult_le_reg_r with (hi - lo); lra).
  assert (x <= 1) by (apply Rmult_le_reg_r with (hi - lo); lra).
  repeat split; try lra; intros.
  - apply Rmult_eq_reg_r with (hi - lo); lra.
  - apply Rmult_eq_reg_r with (hi - lo); lra.
  - apply Rmult_lt_reg_r with (hi - lo); lra.
  - apply Rmult_lt_reg_r with (hi - lo); lra.
Qed.
Lemma quality_mix lo hi x : lo < hi -> 0 <= x <= 1 -> quality lo hi (lo + x * (hi - lo)) = x.
Proof.
  intros H Hx. assert (0 <= x * (hi - lo) <= hi - lo) by (split; [apply Rmult_le_pos; lra|];
    rewrite <- (Rmult_1_l (hi - lo)) at 2; apply Rmult_le_compat_r; lra).
  unfold quality. rewrite !Rltb_false by lra. field. lra.
Qed.

Section Low.
Context {F : Fuel}.
Variable p : R.
Hypothesis Hp : 0.000611657 < p < 16.529.
Let L : 0.000611657 <= p < 16.529. Proof. lra. Qed.

Ltac known_low :=
  rewrite ?(h4L_low p Hp), ?(h4V_low p Hp), ?(eT p L);
  cbn [bind];
  rewrite ?(ev1 p L), ?(eh1 p L), ?(eu1 p L), ?(es1 p L), ?(ev2 p L), ?(eh2 p L), ?(eu2 p L), ?(es2 p L);
  cbn [bind].

Lemma sat_low :
  hL_p BARE (Fin p) = Ok (Fin (hL p)) /\ hV_p BARE (Fin p) = Ok (Fin (hV p)) /\
  sL_p BARE (Fin p) = Ok (Fin (sL p)) /\ sV_p BARE (Fin p) = Ok (Fin (sV p)) /\
  vL_p BARE (Fin p) = Ok (Fin (vL p)) /\ vV_p BARE (Fin p) = Ok (Fin (vV p)) /\
  uL_p BARE (Fin p) = Ok (Fin (uL p)) /\ uV_p BARE (Fin p) = Ok (Fin (uV p)).
Proof.
  unfold hL_p, hV_p, sL_p, sV_p, vL_p, vV_p, uL_p, uV_p. bare. cmps. known_low. bare. repeat split.
Qed.
Lemma x4_ph_low h : x4_ph (Fin p) (Fin h) = Ok (Fin (quality (hL p) (hV p) h)).
Proof.
  pose proof (above_low p L) as A. unfold x4_ph, quality. known_low. cbn [ltb RNum cmp sub lift2].
  cbn [div RNum]. rewrite xdiv_Fin by lra. undec.
  repeat cases1; try reflexivity.
Qed.
Lemma x4_ps_low s : x4_ps (Fin p) (Fin s) = Ok (Fin (quality (sL p) (sV p) s)).
Proof.
  pose proof (above_low p L) as A. unfold x4_ps, quality. cmps. known_low. cbn [ltb RNum cmp sub lift2].
  cbn [div RNum]. rewrite xdiv_Fin by lra. undec.
  repeat cases1; try reflexivity; lra.
Qed.

Lemma frac_ok (x : R) : 0 <= x <= 1 ->
  fromSIunit_x BARE (Fin x) = Ok (Fin x) /\ fromSIunit_vx BARE (Fin x) = Ok (Fin x) /\
  toSIunit_x BARE (Fin x) = Ok (Fin x).
Proof. intros H. unfold fromSIunit_x, fromSIunit_vx, toSIunit_x. cmps. repeat split. Qed.
Lemma x_ph_low h : x_ph BARE (Fin p) (Fin h) = Ok (Fin (quality (hL p) (hV p) h)).
Proof.
  unfold x_ph. bare. cmps. rewrite x4_ph_low. bare.
  apply frac_ok, quality_spec, (above_low p L).
Qed.
Lemma x_ps_low s : x_ps BARE (Fin p) (Fin s) = Ok (Fin (quality (sL p) (sV p) s)).
Proof.
  unfold x_ps. bare. cmps. rewrite x4_ps_low. bare.
  apply frac_ok, quality_spec, (above_low p L).
Qed.
Lemma h_px_low x : 0 <= x <= 1 -> h_px BARE (Fin p) (Fin x) = Ok (Fin (hL p + x * (hV p - hL p))).
Proof.
  intros H. unfold h_px. bare. rewrite (proj2 (proj2 (frac_ok x H))). bare. cmps.
  known_low. cbn [add mul sub RNum lift2]. bare. reflexivity.
Qed.

Definition share (x : R) : R := x * vV p / (x * vV p + (1 - x) * vL p).
Lemma share_den x : 0 <= x <= 1 -> 0 < x * vV p + (1 - x) * vL p.
Proof.
  intros H. pose proof (above_low p L) as (_ & _ & A & _).
  assert (0 <= x * (vV p - vL p)) by (apply Rmult_le_pos; lra). lra.
Qed.
Lemma share_range x : 0 <= x <= 1 -> 0 <= share x <= 1.
Proof.
  intros H. pose proof (share_den x H) as K. pose proof (above_low p L) as (_ & _ & A & _).
  assert (0 <= x * vV p) by (apply Rmult_le_pos; lra).
  assert (0 <= (1 - x) * vL p) by (apply Rmult_le_pos; lra).
  unfold share. split.
  - apply Rmult_le_pos; [easy|]. apply Rlt_le, Rinv_0_lt_compat, K.
  - apply Rmult_le_reg_r with (x * vV p + (1 - x) * vL p); [easy|].
    unfold Rdiv. rewrite Rmult_assoc, Rinv_l by lra. lra.
Qed.
Lemma vx_ph_low h : vx_ph BARE (Fin p) (Fin h) = Ok (Fin (share (quality (hL p) (hV p) h))).
Proof.
  pose proof (above_low p L) as A.
  destruct (quality_spec (hL p) (hV p) h) as (Q & _); [lra|].
  unfold vx_ph. bare. cmps. known_low. rewrite x4_ph_low. bare.
  cbn [add mul sub RNum lift2 lit]. change (D 1%dec) with 1. pose proof (share_den _ Q).
  cbn [div RNum]. rewrite xdiv_Fin by lra. bare.
  apply frac_ok, share_range, Q.
Qed.
Lemma vx_ps_low s : vx_ps BARE (Fin p) (Fin s) = Ok (Fin (share (quality (sL p) (sV p) s))).
Proof.
  pose proof (above_low p L) as A.
  destruct (quality_spec (sL p) (sV p) s) as (Q & _); [lra|].
  unfold vx_ps. bare. cmps. known_low. rewrite x4_ps_low. bare.
  cbn [add mul sub RNum lift2 lit]. change (D 1%dec) with 1. pose proof (share_den _ Q).
  cbn [div RNum]. rewrite xdiv_Fin by lra. bare.
  apply frac_ok, share_range, Q.
Qed.

Lemma region_ph_wet h : region_ph (Fin p) (Fin h) = Ok 4%Z <-> hL p < h < hV p.
Proof.
  pose proof (above_low p L) as A. pose proof (cold_low p L). rewrite (region_ph_low p L). unfold regph.
  split.
  - repeat cases1; try discriminate; lra.
  - intros K. repeat cases1; try reflexivity; lra.
Qed.
Lemma region_ps_wet s : region_ps (Fin p) (Fin s) = Ok 4%Z <-> 0 <= s /\ sL p < s <= sV p.
Proof.
  pose proof (above_low p L) as A. pose proof (proj2 (hot_low p L)).
  pose proof (proj2 (BoundPh.edge_ok p ltac:(lra))).
  rewrite (region_ps_low p L). unfold regps.
  split.
  - repeat cases1; try discriminate; lra.
  - intros K. repeat cases1; try reflexivity; lra.
Qed.
Lemma one_minus a b x : x * b + (1 - x) * a = mix a b x.
Proof. unfold mix; ring. Qed.
Lemma wet_ph_low h : hL p < h < hV p -> let x := quality (hL p) (hV p) h in
  v_ph BARE (Fin p) (Fin h) = Ok (Fin (mix (vL p) (vV p) x)) /\
  s_ph BARE (Fin p) (Fin h) = Ok (Fin (mix (sL p) (sV p) x)) /\
  u_ph BARE (Fin p) (Fin h) = Ok (Fin (mix (uL p) (uV p) x)) /\
  t_ph BARE (Fin p) (Fin h) = Ok (Fin (T4R p)).
Proof.
  intros H. apply region_ph_wet in H. cbv zeta. rewrite <- !one_minus.
  unfold v_ph, s_ph, u_ph, t_ph. bare. rewrite H. cbn [bind Z.eqb Pos.eqb]. cmps. known_low.
  rewrite x4_ph_low. bare. cbn [add mul sub RNum lift2 lit]. change (D 1%dec) with 1. repeat split.
Qed.
Lemma wet_ps_low s : 0 <= s /\ sL p < s <= sV p -> let x := quality (sL p) (sV p) s in
  v_ps BARE (Fin p) (Fin s) = Ok (Fin (mix (vL p) (vV p) x)) /\
  h_ps BARE (Fin p) (Fin s) = Ok (Fin (mix (hL p) (hV p) x)) /\
  u_ps BARE (Fin p) (Fin s) = Ok (Fin (mix (uL p) (uV p) x)) /\
  t_ps BARE (Fin p) (Fin s) = Ok (Fin (T4R p)).
Proof.
  intros H. apply region_ps_wet in H. cbv zeta. rewrite <- !one_minus.
  unfold v_ps, h_ps, u_ps, t_ps. bare. rewrite H. cbn [bind Z.eqb Pos.eqb]. cmps. known_low.
  rewrite x4_ps_low. bare. cbn [add mul sub RNum lift2 lit]. change (D 1%dec) with 1. repeat split.
Qed.
End Low.
