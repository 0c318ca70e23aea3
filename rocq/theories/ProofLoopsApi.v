(** * Brackets and accuracy of the bisections, for the public functions. *)
From Coq Require Import ZArith Reals Lra Lia List Bool.
From Interval Require Import Tactic.
From Flocq Require Import Core BinarySingleNaN.
From Verif Require Import Py ExactReal Float64 ModState ModConstants ModUnits ModBorders ModRegion1 ModRegion2 ModRegion3 ModRegion4
  ModRegion5 ModSelect ModXSteam SpecUnits SpecApi SpecThermo SpecLoops ProofUnits ProofCovariance RealSum ProofEos
  ProofThermo ProofSat ProofSatApi ProofThermoApi ProofMisc ProofMono ProofReg ProofSettle ProofBisect ProofLoops ProofConverge ProofGap
  Sat3 ProofDense.
Import ListNotations.
Open Scope R_scope.

(** ** Exact arithmetic *)
Lemma seam_2_5 p : 0.0006 <= p <= 10 -> h2R p 1073.15 - h5R p 1073.15 <= 100.
Proof. intros H. unfold h2R, h5R. reals. interval with (i_prec 50, i_bisect p, i_depth 14). Qed.
Section Real.
Context {F : Fuel}.
Lemma found_inside n go f up v hi lo x : lo < hi ->
  found (bis (N := RNum) n go f up (None, v, Fin hi, Fin lo)) = Ok x -> exists m, x = Fin m /\ lo < m < hi.
Proof.
  intros O. unfold found. destruct (bis n go f up (None, v, Fin hi, Fin lo)) as [[[[x' v'] hi'] lo']|e] eqn:E; [|discriminate].
  cbn [bind]. apply bis_inside in E; [|exact O]. destruct E as [(-> & _)|(m & -> & H)]; [discriminate|].
  intros X. injection X as <-. eauto.
Qed.
Lemma h4L_in p x : 16.529 <= p < 22.06395 -> h4L_p (Fin p) = Ok x -> exists h, x = Fin h /\ 1670.858218 < h < 2087.23500164864.
Proof.
  intros H. rewrite h4L_p_eq. cbn [ltb RNum lit cmp]. rewrite !Rltb_true by (undec; lra). cbn [andb].
  rewrite T4_dense by exact H. cbn [bind]. rewrite Rltb_false by (undec; lra).
  change (D 1670.858218%dec) with 1670.858218. change (D 2087.23500164864%dec) with 2087.23500164864.
  apply found_inside. lra.
Qed.
Lemma h4V_in p x : 16.529 <= p < 22.06395 -> h4V_p (Fin p) = Ok x -> exists h, x = Fin h /\ 2087.23500164864 < h < 2568.592004.
Proof.
  intros H. rewrite h4V_p_eq. cbn [ltb RNum lit cmp]. rewrite !Rltb_true by (undec; lra). cbn [andb].
  rewrite T4_dense by exact H. cbn [bind]. rewrite Rltb_false by (undec; lra).
  cbn [add RNum lift2]. replace (D 2563.592004%dec + D 5%dec) with 2568.592004 by (undec; lra).
  change (D 2087.23500164864%dec) with 2087.23500164864.
  apply found_inside. lra.
Qed.
Lemma T5_ph_in p h x : T5_ph p h = Ok x -> exists T, x = Fin T /\ 1073.15 < T < 2273.15.
Proof.
  rewrite T5_ph_eq. cbn [lit RNum]. change (D 1073.15%dec) with 1073.15. change (D 2273.15%dec) with 2273.15.
  apply found_inside. lra.
Qed.
Lemma T5_ps_in p s x : T5_ps p s = Ok x -> exists T, x = Fin T /\ 1073.15 < T < 2273.15.
Proof.
  rewrite T5_ps_eq. cbn [lit RNum]. change (D 1073.15%dec) with 1073.15. change (D 2273.15%dec) with 2273.15.
  apply found_inside. lra.
Qed.
Lemma T5_prho_in p rho x : T5_prho p rho = Ok x -> exists T, x = Fin T /\ 1073.15 < T < 2073.15.
Proof.
  rewrite T5_prho_eq. cbn [lit RNum]. change (D 1073.15%dec) with 1073.15. change (D 2073.15%dec) with 2073.15.
  apply found_inside. lra.
Qed.
Lemma T3_prho_in p rho x : T3_prho p rho = Ok x -> exists T, x = Fin T /\ 623.15 < T < 1073.15.
Proof.
  rewrite T3_prho_eq. cbn [lit RNum]. change (D 1073.15%dec) with 1073.15. change (D 623.15%dec) with 623.15.
  apply found_inside. lra.
Qed.

Lemma hL_p_dense us p : dense us p -> hL_p us (Fin p) = let* h := h4L_p (Fin (to_si us Qp p)) in Ok (user us Qh h).
Proof.
  intros H. unfold dense in H. unfold hL_p. rewrite to_p. cbn [bind si lift1].
  cbn [ltb RNum lit cmp]. rewrite !Rltb_true by (undec; lra). cbn [andb].
  destruct (h4L_p _); [|reflexivity]. cbn [bind]. apply from_h.
Qed.
Lemma hV_p_dense us p : dense us p -> hV_p us (Fin p) = let* h := h4V_p (Fin (to_si us Qp p)) in Ok (user us Qh h).
Proof.
  intros H. unfold dense in H. unfold hV_p. rewrite to_p. cbn [bind si lift1].
  cbn [ltb RNum lit cmp]. rewrite !Rltb_true by (undec; lra). cbn [andb].
  destruct (h4V_p _); [|reflexivity]. cbn [bind]. apply from_h.
Qed.
Lemma hL_inside us p x : dense us p -> hL_p us (Fin p) = Ok x ->
  exists h, x = Fin (to_user us Qh h) /\ 1670.858218 < h < 2087.23500164864.
Proof.
  intros H. rewrite hL_p_dense by exact H. destruct (h4L_p _) as [y|] eqn:E; [|discriminate]. cbn [bind].
  apply h4L_in in E; [|exact H]. destruct E as (h & -> & B). intros X; injection X as <-. exists h. split; [reflexivity|exact B].
Qed.
Lemma hV_inside us p x : dense us p -> hV_p us (Fin p) = Ok x ->
  exists h, x = Fin (to_user us Qh h) /\ 2087.23500164864 < h < 2568.592004.
Proof.
  intros H. rewrite hV_p_dense by exact H. destruct (h4V_p _) as [y|] eqn:E; [|discriminate]. cbn [bind].
  apply h4V_in in E; [|exact H]. destruct E as (h & -> & B). intros X; injection X as <-. exists h. split; [reflexivity|exact B].
Qed.
Lemma hL_converges us p : dense us p -> (32 <= Z.of_nat fuel)%Z -> exists h,
  hL_p us (Fin p) = Ok (Fin (to_user us Qh h)) /\ 1670.858218 < h < 2087.23500164864 /\
  Rabs (P3sat h - to_si us Qp p) <= 0.00001.
Proof.
  intros H Hf. rewrite hL_p_dense by exact H. destruct (h4L_dense _ H Hf) as (h & -> & B & G).
  exists h. split; [reflexivity|]. split; [exact B|]. now rewrite <- P3_spec, Rabs_minus_sym.
Qed.
Lemma hV_converges us p : dense us p -> (32 <= Z.of_nat fuel)%Z -> exists h,
  hV_p us (Fin p) = Ok (Fin (to_user us Qh h)) /\ 2087.23500164864 < h < 2568.592004 /\
  Rabs (P3sat h - to_si us Qp p) <= 0.000001.
Proof.
  intros H Hf. rewrite hV_p_dense by exact H. destruct (h4V_dense _ H Hf) as (h & -> & B & G).
  exists h. split; [reflexivity|]. split; [exact B|]. now rewrite <- P3_spec, Rabs_minus_sym.
Qed.

Lemma t_ph_inside us p h x : region_ph (si us Qp p) (si us Qh h) = Ok 5%Z -> t_ph us p h = Ok x ->
  exists T, x = Fin (to_user us QT T) /\ 1073.15 < T < 2273.15.
Proof.
  intros R5. unfold t_ph. rewrite to_p, to_h. cbn [bind]. rewrite R5. cbn [bind Z.eqb Pos.eqb].
  destruct (T5_ph _ _) as [T|] eqn:E; [|discriminate]. cbn [bind]. rewrite from_T. intros X; injection X as <-.
  apply T5_ph_in in E. destruct E as (t & -> & B). exists t. split; [reflexivity|exact B].
Qed.
Lemma t_ps_inside us p s x : region_ps (si us Qp p) (si us Qs s) = Ok 5%Z -> t_ps us p s = Ok x ->
  exists T, x = Fin (to_user us QT T) /\ 1073.15 < T < 2273.15.
Proof.
  intros R5. unfold t_ps. rewrite to_p, to_s. cbn [bind]. rewrite R5. cbn [bind Z.eqb Pos.eqb].
  destruct (T5_ps _ _) as [T|] eqn:E; [|discriminate]. cbn [bind]. rewrite from_T. intros X; injection X as <-.
  apply T5_ps_in in E. destruct E as (t & -> & B). exists t. split; [reflexivity|exact B].
Qed.

(** Region 5: round trips *)
Lemma region5_R p T : region_pT (Fin p) (Fin T) = Ok 5%Z -> 1073.15 < T < 2273.15 /\ 0.000611 < p < 50.
Proof. intros H. apply region_map in H. unfold if97_region in H. destruct H as [H|[H|[H|[H|[H|[H|[H|H]]]]]]]; try (destruct H; discriminate). tauto. Qed.
Lemma h_pt_5 p T : region_pT (Fin p) (Fin T) = Ok 5%Z -> h_pt BARE (Fin p) (Fin T) = Ok (Fin (h5R p T)).
Proof.
  intros H. destruct (api_pT _ _ _ H) as (_ & -> & _); [tauto|]. cbn [pick Z.eqb Pos.eqb]. apply eos5, dom_5, H.
Qed.
Lemma s_pt_5 p T : region_pT (Fin p) (Fin T) = Ok 5%Z -> s_pt BARE (Fin p) (Fin T) = Ok (Fin (s5R p T)).
Proof.
  intros H. destruct (api_pT _ _ _ H) as (_ & _ & -> & _); [tauto|]. cbn [pick Z.eqb Pos.eqb]. apply eos5, dom_5, H.
Qed.
Lemma t_ph_5 p h : region_ph (Fin p) (Fin h) = Ok 5%Z -> t_ph BARE (Fin p) (Fin h) = T5_ph (Fin p) (Fin h).
Proof.
  intros H. unfold t_ph. rewrite to_p, to_h. cbn [bind]. rewrite !si_BARE, H. cbn [bind Z.eqb Pos.eqb].
  destruct (T5_ph _ _); [|reflexivity]. cbn [bind]. now rewrite from_T, user_BARE.
Qed.
Lemma t_ps_5 p h : region_ps (Fin p) (Fin h) = Ok 5%Z -> t_ps BARE (Fin p) (Fin h) = T5_ps (Fin p) (Fin h).
Proof.
  intros H. unfold t_ps. rewrite to_p, to_s. cbn [bind]. rewrite !si_BARE, H. cbn [bind Z.eqb Pos.eqb].
  destruct (T5_ps _ _); [|reflexivity]. cbn [bind]. now rewrite from_T, user_BARE.
Qed.
Lemma round5_ph p T h : p <= 10 -> region_pT (Fin p) (Fin T) = Ok 5%Z -> h_pt BARE (Fin p) (Fin T) = Ok (Fin h) ->
  region_ph (Fin p) (Fin h) = Ok 5%Z -> h_pt BARE (Fin p) (Fin 1673.15) <> Ok (Fin (h - 1)) ->
  (40 <= Z.of_nat fuel)%Z -> exists T' h',
  t_ph BARE (Fin p) (Fin h) = Ok (Fin T') /\ Rabs (T' - T) <= 0.00001 /\
  h_pt BARE (Fin p) (Fin T') = Ok (Fin h') /\ Rabs (h' - h) <= 0.00001.
Proof.
  intros Hp R5 E Rh Ne Hf. rewrite t_ph_5 by exact Rh. destruct (region5_R p T R5) as [HT HP].
  rewrite (h_pt_5 p T R5) in E. injection E as <-.
  rewrite (h_pt_5 p 1673.15) in Ne by (apply region5_intro; lra).
  assert (P : 0.0006 <= p <= 10) by lra.
  destruct (T5_ph_ok p (h5R p T) P) as (T' & E & B & G); [ | | exact Hf |].
  - pose proof (rise5h p 1073.15 T P ltac:(lra) ltac:(lra) ltac:(lra)).
    pose proof (rise5h p T 2273.15 P ltac:(lra) ltac:(lra) ltac:(lra)). lra.
  - congruence.
  - exists T', (h5R p T'). split; [exact E|]. split; [|split; [apply h_pt_5, region5_intro; lra | now rewrite Rabs_minus_sym]].
    destruct (mvt5h p T' T P ltac:(lra) ltac:(lra)) as (c & Hc & M). rewrite M, Rabs_mult in G.
    pose proof (d5h p c P Hc) as (_ & D2 & D3). rewrite (Rabs_pos_eq (Cp5R p c)) in G by lra.
    rewrite Rabs_minus_sym. pose proof (Rabs_pos (T - T')).
    apply Rle_trans with (2 := G). rewrite <- (Rmult_1_l (Rabs (T - T'))) at 1. apply Rmult_le_compat_r; lra.
Qed.
Lemma round5_ps p T s : p <= 10 -> region_pT (Fin p) (Fin T) = Ok 5%Z -> s_pt BARE (Fin p) (Fin T) = Ok (Fin s) ->
  region_ps (Fin p) (Fin s) = Ok 5%Z -> s_pt BARE (Fin p) (Fin 1673.15) <> Ok (Fin (s - 1)) ->
  (40 <= Z.of_nat fuel)%Z -> exists T' s',
  t_ps BARE (Fin p) (Fin s) = Ok (Fin T') /\ Rabs (T' - T) <= 0.1 /\
  s_pt BARE (Fin p) (Fin T') = Ok (Fin s') /\ Rabs (s' - s) <= 0.00001.
Proof.
  intros Hp R5 E Rh Ne Hf. rewrite t_ps_5 by exact Rh. destruct (region5_R p T R5) as [HT HP].
  rewrite (s_pt_5 p T R5) in E. injection E as <-.
  rewrite (s_pt_5 p 1673.15) in Ne by (apply region5_intro; lra).
  assert (P : 0.0006 <= p <= 10) by lra.
  destruct (T5_ps_ok p (s5R p T) P) as (T' & E & B & G); [ | | exact Hf |].
  - pose proof (rise5s p 1073.15 T P ltac:(lra) ltac:(lra) ltac:(lra)).
    pose proof (rise5s p T 2273.15 P ltac:(lra) ltac:(lra) ltac:(lra)). lra.
  - congruence.
  - exists T', (s5R p T'). split; [exact E|]. split; [|split; [apply s_pt_5, region5_intro; lra | now rewrite Rabs_minus_sym]].
    destruct (mvt5s p T' T P ltac:(lra) ltac:(lra)) as (c & Hc & M). rewrite M, Rabs_mult in G.
    pose proof (d5s p c P Hc) as (_ & D2 & D3). rewrite (Rabs_pos_eq (Cp5R p c / c)) in G by lra.
    rewrite Rabs_minus_sym. pose proof (Rabs_pos (T - T')).
    assert (0.0001 * Rabs (T - T') <= 0.00001); [|lra].
    apply Rle_trans with (2 := G). apply Rmult_le_compat_r; lra.
Qed.
(** The first guess of the loop is h - 1: if that is the enthalpy at the first mid point, 1673.15 K, the loop stops there. *)
Lemma coincidence_ph p h : 0.000611657 < p <= 10 -> h = h5R p 1673.15 + 1 -> (0 < Z.of_nat fuel)%Z ->
  region_ph (Fin p) (Fin h) = Ok 5%Z /\ t_ph BARE (Fin p) (Fin h) = Ok (Fin 1673.15) /\
  h_pt BARE (Fin p) (Fin 1673.15) = Ok (Fin (h - 1)).
Proof.
  intros Hp -> Hf.
  assert (P : 0.0006 <= p <= 10) by lra.
  assert (R : region_ph (Fin p) (Fin (h5R p 1673.15 + 1)) = Ok 5%Z).
  { destruct (map_ph p (h5R p 1673.15 + 1)) as (h0 & hl & hv & h2 & h5 & _ & _ & _ & E2 & E5 & _ & _ & _ & _ & _ & K & _); [lra|].
    destruct (eos5 p 2273.15) as (_ & X & _); [split; lra|]. rewrite X in E5. injection E5 as <-.
    destruct (eos2 p 1073.15) as (_ & Y & _); [unfold dom2; lra|]. rewrite Y in E2. injection E2 as <-.
    apply K. split; [|lra]. pose proof (seam_2_5 p P).
    destruct (mvt5h p 1073.15 1673.15 P ltac:(lra) ltac:(lra)) as (c & Hc & M).
    destruct (mvt5h p 1673.15 2273.15 P ltac:(lra) ltac:(lra)) as (c' & Hc' & M').
    pose proof (d5h p c P Hc) as (_ & D1 & _). pose proof (d5h p c' P Hc') as (_ & D2 & _).
    split; [|lra]. lra. }
  split; [exact R|]. rewrite t_ph_5 by exact R. rewrite (h_pt_5 p 1673.15) by (apply region5_intro; lra).
  split; [|do 2 f_equal; ring].
  rewrite T5_ph_eq. cbn [lit RNum]. change (D 1073.15%dec) with 1073.15. change (D 2273.15%dec) with 2273.15.
  unfold found, bis. destruct fuel as [|n]; [cbn in Hf; lia|]. cbn [while bind ltb RNum cmp fabs sub lift1 lift2].
  change (D 1%dec) with 1.
  replace (h5R p 1673.15 + 1 - (h5R p 1673.15 + 1 - 1)) with 1 by ring. rewrite Rabs_R1, Rltb_true by (undec; lra).
  cbn [bis_body div add lit RNum lift2]. rewrite xmid. cbn [bind]. replace ((1073.15 + 2273.15) / 2) with 1673.15 by lra.
  destruct (eos5 p 1673.15) as (_ & -> & _); [split; lra|]. cbn [bind eqb RNum cmp]. rewrite Reqb_true by ring. reflexivity.
Qed.
Lemma guess5_refuted : (0 < Z.of_nat fuel)%Z -> exists p h T h',
  region_ph (Fin p) (Fin h) = Ok 5%Z /\ t_ph BARE (Fin p) (Fin h) = Ok (Fin T) /\
  h_pt BARE (Fin p) (Fin T) = Ok (Fin h') /\ h' = h - 1.
Proof.
  intros Hf. destruct (coincidence_ph 1 (h5R 1 1673.15 + 1)) as (A & B & C); [lra | reflexivity | exact Hf|].
  do 4 eexists. split; [exact A|]. split; [exact B|]. split; [exact C | reflexivity].
Qed.
End Real.

(** ** Any arithmetic: what ended the loop *)
Section Any.
Context {N : Num} {F : Fuel}.
Local Open Scope num_scope.
Lemma found_any n f up target start tol hi lo x :
  found (bis n (fun v => tol <? fabs (target - v)) f up (None, start, hi, lo)) = Ok x -> met f target start tol x.
Proof.
  unfold found. destruct (bis _ _ _ _ _) as [[[[x' v'] hi'] lo']|e] eqn:E; [|discriminate]. cbn [bind].
  apply bis_found in E. destruct E as [(-> & _)|(m & -> & H & G)]; [discriminate|].
  intros X; injection X as <-. exists v'. split; [exact H|exact G].
Qed.
Lemma hL_met us p p' r : toSIunit_p us p = Ok p' -> in_dense p' -> hL_p us p = Ok r ->
  exists h, fromSIunit_h us h = Ok r /\ met p3sat_h p' #(-1000) #0.00001 h.
Proof.
  intros Ep (A & B & C). unfold hL_p. rewrite Ep. cbn [bind]. rewrite A, B. cbn [andb]. rewrite h4L_p_eq, A, B, C. cbn [andb].
  destruct (T4_p p'); [|discriminate]. cbn [bind]. destruct (found _) as [h|] eqn:E; [|discriminate]. cbn [bind].
  intros Er. exists h. split; [exact Er|]. now apply found_any in E.
Qed.
Lemma hV_met us p p' r : toSIunit_p us p = Ok p' -> in_dense p' -> hV_p us p = Ok r ->
  exists h, fromSIunit_h us h = Ok r /\ met p3sat_h p' #(-1000) #0.000001 h.
Proof.
  intros Ep (A & B & C). unfold hV_p. rewrite Ep. cbn [bind]. rewrite A, B. cbn [andb]. rewrite h4V_p_eq, A, B, C. cbn [andb].
  destruct (T4_p p'); [|discriminate]. cbn [bind]. destruct (found _) as [h|] eqn:E; [|discriminate]. cbn [bind].
  intros Er. exists h. split; [exact Er|]. now apply found_any in E.
Qed.
Lemma t_ph_met us p h p' h' r : toSIunit_p us p = Ok p' -> toSIunit_h us h = Ok h' -> region_ph p' h' = Ok 5%Z ->
  t_ph us p h = Ok r -> exists T, fromSIunit_T us T = Ok r /\ met (h5_pT p') h' (h' - #1) #0.00001 T.
Proof.
  intros Ep Eh R5. unfold t_ph. rewrite Ep, Eh. cbn [bind]. rewrite R5. cbn [bind Z.eqb Pos.eqb]. rewrite T5_ph_eq.
  destruct (found _) as [T|] eqn:E; [|discriminate]. cbn [bind]. intros Er. exists T. split; [exact Er|]. now apply found_any in E.
Qed.
Lemma t_ps_met us p s p' s' r : toSIunit_p us p = Ok p' -> toSIunit_s us s = Ok s' -> region_ps p' s' = Ok 5%Z ->
  t_ps us p s = Ok r -> exists T, fromSIunit_T us T = Ok r /\ met (s5_pT p') s' (s' - #1) #0.00001 T.
Proof.
  intros Ep Eh R5. unfold t_ps. rewrite Ep, Eh. cbn [bind]. rewrite R5. cbn [bind Z.eqb Pos.eqb]. rewrite T5_ps_eq.
  destruct (found _) as [T|] eqn:E; [|discriminate]. cbn [bind]. intros Er. exists T. split; [exact Er|]. now apply found_any in E.
Qed.
Lemma h_pt_met us p t p' T' r : toSIunit_p us p = Ok p' -> toSIunit_T us t = Ok T' -> region_pT p' T' = Ok 3%Z ->
  h_pt us p t = Ok r -> exists h, fromSIunit_h us h = Ok r /\ met (T3_ph p') T' (T' + #1) #0.00001 h.
Proof.
  intros Ep Eh R3. unfold h_pt. rewrite Ep, Eh. cbn [bind]. rewrite R3. cbn [bind Z.eqb Pos.eqb]. rewrite h3_pT_eq.
  match goal with |- context [bind ?r _] => destruct r as [h|] eqn:E; [|discriminate] end. cbn [bind].
  intros Er. exists h. split; [exact Er|]. revert E.
  match goal with |- bind ?r _ = _ -> _ => destruct r as [[lo hi]|]; [|discriminate] end. cbn [bind].
  intros E. now apply found_any in E.
Qed.
Lemma prho5_met p rho T : T5_prho p rho = Ok T -> met (recip (v2_pT p)) rho #(-1000) #0.000001 T.
Proof. rewrite T5_prho_eq. apply found_any. Qed.
End Any.

(** ** binary64 *)
Section F64.
Context (L : libm) {F : Fuel}.
Local Notation NF := (FNum L).
Lemma found_between n go f up v (hi lo x : f64) :
  is_finite lo = true -> is_finite hi = true -> Bleb lo hi = true -> Bleb (Babs lo) (flit 268435456%dec) = true ->
  Bleb (Babs hi) (flit 268435456%dec) = true ->
  found (bis (N := NF) n go f up (None, v, hi, lo)) = Ok x -> fbetween lo hi x.
Proof.
  intros Fl Fh O Sl Sh. unfold found.
  destruct (bis (N := NF) n go f up (None, v, hi, lo)) as [[[[x' v'] hi'] lo']|e] eqn:E; [|discriminate]. cbn [bind].
  assert (Big : forall y : f64, is_finite y = true -> Bleb (Babs y) (flit 268435456%dec) = true -> Rabs (B2R y) <= bpow radix2 1022).
  { intros y Fy Hy. rewrite Bleb_correct in Hy by (rewrite ?is_finite_Babs; auto). rewrite B2R_Babs in Hy.
    revert Hy. case Rle_bool_spec; [|discriminate]. intros Hy _. apply Rle_trans with (1 := Hy).
    apply Rle_trans with (bpow radix2 28); [|apply bpow_le; lia]. right.
    change (B2R (flit 268435456%dec)) with (F2R (Float radix2 4503599627370496 (-24))). unfold F2R; simpl. lra. }
  assert (O' : B2R lo <= B2R hi).
  { rewrite Bleb_correct in O by auto. revert O. now case Rle_bool_spec. }
  assert (I : forall m, x' = Some m -> between lo hi m).
  { intros m Em. refine (bis_inv (N := NF) (between lo hi) n go f up _ _ _ _ _ _ _ _ _ _ _ _ E m Em).
    - intros a b m' Ha Hb. cbn [div add lit FNum]. rewrite mid_div. intros X; injection X as <-.
      apply mid_between; auto.
    - split; [exact Fh | lra].
    - split; [exact Fl | lra].
    - discriminate. }
  destruct x' as [m|]; [|discriminate]. intros X; injection X as <-.
  destruct (I m eq_refl) as [Fm [B1 B2]]. split; [exact Fm|].
  rewrite !Bleb_correct by auto. split; apply Rle_bool_true; assumption.
Qed.
Ltac fb := apply found_between; vm_compute; reflexivity.
Lemma hL_between p x : in_dense (N := NF) p -> hL_p (N := NF) BARE p = Ok x ->
  fbetween (flit 1670.858218%dec) (flit 2087.23500164864%dec) x.
Proof.
  intros (A & B & C). unfold hL_p. change (toSIunit_p BARE p) with (Ok p). cbn [bind]. rewrite A, B. cbn [andb].
  rewrite h4L_p_eq, A, B, C. cbn [andb].
  destruct (T4_p (N := NF) p); [|discriminate]. cbn [bind]. destruct (found _) as [h|] eqn:E; [|discriminate]. cbn [bind].
  change (fromSIunit_h BARE h) with (Ok h). intros X; injection X as <-. revert E. fb.
Qed.
Lemma hV_between p x : in_dense (N := NF) p -> hV_p (N := NF) BARE p = Ok x ->
  fbetween (flit 2087.23500164864%dec) (Bplus mode_NE (flit 2563.592004%dec) (flit 5%dec)) x.
Proof.
  intros (A & B & C). unfold hV_p. change (toSIunit_p BARE p) with (Ok p). cbn [bind]. rewrite A, B. cbn [andb].
  rewrite h4V_p_eq, A, B, C. cbn [andb].
  destruct (T4_p (N := NF) p); [|discriminate]. cbn [bind]. destruct (found _) as [h|] eqn:E; [|discriminate]. cbn [bind].
  change (fromSIunit_h BARE h) with (Ok h). intros X; injection X as <-. revert E. fb.
Qed.
Lemma t_ph_between p h x : region_ph (N := NF) p h = Ok 5%Z -> t_ph (N := NF) BARE p h = Ok x ->
  fbetween (flit 1073.15%dec) (flit 2273.15%dec) x.
Proof.
  intros R5. unfold t_ph. change (toSIunit_p BARE p) with (Ok p). change (toSIunit_h BARE h) with (Ok h). cbn [bind].
  rewrite R5. cbn [bind Z.eqb Pos.eqb]. rewrite T5_ph_eq.
  destruct (found _) as [T|] eqn:E; [|discriminate]. cbn [bind].
  change (fromSIunit_T BARE T) with (Ok T). intros X; injection X as <-. revert E. fb.
Qed.
Lemma t_ps_between p s x : region_ps (N := NF) p s = Ok 5%Z -> t_ps (N := NF) BARE p s = Ok x ->
  fbetween (flit 1073.15%dec) (flit 2273.15%dec) x.
Proof.
  intros R5. unfold t_ps. change (toSIunit_p BARE p) with (Ok p). change (toSIunit_s BARE s) with (Ok s). cbn [bind].
  rewrite R5. cbn [bind Z.eqb Pos.eqb]. rewrite T5_ps_eq.
  destruct (found _) as [T|] eqn:E; [|discriminate]. cbn [bind].
  change (fromSIunit_T BARE T) with (Ok T). intros X; injection X as <-. revert E. fb.
Qed.
End F64.
