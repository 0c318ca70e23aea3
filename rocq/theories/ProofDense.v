(** * The bisections converge in exact arithmetic: saturated enthalpies above 16.529 MPa. *)
From Coq Require Import ZArith Reals Ranalysis5 Lra Lia List Bool.
From Coquelicot Require Import Coquelicot.
From Interval Require Import Tactic.
From Verif Require Import Py ExactReal ModState ModConstants ModUnits ModBorders ModRegion1 ModRegion2 ModRegion4
  ModRegion5 ModSelect ModXSteam SpecUnits SpecApi SpecThermo SpecLoops ProofUnits ProofCovariance RealSum ProofEos
  ProofThermo ProofSat ProofSatApi ProofThermoApi ProofSigns ProofMono ProofMisc ProofBisect ProofLoops ProofConverge Sat3.
Import ListNotations.
Open Scope R_scope.

Lemma T4_dense p : 16.529 <= p < 22.06395 -> T4_p (Fin p) = Ok (Fin (T4R p)).
Proof. intros H. apply p4_T4. lra. Qed.

(** ** Region 5 *)
Lemma Cp5_bounds p T : 0.0006 <= p <= 10 -> 1073.15 <= T <= 2273.15 -> 1 <= Cp5R p T <= 10.
Proof. intros H1 H2. unfold Cp5R. reals. interval with (i_prec 50, i_bisect T, i_depth 12). Qed.
Lemma d5h p T : 0.0006 <= p <= 10 -> 1073.15 <= T <= 2273.15 ->
  is_derive (h5R p) T (Cp5R p T) /\ 1 <= Cp5R p T /\ 0 < Cp5R p T <= 10.
Proof.
  intros H HT. assert (Dm : dom5 p T) by (split; lra). pose proof (Cp5_bounds p T H HT) as B.
  split; [apply (thermo5 p T Dm)|]. lra.
Qed.
Lemma d5s p T : 0.0006 <= p <= 10 -> 1073.15 <= T <= 2273.15 ->
  is_derive (s5R p) T (Cp5R p T / T) /\ 0.0001 <= Cp5R p T / T /\ 0 < Cp5R p T / T <= 0.01.
Proof.
  intros H HT. assert (Dm : dom5 p T) by (split; lra). pose proof (Cp5_bounds p T H HT) as B.
  split; [apply (thermo5 p T Dm)|].
  assert (0.0001 <= Cp5R p T / T <= 0.01); [|lra].
  split; apply Rmult_le_reg_r with T; try lra; unfold Rdiv; rewrite Rmult_assoc, Rinv_l by lra; lra.
Qed.
Lemma rise5h p a b : 0.0006 <= p <= 10 -> 1073.15 <= a -> a < b -> b <= 2273.15 -> h5R p a < h5R p b.
Proof.
  intros H A O B. apply (rising (h5R p) (fun T => Cp5R p T) a b O); intros x X; pose proof (d5h p x H ltac:(lra)) as (D1 & D2 & D3);
    [exact D1 | lra].
Qed.
Lemma mvt5h p a b : 0.0006 <= p <= 10 -> 1073.15 <= a <= 2273.15 -> 1073.15 <= b <= 2273.15 ->
  exists T, 1073.15 <= T <= 2273.15 /\ h5R p b - h5R p a = Cp5R p T * (b - a).
Proof.
  intros H A B. destruct (MVT_gen (h5R p) a b (fun T => Cp5R p T)) as [c [Hc E]].
  - intros x X. apply d5h; [exact H|]. revert X. unfold Rmin, Rmax. destruct (Rle_dec a b); lra.
  - intros x X. apply derivable_continuous_pt.
    assert (X' : 1073.15 <= x <= 2273.15) by (revert X; unfold Rmin, Rmax; destruct (Rle_dec a b); lra).
    exists ((fun T => Cp5R p T) x). apply is_derive_Reals, d5h; assumption.
  - exists c. split; [revert Hc; unfold Rmin, Rmax; destruct (Rle_dec a b); lra | exact E].
Qed.
Lemma lip5h p a b : 0.0006 <= p <= 10 -> 1073.15 <= a <= 2273.15 -> 1073.15 <= b <= 2273.15 ->
  Rabs (h5R p a - h5R p b) <= 10 * Rabs (b - a).
Proof.
  intros H A B. destruct (mvt5h p a b H A B) as (T & HT & E). rewrite Rabs_minus_sym, E, Rabs_mult.
  apply Rmult_le_compat_r; [apply Rabs_pos|]. pose proof (d5h p T H HT) as (_ & D2 & D3). apply Rabs_le. lra.
Qed.
Lemma root5h p h : 0.0006 <= p <= 10 -> h5R p 1073.15 <= h <= h5R p 2273.15 -> exists r, 1073.15 <= r <= 2273.15 /\ h5R p r = h.
Proof.
  intros H [A B]. destruct A as [A|A]; [|exists 1073.15; split; [lra|easy]].
  destruct B as [B|B]; [|exists 2273.15; split; [lra|easy]].
  destruct (Ranalysis5.IVT_interv (fun x => h5R p x - h) 1073.15 2273.15) as [r [R1 R2]].
  - intros a Ha. apply continuity_pt_minus; [|apply derivable_continuous_pt, derivable_pt_const].
    apply derivable_continuous_pt. exists ((fun T => Cp5R p T) a). apply is_derive_Reals, d5h; assumption.
  - lra. - lra. - lra.
  - exists r. split; [exact R1 | lra].
Qed.
Lemma rise5s p a b : 0.0006 <= p <= 10 -> 1073.15 <= a -> a < b -> b <= 2273.15 -> s5R p a < s5R p b.
Proof.
  intros H A O B. apply (rising (s5R p) (fun T => Cp5R p T / T) a b O); intros x X; pose proof (d5s p x H ltac:(lra)) as (D1 & D2 & D3);
    [exact D1 | lra].
Qed.
Lemma mvt5s p a b : 0.0006 <= p <= 10 -> 1073.15 <= a <= 2273.15 -> 1073.15 <= b <= 2273.15 ->
  exists T, 1073.15 <= T <= 2273.15 /\ s5R p b - s5R p a = Cp5R p T / T * (b - a).
Proof.
  intros H A B. destruct (MVT_gen (s5R p) a b (fun T => Cp5R p T / T)) as [c [Hc E]].
  - intros x X. apply d5s; [exact H|]. revert X. unfold Rmin, Rmax. destruct (Rle_dec a b); lra.
  - intros x X. apply derivable_continuous_pt.
    assert (X' : 1073.15 <= x <= 2273.15) by (revert X; unfold Rmin, Rmax; destruct (Rle_dec a b); lra).
    exists ((fun T => Cp5R p T / T) x). apply is_derive_Reals, d5s; assumption.
  - exists c. split; [revert Hc; unfold Rmin, Rmax; destruct (Rle_dec a b); lra | exact E].
Qed.
Lemma lip5s p a b : 0.0006 <= p <= 10 -> 1073.15 <= a <= 2273.15 -> 1073.15 <= b <= 2273.15 ->
  Rabs (s5R p a - s5R p b) <= 0.01 * Rabs (b - a).
Proof.
  intros H A B. destruct (mvt5s p a b H A B) as (T & HT & E). rewrite Rabs_minus_sym, E, Rabs_mult.
  apply Rmult_le_compat_r; [apply Rabs_pos|]. pose proof (d5s p T H HT) as (_ & D2 & D3). apply Rabs_le. lra.
Qed.
Lemma root5s p s : 0.0006 <= p <= 10 -> s5R p 1073.15 <= s <= s5R p 2273.15 -> exists r, 1073.15 <= r <= 2273.15 /\ s5R p r = s.
Proof.
  intros H [A B]. destruct A as [A|A]; [|exists 1073.15; split; [lra|easy]].
  destruct B as [B|B]; [|exists 2273.15; split; [lra|easy]].
  destruct (Ranalysis5.IVT_interv (fun x => s5R p x - s) 1073.15 2273.15) as [r [R1 R2]].
  - intros a Ha. apply continuity_pt_minus; [|apply derivable_continuous_pt, derivable_pt_const].
    apply derivable_continuous_pt. exists ((fun T => Cp5R p T / T) a). apply is_derive_Reals, d5s; assumption.
  - lra. - lra. - lra.
  - exists r. split; [exact R1 | lra].
Qed.

Section S.
Context {F : Fuel}.
Lemma h4L_dense p : 16.529 <= p < 22.06395 -> (32 <= Z.of_nat fuel)%Z -> exists h,
  h4L_p (Fin p) = Ok (Fin h) /\ 1670.858218 < h < 2087.23500164864 /\ Rabs (p - P3 h) <= 0.00001.
Proof.
  intros H Hf. rewrite h4L_p_eq. cbn [ltb RNum lit cmp]. rewrite !Rltb_true by (undec; lra). cbn [andb].
  rewrite T4_dense by exact H. cbn [bind]. rewrite Rltb_false by (undec; lra).
  pose proof P3_at_1670. pose proof P3_at_2086.
  destruct (root_up p) as (r & Hr & Er); [lra|].
  change (D 1670.858218%dec) with 1670.858218. change (D 2087.23500164864%dec) with 2087.23500164864.
  assert (U : forall x, J r 1670.858218 2087.23500164864 x -> 1670 <= x <= 2086.95).
  { intros x [X1 X2]. lra. }
  destruct (converge P3 (p3sat_h (N := RNum)) (fun v => ltb (Num := RNum) (Fin p) v) p (D 0.00001%dec) r 0.0305 1670.858218 2087.23500164864)
    with (k := 21%nat) (n := fuel) (x0 := @None xr) (v0 := D (-1000)%dec) as (x & v & hi & lo & E & G).
  - lra.
  - intros; apply p3sat_closed.
  - intros x X. apply U in X. cbn [ltb RNum cmp]. intros L. destruct (Rltb_spec p (P3 x)) as [L'|]; [|discriminate].
    destruct (Rle_or_lt r x) as [O|O]; [exact O|]. pose proof (P3_rise x r ltac:(lra) O ltac:(lra)). lra.
  - intros x X. apply U in X. cbn [ltb RNum cmp]. intros L. destruct (Rltb_spec p (P3 x)) as [|L']; [discriminate|].
    destruct (Rle_or_lt x r) as [O|O]; [exact O|]. pose proof (P3_rise r x ltac:(lra) O ltac:(lra)). lra.
  - intros x X. apply U in X. rewrite <- Er. apply P3_lipschitz; lra.
  - intros x y X Y E. apply U in X, Y. destruct (Rtotal_order x y) as [O|[O|O]]; [|exact O|].
    + pose proof (P3_rise x y ltac:(lra) O ltac:(lra)). lra.
    + pose proof (P3_rise y x ltac:(lra) O ltac:(lra)). lra.
  - lra.
  - lra.
  - rewrite Rabs_pos_eq by (undec; lra). undec; lra.
  - pose proof (P3_pos ((1670.858218 + 2087.23500164864) / 2) ltac:(lra)). undec; lra.
  - undec. simpl. lra.
  - lia.
  - unfold goR in E. destruct G as (m & -> & -> & Hm & Gm).
    unfold found.
    match type of E with ?l = _ => match goal with |- context [bis ?n ?g ?f ?u ?s] => change (bis n g f u s) with l end end. rewrite E. cbn [bind local]. exists m. split; [reflexivity|].
    split; [exact Hm|]. revert Gm. change (D 0.00001%dec) with 0.00001. lra.
Qed.
Lemma h4V_dense p : 16.529 <= p < 22.06395 -> (32 <= Z.of_nat fuel)%Z -> exists h,
  h4V_p (Fin p) = Ok (Fin h) /\ 2087.23500164864 < h < 2568.592004 /\ Rabs (p - P3 h) <= 0.000001.
Proof.
  intros H Hf. rewrite h4V_p_eq. cbn [ltb RNum lit cmp]. rewrite !Rltb_true by (undec; lra). cbn [andb].
  rewrite T4_dense by exact H. cbn [bind]. rewrite Rltb_false by (undec; lra).
  pose proof P3_at_2568. pose proof P3_at_2087.
  destruct (root_dn p) as (r & Hr & Er); [lra|].
  cbn [add RNum lift2]. replace (D 2563.592004%dec + D 5%dec) with 2568.592004 by (undec; lra).
  change (D 2087.23500164864%dec) with 2087.23500164864.
  assert (U : forall x, J r 2087.23500164864 2568.592004 x -> 2087.59 <= x <= 2569).
  { intros x [X1 X2]. lra. }
  destruct (converge P3 (p3sat_h (N := RNum)) (fun v => ltb (Num := RNum) v (Fin p)) p (D 0.000001%dec) r 0.0305 2087.23500164864 2568.592004)
    with (k := 25%nat) (n := fuel) (x0 := @None xr) (v0 := D (-1000)%dec) as (x & v & hi & lo & E & G).
  - lra.
  - intros; apply p3sat_closed.
  - intros x X. apply U in X. cbn [ltb RNum cmp]. intros L. destruct (Rltb_spec (P3 x) p) as [L'|]; [|discriminate].
    destruct (Rle_or_lt r x) as [O|O]; [exact O|]. pose proof (P3_fall x r ltac:(lra) O ltac:(lra)). lra.
  - intros x X. apply U in X. cbn [ltb RNum cmp]. intros L. destruct (Rltb_spec (P3 x) p) as [|L']; [discriminate|].
    destruct (Rle_or_lt x r) as [O|O]; [exact O|]. pose proof (P3_fall r x ltac:(lra) O ltac:(lra)). lra.
  - intros x X. apply U in X. rewrite <- Er. apply P3_lipschitz; lra.
  - intros x y X Y E. apply U in X, Y. destruct (Rtotal_order x y) as [O|[O|O]]; [|exact O|].
    + pose proof (P3_fall x y ltac:(lra) O ltac:(lra)). lra.
    + pose proof (P3_fall y x ltac:(lra) O ltac:(lra)). lra.
  - lra.
  - lra.
  - rewrite Rabs_pos_eq by (undec; lra). undec; lra.
  - pose proof (P3_pos ((2087.23500164864 + 2568.592004) / 2) ltac:(lra)). undec; lra.
  - undec. simpl. lra.
  - lia.
  - unfold goR in E. destruct G as (m & -> & -> & Hm & Gm).
    unfold found.
    match type of E with ?l = _ => match goal with |- context [bis ?n ?g ?f ?u ?s] => change (bis n g f u s) with l end end. rewrite E. cbn [bind local]. exists m. split; [reflexivity|].
    split; [exact Hm|]. revert Gm. change (D 0.000001%dec) with 0.000001. lra.
Qed.

Lemma T5_ph_ok p h : 0.0006 <= p <= 10 -> h5R p 1073.15 <= h <= h5R p 2273.15 -> h - 1 <> h5R p 1673.15 ->
  (40 <= Z.of_nat fuel)%Z -> exists T,
  T5_ph (Fin p) (Fin h) = Ok (Fin T) /\ 1073.15 < T < 2273.15 /\ Rabs (h - h5R p T) <= 0.00001.
Proof.
  intros H Hq Hne Hf. rewrite T5_ph_eq. cbn [ltb RNum lit cmp sub lift2].
  assert (Dm : forall T, 1073.15 <= T <= 2273.15 -> dom5 p T) by (intros T HT; split; lra).
  destruct (root5h p h H Hq) as (r & Hr & Er).
  change (D 1073.15%dec) with 1073.15. change (D 2273.15%dec) with 2273.15. change (D 1%dec) with 1.
  destruct (converge (h5R p) (h5_pT (N := RNum) (Fin p)) (fun v => ltb (Num := RNum) (Fin h) v) h (D 0.00001%dec) r 10 1073.15 2273.15)
    with (k := 31%nat) (n := fuel) (x0 := @None xr) (v0 := h - 1) as (x & v & hi & lo & E & G).
  - lra.
  - intros x X. apply (eos5 p x). apply Dm. lra.
  - intros x [X1 X2]. cbn [ltb RNum cmp]. intros L. destruct (Rltb_spec h (h5R p x)) as [L'|]; [|discriminate].
    destruct (Rle_or_lt r x) as [O|O]; [exact O|]. pose proof (rise5h p x r H ltac:(lra) O ltac:(lra)). lra.
  - intros x [X1 X2]. cbn [ltb RNum cmp]. intros L. destruct (Rltb_spec h (h5R p x)) as [|L']; [discriminate|].
    destruct (Rle_or_lt x r) as [O|O]; [exact O|]. pose proof (rise5h p r x H ltac:(lra) O ltac:(lra)). lra.
  - intros x [X1 X2]. rewrite <- Er. apply lip5h; lra.
  - intros x y [X1 X2] [Y1 Y2] E. destruct (Rtotal_order x y) as [O|[O|O]]; [|exact O|].
    + pose proof (rise5h p x y H ltac:(lra) O ltac:(lra)). lra.
    + pose proof (rise5h p y x H ltac:(lra) O ltac:(lra)). lra.
  - lra.
  - lra.
  - replace (h - (h - 1)) with 1 by ring. rewrite Rabs_R1. undec; lra.
  - replace ((1073.15 + 2273.15) / 2) with 1673.15 by lra. congruence.
  - undec. simpl. lra.
  - lia.
  - unfold goR in E. destruct G as (m & -> & -> & Hm & Gm). unfold found.
    match type of E with ?l = _ => match goal with |- context [bis ?n ?g ?f ?u ?s] => change (bis n g f u s) with l end end.
    rewrite E. cbn [bind local]. exists m. split; [reflexivity|].
    split; [exact Hm|]. revert Gm. change (D 0.00001%dec) with 0.00001. lra.
Qed.

Lemma T5_ps_ok p s : 0.0006 <= p <= 10 -> s5R p 1073.15 <= s <= s5R p 2273.15 -> s - 1 <> s5R p 1673.15 ->
  (40 <= Z.of_nat fuel)%Z -> exists T,
  T5_ps (Fin p) (Fin s) = Ok (Fin T) /\ 1073.15 < T < 2273.15 /\ Rabs (s - s5R p T) <= 0.00001.
Proof.
  intros H Hq Hne Hf. rewrite T5_ps_eq. cbn [ltb RNum lit cmp sub lift2].
  assert (Dm : forall T, 1073.15 <= T <= 2273.15 -> dom5 p T) by (intros T HT; split; lra).
  destruct (root5s p s H Hq) as (r & Hr & Er).
  change (D 1073.15%dec) with 1073.15. change (D 2273.15%dec) with 2273.15. change (D 1%dec) with 1.
  destruct (converge (s5R p) (s5_pT (N := RNum) (Fin p)) (fun v => ltb (Num := RNum) (Fin s) v) s (D 0.00001%dec) r 0.01 1073.15 2273.15)
    with (k := 21%nat) (n := fuel) (x0 := @None xr) (v0 := s - 1) as (x & v & hi & lo & E & G).
  - lra.
  - intros x X. apply (eos5 p x). apply Dm. lra.
  - intros x [X1 X2]. cbn [ltb RNum cmp]. intros L. destruct (Rltb_spec s (s5R p x)) as [L'|]; [|discriminate].
    destruct (Rle_or_lt r x) as [O|O]; [exact O|]. pose proof (rise5s p x r H ltac:(lra) O ltac:(lra)). lra.
  - intros x [X1 X2]. cbn [ltb RNum cmp]. intros L. destruct (Rltb_spec s (s5R p x)) as [|L']; [discriminate|].
    destruct (Rle_or_lt x r) as [O|O]; [exact O|]. pose proof (rise5s p r x H ltac:(lra) O ltac:(lra)). lra.
  - intros x [X1 X2]. rewrite <- Er. apply lip5s; lra.
  - intros x y [X1 X2] [Y1 Y2] E. destruct (Rtotal_order x y) as [O|[O|O]]; [|exact O|].
    + pose proof (rise5s p x y H ltac:(lra) O ltac:(lra)). lra.
    + pose proof (rise5s p y x H ltac:(lra) O ltac:(lra)). lra.
  - lra.
  - lra.
  - replace (s - (s - 1)) with 1 by ring. rewrite Rabs_R1. undec; lra.
  - replace ((1073.15 + 2273.15) / 2) with 1673.15 by lra. congruence.
  - undec. simpl. lra.
  - lia.
  - unfold goR in E. destruct G as (m & -> & -> & Hm & Gm). unfold found.
    match type of E with ?l = _ => match goal with |- context [bis ?n ?g ?f ?u ?s] => change (bis n g f u s) with l end end.
    rewrite E. cbn [bind local]. exists m. split; [reflexivity|].
    split; [exact Hm|]. revert Gm. change (D 0.00001%dec) with 0.00001. lra.
Qed.
End S.
