(** The marker -99999 of h4L_p and h4V_p: where it reaches the user. *)
From Coq Require Import ZArith Reals Lra Lia List Bool.
From Interval Require Import Tactic.
From Verif Require Import Py ExactReal ModState ModConstants ModUnits ModBorders ModRegion1 ModRegion2
  ModRegion3 ModRegion4 ModRegion5 ModSelect ModXSteam SpecUnits SpecApi SpecLeaks SpecRange SpecThermo SpecWet ProofUnits
  ProofCovariance ProofGeneric RealSum ProofEos ProofThermo ProofSat ProofSatApi ProofThermoApi ProofMisc
  ProofWet ProofWetApi ProofWet2 ProofWet3 SpecLoops ProofBisect ProofLoops ProofLoopsApi.
Open Scope R_scope.

Lemma h1_cold p : 0.0006 <= p <= 17 -> -1 < h1R p 273.15.
Proof. intros H. unfold h1R. reals. interval with (i_prec 60, i_bisect p, i_depth 12). Qed.
Lemma marker_inj us y : Fin (to_user us Qh y) = marker us -> y = -99999.
Proof.
  intros H. apply Fin_inj in H. rewrite <- (to_si_to_user us Qh y), H. apply to_si_to_user.
Qed.
Section Leaks.
Context {F : Fuel}.
Definition saturable (p : R) : Prop := 0.000611657 < p < 22.06395.
Lemma saturable_dec p : saturable p \/ p <= 0.000611657 \/ 22.06395 <= p.
Proof. unfold saturable. lra. Qed.
Lemma h4_in p y : saturable p -> h4L_p (Fin p) = Ok y \/ h4V_p (Fin p) = Ok y -> exists h, y = Fin h /\ -1 < h.
Proof.
  intros H. destruct (Rlt_dec p 16.529) as [C|C].
  - unfold saturable in H. assert (L : 0.000611657 < p < 16.529) by lra. assert (L' : 0.000611657 <= p < 16.529) by lra.
    rewrite (h4L_low p L), (h4V_low p L). pose proof (above_low p L') as A. pose proof (cold_low p L') as B.
    pose proof (h1_cold p ltac:(lra)). intros [E|E]; injection E as <-; eexists; (split; [reflexivity|lra]).
  - unfold saturable in H. assert (L : 16.529 <= p < 22.06395) by lra.
    intros [E|E]; [apply (h4L_in p y L) in E | apply (h4V_in p y L) in E]; destruct E as (h & -> & B); exists h; (split; [reflexivity|lra]).
Qed.
Lemma h4_out p : p <= 0.000611657 \/ 22.06395 <= p -> h4L_p (Fin p) = Ok (Fin (-99999)) /\ h4V_p (Fin p) = Ok (Fin (-99999)).
Proof.
  intros H. rewrite h4L_p_eq, h4V_p_eq. cbn [ltb RNum lit cmp].
  split; (match goal with |- context [(?a && ?b)%bool] => replace (a && b)%bool with false end;
    [ do 2 f_equal; undec; lra
    | symmetry; apply andb_false_iff; destruct H; [left | right]; apply Rltb_false; undec; lra ]).
Qed.
Lemma h4_nan : h4L_p NaN = Ok (Fin (-99999)) /\ h4V_p NaN = Ok (Fin (-99999)).
Proof. split; cbn; do 2 f_equal; undec; lra. Qed.

Lemma hL_p_clean us p x : hL_p us (Fin p) = Ok (Fin x) -> -1 < to_si us Qh x.
Proof.
  unfold hL_p. rewrite to_p. cbn [bind si lift1]. cbn [ltb RNum lit cmp].
  destruct (Rltb_spec (D 0.000611657) (to_si us Qp p)) as [A|A]; [|discriminate].
  destruct (Rltb_spec (to_si us Qp p) (D 22.06395)) as [B|B]; [|discriminate]. cbn [andb].
  destruct (h4L_p _) as [y|] eqn:E; [|discriminate]. cbn [bind]. rewrite from_h. intros X; injection X as X.
  destruct (h4_in (to_si us Qp p) y) as (h & -> & H); [undec; unfold saturable; lra | now left |].
  apply Fin_inj in X. subst x. now rewrite to_si_to_user.
Qed.
Lemma hV_p_clean us p x : hV_p us (Fin p) = Ok (Fin x) -> -1 < to_si us Qh x.
Proof.
  unfold hV_p. rewrite to_p. cbn [bind si lift1]. cbn [ltb RNum lit cmp].
  destruct (Rltb_spec (D 0.000611657) (to_si us Qp p)) as [A|A]; [|discriminate].
  destruct (Rltb_spec (to_si us Qp p) (D 22.06395)) as [B|B]; [|discriminate]. cbn [andb].
  destruct (h4V_p _) as [y|] eqn:E; [|discriminate]. cbn [bind]. rewrite from_h. intros X; injection X as X.
  destruct (h4_in (to_si us Qp p) y) as (h & -> & H); [undec; unfold saturable; lra | now right |].
  apply Fin_inj in X. subst x. now rewrite to_si_to_user.
Qed.
Lemma hL_t_marker us t : hL_t us (Fin t) = Ok (marker us) <->
  273.15 < to_si us QT t < 647.096 /\ exists ps, psat_t BARE (Fin (to_si us QT t)) = Ok (Fin ps) /\
    (ps <= 0.000611657 \/ 22.06395 <= ps).
Proof.
  unfold hL_t. rewrite to_T. cbn [bind si lift1]. set (T := to_si us QT t). cbn [ltb RNum lit cmp].
  destruct (Rltb_spec (D 273.15) T) as [A|A]; [|split; [discriminate|undec; lra]].
  destruct (Rltb_spec T (D 647.096)) as [B|B]; [|split; [discriminate|undec; lra]]. cbn [andb].
  undec. rewrite p4_closed by lra. cbn [bind]. rewrite psat_bare by lra. split.
  - intros H. split; [lra|]. exists (p4R T). split; [reflexivity|].
    destruct (saturable_dec (p4R T)) as [S|S]; [exfalso|exact S].
    destruct (h4L_p _) as [y|] eqn:E; [|discriminate]. cbn [bind] in H. rewrite from_h in H.
    destruct (h4_in _ _ S (or_introl E)) as (h & -> & Hh). injection H as H.
    apply (f_equal Fin), marker_inj in H. lra.
  - intros (_ & ps & E & H). injection E as <-. rewrite (proj1 (h4_out _ H)). cbn [bind]. apply from_h.
Qed.
Lemma hV_t_marker us t : hV_t us (Fin t) = Ok (marker us) <->
  273.15 < to_si us QT t < 647.096 /\ exists ps, psat_t BARE (Fin (to_si us QT t)) = Ok (Fin ps) /\
    (ps <= 0.000611657 \/ 22.06395 <= ps).
Proof.
  unfold hV_t. rewrite to_T. cbn [bind si lift1]. set (T := to_si us QT t). cbn [ltb RNum lit cmp].
  destruct (Rltb_spec (D 273.15) T) as [A|A]; [|split; [discriminate|undec; lra]].
  destruct (Rltb_spec T (D 647.096)) as [B|B]; [|split; [discriminate|undec; lra]]. cbn [andb].
  undec. rewrite p4_closed by lra. cbn [bind]. rewrite psat_bare by lra. split.
  - intros H. split; [lra|]. exists (p4R T). split; [reflexivity|].
    destruct (saturable_dec (p4R T)) as [S|S]; [exfalso|exact S].
    destruct (h4V_p _) as [y|] eqn:E; [|discriminate]. cbn [bind] in H. rewrite from_h in H.
    destruct (h4_in _ _ S (or_intror E)) as (h & -> & Hh). injection H as H.
    apply (f_equal Fin), marker_inj in H. lra.
  - intros (_ & ps & E & H). injection E as <-. rewrite (proj2 (h4_out _ H)). cbn [bind]. apply from_h.
Qed.
Lemma p4_low_end : p4R 273.1599 < 0.000611657.
Proof. unfold p4R, be, qA, qB, qC, th. interval with (i_prec 100). Qed.
Lemma p4_high_end : 22.06395 < p4R 647.0959 /\ p4R 647.0957 < 22.06395.
Proof. unfold p4R, be, qA, qB, qC, th. split; interval with (i_prec 100). Qed.
Lemma p4_le' x y : 273 <= x -> x <= y -> y <= 647.1 -> p4R x <= p4R y.
Proof. intros H1 [H|<-] H3; [left; now apply p4_incr | lra]. Qed.
Lemma slivers T : 273.15 < T <= 273.1599 \/ 647.0959 <= T < 647.096 ->
  273.15 < T < 647.096 /\ (p4R T <= 0.000611657 \/ 22.06395 <= p4R T).
Proof.
  intros [H|H]; (split; [lra|]); [left | right].
  - pose proof p4_low_end. pose proof (p4_le' T 273.1599 ltac:(lra) ltac:(lra) ltac:(lra)). lra.
  - pose proof p4_high_end. pose proof (p4_le' 647.0959 T ltac:(lra) ltac:(lra) ltac:(lra)). lra.
Qed.
Lemma between_slivers T : 273.16 <= T <= 647.0957 -> 0.000611657 < p4R T < 22.06395.
Proof.
  intros H. pose proof p4_273_16. pose proof p4_high_end.
  pose proof (p4_le' 273.16 T ltac:(lra) ltac:(lra) ltac:(lra)).
  pose proof (p4_le' T 647.0957 ltac:(lra) ltac:(lra) ltac:(lra)). lra.
Qed.
Lemma t_slivers us t : 273.15 < to_si us QT t <= 273.1599 \/ 647.0959 <= to_si us QT t < 647.096 ->
  hL_t us (Fin t) = Ok (marker us) /\ hV_t us (Fin t) = Ok (marker us).
Proof.
  intros H. apply slivers in H. destruct H as [R S].
  split; [apply hL_t_marker | apply hV_t_marker]; (split; [exact R|]; exists (p4R (to_si us QT t)); split; [apply psat_bare; lra | exact S]).
Qed.
Lemma t_clean us t x : 273.16 <= to_si us QT t <= 647.0957 ->
  hL_t us (Fin t) = Ok (Fin x) \/ hV_t us (Fin t) = Ok (Fin x) -> -1 < to_si us Qh x.
Proof.
  intros H. pose proof (between_slivers _ H) as S. unfold hL_t, hV_t. rewrite to_T. cbn [bind si lift1].
  set (T := to_si us QT t) in *. cmps. rewrite p4_closed by lra. cbn [bind]. intros [X|X].
  - destruct (h4L_p _) as [y|] eqn:E; [|discriminate]. cbn [bind] in X. rewrite from_h in X.
    destruct (h4_in _ _ S (or_introl E)) as (h & -> & Hh). injection X as X. cbn in X. subst x. now rewrite to_si_to_user.
  - destruct (h4V_p _) as [y|] eqn:E; [|discriminate]. cbn [bind] in X. rewrite from_h in X.
    destruct (h4_in _ _ S (or_intror E)) as (h & -> & Hh). injection X as X. cbn in X. subst x. now rewrite to_si_to_user.
Qed.
Lemma mix_clean a b x : -1 < a -> -1 < b -> 0 <= x <= 1 -> -1 < a + x * (b - a).
Proof.
  intros. replace (a + x * (b - a)) with ((1 - x) * a + x * b) by ring.
  destruct (Req_dec x 0) as [->|N]; [lra|].
  assert (-x < x * b) by (rewrite <- (Rmult_1_r x) at 1; rewrite <- Ropp_mult_distr_r_reverse; apply Rmult_lt_compat_l; lra).
  assert (- (1 - x) <= (1 - x) * a); [|lra].
  rewrite <- (Rmult_1_r (1 - x)) at 1. rewrite <- Ropp_mult_distr_r_reverse. apply Rmult_le_compat_l; lra.
Qed.
Lemma frac_si x : 0 <= x <= 1 -> toSIunit_x (N := RNum) BARE (Fin x) = Ok (Fin x).
Proof. intros H. unfold toSIunit_x. cmps. reflexivity. Qed.
Lemma mix_marker us x : fromSIunit_h us (add (Num := RNum) (Fin (-99999)) (mul (Num := RNum) (Fin x) (sub (Num := RNum) (Fin (-99999)) (Fin (-99999))))) = Ok (marker us).
Proof. rewrite from_h. cbn. unfold marker. do 3 f_equal. ring. Qed.
Lemma h_px_marker us p x : 0 <= x <= 1 -> (h_px us (Fin p) (Fin x) = Ok (marker us) <->
  to_si us Qp p < 22.064 /\ (to_si us Qp p <= 0.000611657 \/ 22.06395 <= to_si us Qp p)).
Proof.
  intros Hx. unfold h_px. rewrite to_p. cbn [bind si lift1]. set (P := to_si us Qp p).
  change (toSIunit_x (N := RNum) us (Fin x)) with (toSIunit_x (N := RNum) BARE (Fin x)). rewrite (frac_si x Hx). cbn [bind].
  cbn [ltb leb RNum lit cmp]. rewrite Rltb_false by (undec; lra). rewrite Rltb_false by (undec; lra). cbn [orb].
  destruct (Rleb_spec (D 22.064) P) as [A|A]; [split; [discriminate|undec; lra]|]. undec.
  destruct (saturable_dec P) as [S|S].
  - split; [|unfold saturable in S; lra].
    destruct (h4L_p _) as [a|] eqn:Ea; [|discriminate]. destruct (h4V_p _) as [b|] eqn:Eb; [|discriminate]. cbn [bind].
    destruct (h4_in _ _ S (or_introl Ea)) as (h & -> & Ha). destruct (h4_in _ _ S (or_intror Eb)) as (k & -> & Hb).
    rewrite from_h. cbn [add mul sub RNum lift2]. intros X. injection X as X. apply (f_equal Fin), marker_inj in X.
    pose proof (mix_clean h k x Ha Hb Hx). lra.
  - split; [intros _; split; [lra|exact S]|]. intros _. destruct (h4_out _ S) as [-> ->]. cbn [bind]. apply mix_marker.
Qed.
Lemma h_px_nan us x : 0 <= x <= 1 -> h_px us NaN (Fin x) = Ok (marker us).
Proof.
  intros Hx. unfold h_px. rewrite to_p. cbn [bind si lift1].
  change (toSIunit_x (N := RNum) us (Fin x)) with (toSIunit_x (N := RNum) BARE (Fin x)). rewrite (frac_si x Hx). cbn [bind].
  cbn [ltb leb RNum lit cmp]. rewrite Rltb_false by (undec; lra). rewrite Rltb_false by (undec; lra). cbn [orb].
  destruct h4_nan as [-> ->]. cbn [bind]. apply mix_marker.
Qed.
Lemma h_tx_marker us t x : 0 <= x <= 1 -> 273.15 <= to_si us QT t -> (h_tx us (Fin t) (Fin x) = Ok (marker us) <->
  to_si us QT t < 647.096 /\ exists ps, psat_t BARE (Fin (to_si us QT t)) = Ok (Fin ps) /\
    (ps <= 0.000611657 \/ 22.06395 <= ps)).
Proof.
  intros Hx HT. unfold h_tx. rewrite to_T. cbn [bind si lift1]. set (T := to_si us QT t) in *.
  change (toSIunit_x (N := RNum) us (Fin x)) with (toSIunit_x (N := RNum) BARE (Fin x)). rewrite (frac_si x Hx). cbn [bind].
  cbn [ltb leb RNum lit cmp]. rewrite Rltb_false by (undec; lra). rewrite Rltb_false by (undec; lra). cbn [orb].
  destruct (Rleb_spec (D 647.096) T) as [A|A]; [split; [discriminate|undec; lra]|]. undec.
  rewrite p4_closed by lra. cbn [bind]. rewrite psat_bare by lra.
  destruct (saturable_dec (p4R T)) as [S|S].
  - split; [|intros (_ & ps & E & H); injection E as <-; unfold saturable in S; lra].
    destruct (h4L_p _) as [a|] eqn:Ea; [|discriminate]. destruct (h4V_p _) as [b|] eqn:Eb; [|discriminate]. cbn [bind].
    destruct (h4_in _ _ S (or_introl Ea)) as (h & -> & Ha). destruct (h4_in _ _ S (or_intror Eb)) as (k & -> & Hb).
    rewrite from_h. cbn [add mul sub RNum lift2]. intros X. injection X as X. apply (f_equal Fin), marker_inj in X.
    pose proof (mix_clean h k x Ha Hb Hx). lra.
  - split; [intros _; split; [lra|eauto]|]. intros _. destruct (h4_out _ S) as [-> ->]. cbn [bind]. apply mix_marker.
Qed.
Lemma h_tx_nan us x : 0 <= x <= 1 -> h_tx us NaN (Fin x) = Ok (marker us).
Proof.
  intros Hx. unfold h_tx. rewrite to_T. cbn [bind si lift1].
  change (toSIunit_x (N := RNum) us (Fin x)) with (toSIunit_x (N := RNum) BARE (Fin x)). rewrite (frac_si x Hx). cbn [bind].
  cbn [ltb leb RNum lit cmp]. rewrite Rltb_false by (undec; lra). rewrite Rltb_false by (undec; lra). cbn [orb].
  assert (E : p4_T (N := RNum) NaN = Ok NaN) by (unfold p4_T; cbn; rewrite Reqb_false by lra; reflexivity). rewrite E. cbn [bind]. destruct h4_nan as [-> ->]. cbn [bind]. apply mix_marker.
Qed.
End Leaks.
