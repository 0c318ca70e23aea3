(** Functions of (p,h), (p,s) and (h,s) against the functions of (p,t). *)
From Coq Require Import ZArith List Bool.
From Verif Require Import Py ExactReal ModState ModUnits ModRegion3 ModSelect ModXSteam SpecUnits SpecApi SpecThermo SpecAgree ProofUnits ProofCovariance.

Ltac undo H := repeat match type of H with
  | bind ?e _ = Ok _ => destruct e eqn:?; cbn [bind] in H; [|discriminate H]
  end.
Section Any.
Context {N : Num} {F : Fuel}.
Lemma eta (r : res num) : (let* x := r in Ok x) = r.
Proof. now destruct r. Qed.
Lemma agree_ph f g p h T r : twin_ph f = Some g -> single_phase r -> region_ph p h = Ok r -> t_ph BARE p h = Ok T ->
  region_pT p T = Ok r -> run2 f BARE p h = run2 g BARE p T.
Proof.
  intros Tw [E|[E|E]] R Ht Rp; subst r; revert Ht; unfold t_ph; cbn [toSIunit_p toSIunit_h is_MKS is_FLS bind]; rewrite R; cbn [bind Z.eqb Pos.eqb];
  (match goal with |- bind ?e _ = _ -> _ => destruct e as [T'|] eqn:ET; [|discriminate] end; cbn; intros K; injection K as ->);
  destruct f; try discriminate Tw; injection Tw as <-; cbn [run2];
  unfold v_ph, rho_ph, rho_pt, s_ph, u_ph, Cp_ph, Cv_ph, w_ph, v_pt, s_pt, u_pt, Cp_pt, Cv_pt, w_pt, v_ph; cbn [toSIunit_p toSIunit_h toSIunit_T is_MKS is_FLS bind];
  rewrite R, Rp; cbn [bind Z.eqb Pos.eqb]; rewrite ET; reflexivity.
Qed.
Lemma agree_ps f g p s T r : twin_ps f = Some g -> single_phase r -> region_ps p s = Ok r -> t_ps BARE p s = Ok T ->
  region_pT p T = Ok r -> run2 f BARE p s = run2 g BARE p T.
Proof.
  intros Tw [E|[E|E]] R Ht Rp; subst r; revert Ht; unfold t_ps; cbn [toSIunit_p toSIunit_s is_MKS is_FLS bind]; rewrite R; cbn [bind Z.eqb Pos.eqb];
  (match goal with |- bind ?e _ = _ -> _ => destruct e as [T'|] eqn:ET; [|discriminate] end; cbn; intros K; injection K as ->);
  destruct f; try discriminate Tw; injection Tw as <-; cbn [run2];
  unfold v_ps, rho_ps, rho_pt, h_ps, u_ps, Cp_ps, Cv_ps, w_ps, v_pt, h_pt, u_pt, Cp_pt, Cv_pt, w_pt, v_ps; cbn [toSIunit_p toSIunit_s toSIunit_T is_MKS is_FLS bind];
  rewrite R, Rp; cbn [bind Z.eqb Pos.eqb]; rewrite ET; reflexivity.
Qed.

(** t_hs is t_ph at the pressure p_hs. *)
Lemma agree_hs h s p r : (r = 1 \/ r = 2 \/ r = 3)%Z -> region_hs h s = Ok r -> p_hs BARE h s = Ok p -> region_ph p h = Ok r ->
  t_hs BARE h s = t_ph BARE p h.
Proof.
  intros Hr R. unfold p_hs, t_hs, t_ph. cbn [toSIunit_p toSIunit_h toSIunit_s is_MKS is_FLS bind]. rewrite R.
  destruct Hr as [->|[->| ->]]; cbn [bind Z.eqb Pos.eqb];
  (match goal with |- bind ?e _ = _ -> _ => destruct e as [p'|] eqn:EP; [|discriminate] end; cbn; intros K; injection K as ->; intros ->; reflexivity).
Qed.
(** Region 3: everything is evaluated at the density and temperature the other functions report. *)
Lemma region3_ph f e p h : eos3 f = Some e -> args_of f = (Qp, Qh) -> region_ph p h = Ok 3%Z ->
  run2 f BARE p h = (let* rho := rho_ph BARE p h in let* T := t_ph BARE p h in e rho T).
Proof.
  intros E A R. destruct f; try discriminate E; try discriminate A; injection E as <-; cbn [run2];
  unfold rho_ph, t_ph, s_ph, u_ph, Cp_ph, Cv_ph, w_ph, v_ph; cbn [toSIunit_p toSIunit_h is_MKS is_FLS bind]; rewrite R; cbn [bind Z.eqb Pos.eqb];
  (destruct (v3_ph p h) as [v|]; [|reflexivity]); cbn; (destruct (div _ v) as [rho|]; [|reflexivity]); cbn; (destruct (T3_ph p h) as [T|]; [|reflexivity]); cbn;
  match goal with |- bind ?x _ = _ => destruct x; reflexivity end.
Qed.
Lemma region3_ps f e p s : eos3 f = Some e -> args_of f = (Qp, Qs) -> region_ps p s = Ok 3%Z ->
  run2 f BARE p s = (let* rho := rho_ps BARE p s in let* T := t_ps BARE p s in e rho T).
Proof.
  intros E A R. destruct f; try discriminate E; try discriminate A; injection E as <-; cbn [run2];
  unfold rho_ps, t_ps, h_ps, u_ps, Cp_ps, Cv_ps, w_ps, v_ps; cbn [toSIunit_p toSIunit_s is_MKS is_FLS bind]; rewrite R; cbn [bind Z.eqb Pos.eqb];
  (destruct (v3_ps p s) as [v|]; [|reflexivity]); cbn; (destruct (div _ v) as [rho|]; [|reflexivity]); cbn; (destruct (T3_ps p s) as [T|]; [|reflexivity]); cbn;
  match goal with |- bind ?x _ = _ => destruct x; reflexivity end.
Qed.
Lemma region3_pt f e p T : eos3 f = Some e -> args_of f = (Qp, QT) -> region_pT p T = Ok 3%Z ->
  run2 f BARE p T = (let* rho := rho_pt BARE p T in e rho T).
Proof.
  intros E A R. destruct f; try discriminate E; try discriminate A; injection E as <-; cbn [run2];
  unfold rho_pt, s_pt, u_pt, Cp_pt, Cv_pt, w_pt, v_pt; cbn [toSIunit_p toSIunit_T is_MKS is_FLS bind]; rewrite R; cbn [bind Z.eqb Pos.eqb];
  (destruct (ModRegion4.h3_pT p T) as [h|]; [|reflexivity]); cbn; (destruct (v3_ph p h) as [v|]; [|reflexivity]); cbn; (destruct (div _ v) as [rho|]; [|reflexivity]); cbn;
  match goal with |- bind ?x _ = _ => destruct x; reflexivity end.
Qed.
Lemma region3_v p T h : region_pT p T = Ok 3%Z -> h_pt BARE p T = Ok h -> region_ph p h = Ok 3%Z ->
  v_pt BARE p T = v_ph BARE p h.
Proof.
  intros R. unfold h_pt, v_pt, v_ph. cbn [toSIunit_p toSIunit_T toSIunit_h is_MKS is_FLS bind]. rewrite R. cbn [bind Z.eqb Pos.eqb].
  destruct (ModRegion4.h3_pT p T) as [h'|]; [|discriminate]. cbn. intros K; injection K as ->. intros ->. reflexivity.
Qed.
(** Outside the single phase regions. *)
Lemma wet_nan f us x y x' y' : one_phase_only f = true ->
  (args_of f = (Qp, Qh) -> toSIunit_p us x = Ok x' /\ toSIunit_h us y = Ok y' /\ (region_ph x' y' = Ok 4%Z \/ region_ph x' y' = Ok 0%Z)) ->
  (args_of f = (Qp, Qs) -> toSIunit_p us x = Ok x' /\ toSIunit_s us y = Ok y' /\ (region_ps x' y' = Ok 4%Z \/ region_ps x' y' = Ok 0%Z)) ->
  (args_of f = (Qp, QT) -> toSIunit_p us x = Ok x' /\ toSIunit_T us y = Ok y' /\ (region_pT x' y' = Ok 4%Z \/ region_pT x' y' = Ok 0%Z)) ->
  run2 f us x y = Ok nan.
Proof.
  intros O H1 H2 H3. destruct f; try discriminate O; cbn [args_of sig2 fst] in H1, H2, H3; cbn [run2];
  first [destruct (H1 eq_refl) as (E1 & E2 & [R|R]) | destruct (H2 eq_refl) as (E1 & E2 & [R|R]) | destruct (H3 eq_refl) as (E1 & E2 & [R|R])];
  unfold Cp_ph, Cv_ph, w_ph, Cp_ps, Cv_ps, w_ps, Cp_pt, Cv_pt, w_pt; rewrite E1; cbn [bind]; rewrite E2; cbn [bind]; rewrite R; reflexivity.
Qed.
End Any.

Section Real.
Context {F : Fuel}.
Lemma run2_units f us x y : f <> F_p_hrho -> run2 f us x y =
  map_res (user us (snd (sig2 f))) (run2 f BARE (si us (fst (fst (sig2 f))) x) (si us (snd (fst (sig2 f))) y)).
Proof. intros H. rewrite <- (cov_fn2 f H us). now rewrite !user_si. Qed.
Lemma map_inv q us r x : map_res (user us q) r = Ok x -> r = Ok (si us q x).
Proof. destruct r as [y|]; [|discriminate]. cbn. intros K; injection K as <-. now rewrite si_user. Qed.
Lemma agree_ph_units us f g p h t r : twin_ph f = Some g -> single_phase r -> region_ph (si us Qp p) (si us Qh h) = Ok r ->
  t_ph us p h = Ok t -> region_pT (si us Qp p) (si us QT t) = Ok r -> run2 f us p h = run2 g us p t.
Proof.
  intros Tw S R Ht Rp. pose proof (run2_units F_t_ph us p h ltac:(discriminate)) as U. cbn [run2 sig2 fst snd] in U. rewrite Ht in U. symmetry in U.
  apply map_inv in U. pose proof (agree_ph f g _ _ _ _ Tw S R U Rp) as E.
  destruct f; try discriminate Tw; injection Tw as <-; (rewrite run2_units by discriminate; symmetry; rewrite run2_units by discriminate); cbn [sig2 fst snd] in *; now rewrite E.
Qed.
Lemma agree_ps_units us f g p s t r : twin_ps f = Some g -> single_phase r -> region_ps (si us Qp p) (si us Qs s) = Ok r ->
  t_ps us p s = Ok t -> region_pT (si us Qp p) (si us QT t) = Ok r -> run2 f us p s = run2 g us p t.
Proof.
  intros Tw S R Ht Rp. pose proof (run2_units F_t_ps us p s ltac:(discriminate)) as U. cbn [run2 sig2 fst snd] in U. rewrite Ht in U. symmetry in U.
  apply map_inv in U. pose proof (agree_ps f g _ _ _ _ Tw S R U Rp) as E.
  destruct f; try discriminate Tw; injection Tw as <-; (rewrite run2_units by discriminate; symmetry; rewrite run2_units by discriminate); cbn [sig2 fst snd] in *; now rewrite E.
Qed.
Lemma agree_hs_units us h s p r : (r = 1 \/ r = 2 \/ r = 3)%Z -> region_hs (si us Qh h) (si us Qs s) = Ok r -> p_hs us h s = Ok p ->
  region_ph (si us Qp p) (si us Qh h) = Ok r -> t_hs us h s = t_ph us p h.
Proof.
  intros S R Hp Rp. pose proof (run2_units F_p_hs us h s ltac:(discriminate)) as U. cbn [run2 sig2 fst snd] in U. rewrite Hp in U. symmetry in U.
  apply map_inv in U. pose proof (agree_hs _ _ _ _ S R U Rp) as E.
  pose proof (run2_units F_t_hs us h s ltac:(discriminate)) as V. pose proof (run2_units F_t_ph us p h ltac:(discriminate)) as W. cbn [run2 sig2 fst snd] in V, W.
  now rewrite V, W, E.
Qed.
End Real.
