(** Proof of unit covariance, exact arithmetic. *)
From Coq Require Import ZArith Reals Lra List Bool.
From Verif Require Import Py ExactReal ModState ModConstants ModUnits ModXSteam ModXSteamHW
  SpecUnits SpecApi ProofUnits.
Open Scope R_scope.

Definition map_res {A B} (g : A -> B) (r : res A) : res B :=
  match r with Ok a => Ok (g a) | Err e => Err e end.

Section Cov.
Context {F : Fuel}.
Notation num := (@num RNum).

Lemma to_p us x : toSIunit_p us x = Ok (si us Qp x). Proof. exact (code_to_spec us Qp x eq_refl). Qed.
Lemma to_T us x : toSIunit_T us x = Ok (si us QT x). Proof. exact (code_to_spec us QT x eq_refl). Qed.
Lemma to_h us x : toSIunit_h us x = Ok (si us Qh x). Proof. exact (code_to_spec us Qh x eq_refl). Qed.
Lemma to_v us x : toSIunit_v us x = Ok (si us Qv x). Proof. exact (code_to_spec us Qv x eq_refl). Qed.
Lemma to_s us x : toSIunit_s us x = Ok (si us Qs x). Proof. exact (code_to_spec us Qs x eq_refl). Qed.
Lemma to_Cp us x : toSIunit_Cp us x = Ok (si us QCp x). Proof. exact (code_to_spec us QCp x eq_refl). Qed.
Lemma to_tc us x : toSIunit_tc us x = Ok (si us Qtc x). Proof. exact (code_to_spec us Qtc x eq_refl). Qed.
Lemma to_my us x : toSIunit_my us x = Ok (si us Qmy x). Proof. exact (code_to_spec us Qmy x eq_refl). Qed.
Lemma from_p us x : fromSIunit_p us x = Ok (user us Qp x). Proof. exact (code_from_spec us Qp x eq_refl). Qed.
Lemma from_T us x : fromSIunit_T us x = Ok (user us QT x). Proof. exact (code_from_spec us QT x eq_refl). Qed.
Lemma from_h us x : fromSIunit_h us x = Ok (user us Qh x). Proof. exact (code_from_spec us Qh x eq_refl). Qed.
Lemma from_v us x : fromSIunit_v us x = Ok (user us Qv x). Proof. exact (code_from_spec us Qv x eq_refl). Qed.
Lemma from_s us x : fromSIunit_s us x = Ok (user us Qs x). Proof. exact (code_from_spec us Qs x eq_refl). Qed.
Lemma from_u us x : fromSIunit_u us x = Ok (user us Qu x). Proof. exact (code_from_spec us Qu x eq_refl). Qed.
Lemma from_Cp us x : fromSIunit_Cp us x = Ok (user us QCp x). Proof. exact (code_from_spec us QCp x eq_refl). Qed.
Lemma from_Cv us x : fromSIunit_Cv us x = Ok (user us QCv x). Proof. exact (code_from_spec us QCv x eq_refl). Qed.
Lemma from_w us x : fromSIunit_w us x = Ok (user us Qw x). Proof. exact (code_from_spec us Qw x eq_refl). Qed.
Lemma from_tc us x : fromSIunit_tc us x = Ok (user us Qtc x). Proof. exact (code_from_spec us Qtc x eq_refl). Qed.
Lemma from_st us x : fromSIunit_st us x = Ok (user us Qst x). Proof. exact (code_from_spec us Qst x eq_refl). Qed.
Lemma from_my us x : fromSIunit_my us x = Ok (user us Qmy x). Proof. exact (code_from_spec us Qmy x eq_refl). Qed.

Lemma user_one us x : user us Qone x = x.
Proof. destruct x; [|easy]. cbn. unfold to_user; destruct us; cbn; apply f_equal; lra. Qed.

Lemma inv_rho us x :
  div (Num:=RNum) (lit 1%dec) (user us Qrho x) = map_res (user us Qv) (div (Num:=RNum) (lit 1%dec) x).
Proof.
  destruct x as [x|]; [|reflexivity].
  cbn [user lift1]. destruct (Req_dec x 0) as [->|Hx].
  - replace (to_user us Qrho 0) with 0 by (unfold to_user; destruct us; cbn; lra).
    cbn. now rewrite Reqb_true.
  - change (lit 1%dec) with (Fin (D 1%dec)). rewrite !div_Fin; [|exact Hx|].
    + cbn [map_res user lift1]. apply f_equal, f_equal.
      unfold to_user; destruct us; cbn [origin factor shift]; unfold D; cbn [dec_e dec_m]; field; repeat split; first [assumption | lra].
    + unfold to_user; destruct us; cbn [origin factor shift]; lra.
Qed.
Lemma inv_v us x :
  div (Num:=RNum) (lit 1%dec) (user us Qv x) = map_res (user us Qrho) (div (Num:=RNum) (lit 1%dec) x).
Proof.
  destruct x as [x|]; [|reflexivity].
  cbn [user lift1]. destruct (Req_dec x 0) as [->|Hx].
  - replace (to_user us Qv 0) with 0 by (unfold to_user; destruct us; cbn; lra).
    cbn. now rewrite Reqb_true.
  - change (lit 1%dec) with (Fin (D 1%dec)). rewrite !div_Fin; [|exact Hx|].
    + cbn [map_res user lift1]. apply f_equal, f_equal.
      unfold to_user; destruct us; cbn [origin factor shift]; unfold D; cbn [dec_e dec_m]; field; repeat split; first [assumption | lra].
    + unfold to_user; destruct us; cbn [origin factor shift]; lra.
Qed.

Lemma user_NaN us q : user us q NaN = NaN. Proof. reflexivity. Qed.

Ltac conv :=
  rewrite ?to_p, ?to_T, ?to_h, ?to_v, ?to_s, ?to_Cp, ?to_tc, ?to_my, ?si_BARE;
  rewrite ?inv_rho, ?inv_v, ?user_one;
  repeat rewrite si_user; cbn [bind].

Ltac leaf :=
  rewrite ?from_p, ?from_T, ?from_h, ?from_v, ?from_s, ?from_u, ?from_Cp, ?from_Cv, ?from_w,
    ?from_tc, ?from_st, ?from_my, ?user_BARE, ?user_one; cbn [map_res]; rewrite ?user_one; try reflexivity.

Ltac go :=
  conv;
  lazymatch goal with
  | |- bind (map_res _ ?e) _ = map_res _ (bind ?e _) =>
      let E := fresh in destruct e eqn:E; cbn [bind map_res]; [go | try reflexivity]
  | |- bind ?e _ = map_res _ (bind ?e _) =>
      destruct e; cbn [bind map_res]; [go | try reflexivity]
  | |- (let '(_, _) := ?x in _) = _ => destruct x; go
  | |- (if ?c then _ else _) = map_res _ (if ?c then _ else _) => destruct c; go
  | |- map_res _ _ = map_res _ _ => reflexivity
  | |- _ => leaf
  end.

Definition cov1 (f : unit_system -> num -> res num) qa qr : Prop :=
  forall us a, f us (user us qa a) = map_res (user us qr) (f BARE a).
Definition cov2 (f : unit_system -> num -> num -> res num) qa qb qr : Prop :=
  forall us a b, f us (user us qa a) (user us qb b) = map_res (user us qr) (f BARE a b).

(** Functions that call no other API function. *)
Ltac base f := intros us a; try (intros b); unfold f; cbv zeta; go.

Lemma cov_tsat_p : cov1 tsat_p Qp QT. Proof. base (@tsat_p). Qed.
Lemma cov_psat_t : cov1 psat_t QT Qp. Proof. base (@psat_t). Qed.
Lemma cov_v_ph : cov2 v_ph Qp Qh Qv. Proof. base (@v_ph). Qed.
Lemma cov_t_ph : cov2 t_ph Qp Qh QT. Proof. base (@t_ph). Qed.
Lemma cov_p_hs : cov2 p_hs Qh Qs Qp. Proof. base (@p_hs). Qed.
Lemma cov_h_ps : cov2 h_ps Qp Qs Qh. Proof. base (@h_ps). Qed.
Lemma cov_my_ph : cov2 my_ph Qp Qh Qmy. Proof. base (@my_ph). Qed.
Lemma cov_Cp_pt : cov2 Cp_pt Qp QT QCp. Proof. base (@Cp_pt). Qed.
Lemma cov_Cp_ph : cov2 Cp_ph Qp Qh QCp. Proof. base (@Cp_ph). Qed.
Lemma cov_my_pt : cov2 my_pt Qp QT Qmy. Proof. base (@my_pt). Qed.
Lemma cov_v_pt : cov2 v_pt Qp QT Qv. Proof. base (@v_pt). Qed.
Lemma cov_v_ps : cov2 v_ps Qp Qs Qv. Proof. base (@v_ps). Qed.
Lemma cov_vL_p : cov1 vL_p Qp Qv. Proof. base (@vL_p). Qed.
Lemma cov_vV_p : cov1 vV_p Qp Qv. Proof. base (@vV_p). Qed.
Lemma cov_vL_t : cov1 vL_t QT Qv. Proof. base (@vL_t). Qed.
Lemma cov_vV_t : cov1 vV_t QT Qv. Proof. base (@vV_t). Qed.

Ltac lookup :=
  rewrite ?cov_tsat_p, ?cov_psat_t, ?cov_v_ph, ?cov_t_ph, ?cov_p_hs, ?cov_h_ps, ?cov_my_ph,
    ?cov_Cp_pt, ?cov_Cp_ph, ?cov_my_pt, ?cov_v_pt, ?cov_v_ps, ?cov_vL_p, ?cov_vV_p, ?cov_vL_t,
    ?cov_vV_t.
Ltac go2 :=
  lookup; conv;
  lazymatch goal with
  | |- bind (map_res _ ?e) _ = map_res _ (bind ?e _) =>
      let E := fresh in destruct e eqn:E; cbn [bind map_res]; [go2 | reflexivity]
  | |- bind ?e _ = map_res _ (bind ?e _) =>
      destruct e; cbn [bind map_res]; [go2 | reflexivity]
  | |- (if ?c then _ else _) = map_res _ (if ?c then _ else _) => destruct c; go2
  | |- map_res _ _ = map_res _ _ => reflexivity
  | |- _ => leaf
  end.
Ltac derived f := intros us a; try (intros b); unfold f; cbv zeta; go2.

Lemma cov_tc_pt : cov2 tc_pt Qp QT Qtc. Proof. derived (@tc_pt). Qed.
Lemma cov_tc_ph : cov2 tc_ph Qp Qh Qtc. Proof. derived (@tc_ph). Qed.

Ltac lookup2 := lookup; rewrite ?cov_tc_pt, ?cov_tc_ph.
Ltac go3 :=
  lookup2; conv;
  lazymatch goal with
  | |- bind (map_res _ ?e) _ = map_res _ (bind ?e _) =>
      let E := fresh in destruct e eqn:E; cbn [bind map_res]; [go3 | reflexivity]
  | |- bind ?e _ = map_res _ (bind ?e _) =>
      destruct e; cbn [bind map_res]; [go3 | reflexivity]
  | |- (let '(_, _) := ?x in _) = _ => destruct x; go3
  | |- (if ?c then _ else _) = map_res _ (if ?c then _ else _) => destruct c; go3
  | |- map_res _ _ = map_res _ _ => reflexivity
  | |- ?e = map_res (user _ Qone) ?e =>
      destruct e; cbn [map_res]; rewrite ?user_one; reflexivity
  | |- _ => leaf
  end.

Lemma cov_fn1 f : cov1 (run1 f) (fst (sig1 f)) (snd (sig1 f)).
Proof.
  destruct f; intros us a; cbn [run1 sig1 fst snd];
  (first [ apply cov_tsat_p | apply cov_psat_t | apply cov_vL_p | apply cov_vV_p
         | apply cov_vL_t | apply cov_vV_t
         | lazymatch goal with |- ?g RNum F us _ = _ => unfold g, toSIunit_x, fromSIunit_x, fromSIunit_vx; cbv zeta; first [solve [go] | go3]
           | |- ?g RNum us _ = _ => unfold g, toSIunit_x, fromSIunit_x, fromSIunit_vx; cbv zeta; first [solve [go] | go3] end ]).
Qed.

Lemma cov_fn2 f : f <> F_p_hrho ->
  cov2 (run2 f) (fst (fst (sig2 f))) (snd (fst (sig2 f))) (snd (sig2 f)).
Proof.
  intros Hf; destruct f; try congruence; clear Hf; intros us a b; cbn [run2 sig2 fst snd];
  (first [ apply cov_v_ph | apply cov_t_ph | apply cov_p_hs | apply cov_h_ps | apply cov_my_ph
         | apply cov_Cp_pt | apply cov_Cp_ph | apply cov_my_pt | apply cov_v_pt | apply cov_v_ps
         | apply cov_tc_pt | apply cov_tc_ph
         | lazymatch goal with |- ?g RNum F us _ _ = _ => unfold g, toSIunit_x, fromSIunit_x, fromSIunit_vx; cbv zeta; first [solve [go] | go3]
           | |- ?g RNum us _ _ = _ => unfold g, toSIunit_x, fromSIunit_x, fromSIunit_vx; cbv zeta; first [solve [go] | go3] end ]).
Qed.

Lemma cov_fn0 f us : f <> F_criticalDensity ->
  run0 f us = map_res (user us (sig0 f)) (run0 f BARE).
Proof.
  intros Hf; destruct f; try congruence; cbn [run0 sig0];
  lazymatch goal with |- ?g RNum us = _ => unfold g end; leaf.
Qed.

Lemma cov_pmelt us t hint :
  pmelt_t us (user us QT t) hint = map_res (user us Qp) (pmelt_t BARE t hint).
Proof. unfold pmelt_t; cbv zeta; go3. Qed.
End Cov.
