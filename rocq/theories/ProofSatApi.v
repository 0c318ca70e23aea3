(** The saturation functions of the API, exact arithmetic. *)
From Coq Require Import ZArith Reals Lra Lia List Bool.
From Interval Require Import Tactic.
From Verif Require Import Py ExactReal ModState ModConstants ModUnits ModBorders ModRegion1 ModRegion2
  ModRegion3 ModRegion4 ModRegion5 ModXSteam SpecUnits SpecApi ProofUnits ProofCovariance RealSum
  ProofEos ProofSat.
Import ListNotations.
Open Scope R_scope.
Local Notation sqrt := R_sqrt.sqrt.

(** ** Any unit system in terms of the default one *)
Section Via.
Context {F : Fuel}.
Lemma via1 f us y :
  run1 f us y = map_res (user us (snd (sig1 f))) (run1 f BARE (si us (fst (sig1 f)) y)).
Proof. rewrite <- (cov_fn1 f us). now rewrite user_si. Qed.
Lemma via2 f us x y : f <> F_p_hrho ->
  run2 f us x y = map_res (user us (snd (sig2 f)))
     (run2 f BARE (si us (fst (fst (sig2 f))) x) (si us (snd (fst (sig2 f))) y)).
Proof. intros H. rewrite <- (cov_fn2 f H us). now rewrite !user_si. Qed.
End Via.

(** ** Deciding comparisons *)
Ltac cmp1 :=
  match goal with
  | |- context [Rltb ?a ?b] =>
      first [rewrite (Rltb_true a b) by known | rewrite (Rltb_false a b) by known]
  | |- context [Rleb ?a ?b] =>
      first [rewrite (Rleb_true a b) by known | rewrite (Rleb_false a b) by known]
  end.
Ltac cmps :=
  cbn [ltb leb eqb RNum lit cmp]; repeat (cmp1; cbn [andb orb negb]).

(** Case analysis on every comparison; [dec] closes the impossible cases. *)
Ltac undec := unfold D in *; cbn [dec_e dec_m] in *.
Ltac cases1 :=
  match goal with
  | |- context [Rltb ?a ?b] => destruct (Rltb_spec a b)
  | |- context [Rleb ?a ?b] => destruct (Rleb_spec a b)
  | |- context [Reqb ?a ?b] => destruct (Reqb_spec a b)
  end; cbn [andb orb negb].
Ltac cases := cbn [ltb leb eqb RNum lit cmp]; repeat cases1.

(** In the default unit system the converters return their argument. *)
Ltac bare :=
  cbn [toSIunit_p toSIunit_T toSIunit_h toSIunit_s toSIunit_v toSIunit_Cp toSIunit_tc toSIunit_my
       fromSIunit_p fromSIunit_T fromSIunit_h fromSIunit_s fromSIunit_u fromSIunit_v fromSIunit_Cp
       fromSIunit_Cv fromSIunit_w fromSIunit_tc fromSIunit_my fromSIunit_st
       is_MKS is_FLS bind].

Lemma p4_273_16 : 0.000611657 < p4R 273.16.
Proof. unfold p4R, be, qA, qB, qC, th. interval with (i_prec 100). Qed.
Lemma p4_623_14 : p4R 623.14 < 16.529.
Proof. unfold p4R, be, qA, qB, qC, th. interval with (i_prec 80). Qed.

Lemma psat_bare T : 273.1 < T < 647.096 -> psat_t BARE (Fin T) = Ok (Fin (p4R T)).
Proof. intros H. unfold psat_t. bare. cmps. rewrite p4_closed by lra. bare. reflexivity. Qed.
Lemma psat_bare_out x : (forall T, x = Fin T -> ~ 273.1 < T < 647.096) -> psat_t BARE x = Ok NaN.
Proof.
  intros H. unfold psat_t. bare. destruct x as [T|]; [|reflexivity].
  specialize (H T eq_refl). cases; try reflexivity; undec; exfalso; lra.
Qed.
Lemma tsat_bare p : 0.000611657 < p < 22.06395 -> tsat_p BARE (Fin p) = Ok (Fin (T4R p)).
Proof.
  intros H. unfold tsat_p. bare. cmps.
  destruct (p4_T4 p ltac:(lra)) as (E & _). rewrite E. bare. reflexivity.
Qed.
Lemma tsat_bare_out x : (forall p, x = Fin p -> ~ 0.000611657 < p < 22.06395) -> tsat_p BARE x = Ok NaN.
Proof.
  intros H. unfold tsat_p. bare. destruct x as [p|]; [|reflexivity].
  specialize (H p eq_refl). cases; try reflexivity; undec; exfalso; lra.
Qed.

(** where the saturation temperature lies *)
Lemma T4_range p : 0.000611657 < p < 22.06395 -> 273.15 < T4R p < 647.096.
Proof.
  intros H. destruct (p4_T4 p ltac:(lra)) as (_ & R & E). pose proof p4_ends as (P1 & P2 & _).
  split; apply Rnot_le_lt; intros [L|L].
  - pose proof (p4_incr (T4R p) 273.15 ltac:(lra) L ltac:(lra)). lra.
  - rewrite L in E. lra.
  - pose proof (p4_incr 647.096 (T4R p) ltac:(lra) L ltac:(lra)). lra.
  - rewrite <- L in E. lra.
Qed.
Lemma p4_range T : 273.1 < T < 647.096 -> 0.0006089 < p4R T < 22.06401.
Proof.
  intros H. pose proof p4_ends as (_ & P2 & P3 & _).
  pose proof (p4_incr 273.1 T ltac:(lra) ltac:(lra) ltac:(lra)).
  pose proof (p4_incr T 647.096 ltac:(lra) ltac:(lra) ltac:(lra)). lra.
Qed.
Lemma p4_above T : 273 <= T <= 647.1 -> 0.000611657 < p4R T -> 273.15 < T.
Proof.
  intros H L. apply Rnot_le_lt. pose proof p4_ends as (P1 & _). intros [Q|Q].
  - pose proof (p4_incr T 273.15 ltac:(lra) Q ltac:(lra)). lra.
  - subst. lra.
Qed.

(** C23 *)
Lemma tsat_psat_bare T p : psat_t BARE (Fin T) = Ok (Fin p) -> 0.000611657 < p < 22.06395 ->
  tsat_p BARE (Fin p) = Ok (Fin T).
Proof.
  intros E H.
  assert (R : 273.1 < T < 647.096).
  { unfold psat_t in E. revert E. bare. cases; try discriminate; undec; lra. }
  rewrite psat_bare in E by easy. injection E as <-.
  rewrite tsat_bare by easy. f_equal. f_equal. apply T4_p4.
  pose proof (p4_above T ltac:(lra) ltac:(lra)). lra.
Qed.
Lemma psat_tsat_bare T p : tsat_p BARE (Fin p) = Ok (Fin T) -> psat_t BARE (Fin T) = Ok (Fin p).
Proof.
  intros E.
  assert (R : 0.000611657 < p < 22.06395).
  { unfold tsat_p in E. revert E. bare. cases; try discriminate; undec; lra. }
  rewrite tsat_bare in E by easy. injection E as <-.
  pose proof (T4_range p R). rewrite psat_bare by lra. f_equal. f_equal. apply p4_T4. lra.
Qed.

Section U.
Context {F : Fuel}.
Lemma map_ok {A B} (g : A -> B) r y : map_res g r = Ok y -> exists x, r = Ok x /\ y = g x.
Proof. destruct r as [a|e]; cbn; [intros [= <-]; eauto | discriminate]. Qed.
Lemma user_Fin us q x y : Fin y = user us q x -> x = Fin (to_si us q y).
Proof.
  destruct x as [x|]; cbn; [|discriminate]. intros [= ->]. now rewrite to_si_to_user.
Qed.

Lemma tsat_psat us t p : psat_t us (Fin t) = Ok (Fin p) -> 0.000611657 < to_si us Qp p < 22.06395 ->
  tsat_p us (Fin p) = Ok (Fin t).
Proof.
  intros E H. pose proof (via1 F_psat_t us (Fin t)) as V. cbn [run1 sig1 fst snd] in V.
  rewrite V in E. cbn [si lift1] in E. apply map_ok in E. destruct E as (x & E & Ex).
  apply user_Fin in Ex. subst x. apply tsat_psat_bare in E; [|exact H].
  pose proof (via1 F_tsat_p us (Fin p)) as W. cbn [run1 sig1 fst snd si lift1] in W.
  rewrite W, E. cbn. now rewrite to_user_to_si.
Qed.
Lemma psat_tsat us t p : tsat_p us (Fin p) = Ok (Fin t) -> psat_t us (Fin t) = Ok (Fin p).
Proof.
  intros E. pose proof (via1 F_tsat_p us (Fin p)) as V. cbn [run1 sig1 fst snd] in V.
  rewrite V in E. cbn [si lift1] in E. apply map_ok in E. destruct E as (x & E & Ex).
  apply user_Fin in Ex. subst x. apply psat_tsat_bare in E.
  pose proof (via1 F_psat_t us (Fin t)) as W. cbn [run1 sig1 fst snd si lift1] in W.
  rewrite W, E. cbn. now rewrite to_user_to_si.
Qed.
(** when they answer *)
Lemma psat_total us t : 273.1 < to_si us QT t < 647.096 ->
  psat_t us (Fin t) = Ok (Fin (to_user us Qp (p4R (to_si us QT t)))).
Proof.
  intros H. pose proof (via1 F_psat_t us (Fin t)) as V. cbn [run1 sig1 fst snd si lift1] in V.
  rewrite V, psat_bare by easy. reflexivity.
Qed.
Lemma tsat_total us p : 0.000611657 < to_si us Qp p < 22.06395 ->
  tsat_p us (Fin p) = Ok (Fin (to_user us QT (T4R (to_si us Qp p)))).
Proof.
  intros H. pose proof (via1 F_tsat_p us (Fin p)) as V. cbn [run1 sig1 fst snd si lift1] in V.
  rewrite V, tsat_bare by easy. reflexivity.
Qed.
Lemma psat_inv us t p : psat_t us (Fin t) = Ok (Fin p) ->
  273.1 < to_si us QT t < 647.096 /\ p = to_user us Qp (p4R (to_si us QT t)).
Proof.
  intros E. pose proof (via1 F_psat_t us (Fin t)) as V. cbn [run1 sig1 fst snd si lift1] in V.
  rewrite V in E. apply map_ok in E. destruct E as (x & E & Ex). apply user_Fin in Ex. subst x.
  assert (R : 273.1 < to_si us QT t < 647.096).
  { unfold psat_t in E. revert E. bare. cases; try discriminate; undec; lra. }
  split; [exact R|]. rewrite psat_bare in E by easy. injection E as E. rewrite E.
  now rewrite to_user_to_si.
Qed.
Lemma tsat_inv us p t : tsat_p us (Fin p) = Ok (Fin t) ->
  0.000611657 < to_si us Qp p < 22.06395 /\ t = to_user us QT (T4R (to_si us Qp p)).
Proof.
  intros E. pose proof (via1 F_tsat_p us (Fin p)) as V. cbn [run1 sig1 fst snd si lift1] in V.
  rewrite V in E. apply map_ok in E. destruct E as (x & E & Ex). apply user_Fin in Ex. subst x.
  assert (R : 0.000611657 < to_si us Qp p < 22.06395).
  { unfold tsat_p in E. revert E. bare. cases; try discriminate; undec; lra. }
  split; [exact R|]. rewrite tsat_bare in E by easy. injection E as E. rewrite E.
  now rewrite to_user_to_si.
Qed.

(** C24 *)
Lemma to_user_p_pos us x : 0 < x -> 0 < to_user us Qp x.
Proof.
  intros H. pose proof (factor_pos us Qp) as P.
  replace (to_user us Qp x) with (x * factor us Qp) by (unfold to_user; destruct us; cbn; field; lra).
  now apply Rmult_lt_0_compat.
Qed.
Lemma psat_mono us t1 t2 p1 p2 : psat_t us (Fin t1) = Ok (Fin p1) -> psat_t us (Fin t2) = Ok (Fin p2) ->
  t1 < t2 -> 0 < p1 < p2.
Proof.
  intros E1 E2 L. apply psat_inv in E1. apply psat_inv in E2.
  destruct E1 as [R1 ->]. destruct E2 as [R2 ->].
  apply (to_si_lt us QT) in L.
  split; [apply to_user_p_pos, p4_pos; lra|]. apply to_user_lt. apply p4_incr; lra.
Qed.
Lemma tsat_mono us p1 p2 t1 t2 : tsat_p us (Fin p1) = Ok (Fin t1) -> tsat_p us (Fin p2) = Ok (Fin t2) ->
  p1 < p2 -> t1 < t2.
Proof.
  intros E1 E2 L. apply tsat_inv in E1. apply tsat_inv in E2.
  destruct E1 as [R1 ->]. destruct E2 as [R2 ->].
  apply (to_si_lt us Qp) in L. apply to_user_lt. apply T4_incr; lra.
Qed.

(** C25 *)
Lemma reference_points :
  exists p1 p2 t3,
    psat_t BARE (Fin 273.16) = Ok (Fin p1) /\ Rabs (p1 / 0.000611657 - 1) <= 1e-7 /\
    p4_T (Fin 647.096) = Ok (Fin p2) /\ Rabs (p2 / 22.064 - 1) <= 1e-6 /\
    tsat_p BARE (Fin 0.101325) = Ok (Fin t3) /\ Rabs (t3 - 373.124) <= 0.001.
Proof.
  exists (p4R 273.16), (p4R 647.096), (T4R 0.101325).
  split; [apply psat_bare; lra|].
  split; [unfold p4R, be, qA, qB, qC, th; interval with (i_prec 100)|].
  split; [apply p4_closed; lra|].
  split; [unfold p4R, be, qA, qB, qC, th; interval with (i_prec 100)|].
  split; [apply tsat_bare; lra|].
  unfold T4R, Rpower, Tb, de, qE, qF, qG. interval with (i_prec 100).
Qed.

(** C42 *)
Lemma p4_low T : 273.16 <= T <= 623.14 -> 0.000611657 < p4R T < 16.529.
Proof.
  intros H. pose proof p4_273_16. pose proof p4_623_14.
  split.
  - destruct (Req_dec T 273.16) as [->|N]; [easy|].
    pose proof (p4_incr 273.16 T ltac:(lra) ltac:(lra) ltac:(lra)). lra.
  - destruct (Req_dec T 623.14) as [->|N]; [easy|].
    pose proof (p4_incr T 623.14 ltac:(lra) ltac:(lra) ltac:(lra)). lra.
Qed.

Lemma one_lits : D (mkdec 10 (-1)) = D (mkdec 1 0).
Proof. unfold D; cbn [dec_e dec_m]. lra. Qed.
Lemma t_by_p_bare f g T : by_pressure f = Some g -> 273.16 <= T <= 623.14 ->
  run1 f BARE (Fin T) = run1 g BARE (Fin (p4R T)).
Proof.
  intros Hf H. pose proof (p4_low T H) as P. pose proof (T4_p4 T ltac:(lra)) as [_ E].
  assert (C : p4_T (Fin T) = Ok (Fin (p4R T))) by (apply p4_closed; lra).
  destruct f; try discriminate Hf; injection Hf as <-; cbn [run1];
  (unfold hV_t, hV_p, hL_t, hL_p, rhoV_t, rhoL_t, rhoV_p, rhoL_p, vV_t, vV_p, vL_t, vL_p, sV_t, sV_p,
    sL_t, sL_p, uV_t, uV_p, uL_t, uL_p, CpV_t, CpV_p, CpL_t, CpL_p, CvV_t, CvV_p, CvL_t, CvL_p,
    wV_t, wV_p, wL_t, wL_p, st_t, st_p, tcL_t, tcL_p, tcV_t, tcV_p, psat_t, tsat_p,
    vV_t, vV_p, vL_t, vL_p);
  cbv zeta; bare; cmps; rewrite ?C; bare; cmps; rewrite ?E; bare; try reflexivity.
  all: rewrite ?one_lits.
  all: repeat match goal with |- bind ?e _ = _ => destruct e as [?|?] eqn:?; cbn [bind] end; try reflexivity.
Qed.
Lemma by_pressure_sig f g : by_pressure f = Some g ->
  sig1 f = (QT, snd (sig1 g)) /\ fst (sig1 g) = Qp.
Proof. destruct f; try discriminate; intros [= <-]; split; reflexivity. Qed.
Lemma t_by_p us f g t p : by_pressure f = Some g -> 273.16 <= to_si us QT t <= 623.14 ->
  psat_t us (Fin t) = Ok (Fin p) -> run1 f us (Fin t) = run1 g us (Fin p).
Proof.
  intros Hf H E. apply psat_inv in E. destruct E as [_ ->].
  rewrite (via1 f us), (via1 g us). destruct (by_pressure_sig f g Hf) as [-> ->]. cbn [fst snd].
  f_equal. cbn [si lift1]. rewrite to_si_to_user. now apply t_by_p_bare.
Qed.
End U.
