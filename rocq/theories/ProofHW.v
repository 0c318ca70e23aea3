(** Heavy water: closed forms, ranges, and what the wrong converters do. *)
From Coq Require Import ZArith Reals Lra Lia List Bool.
From Interval Require Import Tactic.
From Verif Require Import Py ExactReal ModState ModConstants ModUnits ModR4 ModXSteam ModXSteamHW SpecUnits
  SpecApi SpecHW ProofUnits ProofCovariance RealSum ProofEos ProofSatApi.
Import ListNotations.
Open Scope R_scope.
Local Notation sqrt := R_sqrt.sqrt.

Ltac hred := cbn [bind add sub mul neg fabs lit int div powz powf log exp Py.sqrt RNum lift1 lift2 xexp].

Lemma xsqrt_Fin a : 0 <= a -> xsqrt (Fin a) = Ok (Fin (sqrt a)).
Proof. intros H. unfold xsqrt. now rewrite Rltb_false. Qed.
Lemma xpowz_nat a n : xpowz (Fin a) (Z.of_nat n) = Ok (Fin (a ^ n)).
Proof. rewrite xpowz_nn by lia. now rewrite <- pow_powerRZ. Qed.

Lemma sumA_pos t : 0.43 <= t <= 1.21 -> 0 < 1 + 0.940695 / t + 0.578377 / t ^ 2 - 0.202044 / t ^ 3.
Proof. intros H. interval with (i_bisect t, i_depth 12). Qed.

Lemma pow_nz t n : t <> 0 -> t ^ n <> 0.
Proof. intros H. now apply pow_nonzero. Qed.
Ltac hev :=
  repeat (hred; match goal with
   | |- context [xpowz (Fin ?a) 0] => rewrite (xpowz_nn a 0) by lia
   | |- context [xpowz (Fin ?a) (Zpos ?n)] => rewrite (xpowz_nn a (Zpos n)) by lia
   | |- context [xdiv (Fin ?a) (Fin ?b)] =>
       rewrite (xdiv_Fin a b) by first [assumption | apply pow_nz; assumption | apply R1_neq_R0 | known]
   end; cbn [powerRZ]); hred.

Ltac tonat := repeat match goal with |- context [Pos.to_nat ?p] =>
    let n := eval compute in (Pos.to_nat p) in change (Pos.to_nat p) with n end.

Ltac lits := unfold D, Q2R; cbn [dec_e dec_m QArith_base.Qnum QArith_base.Qden]; tonat;
  repeat match goal with |- context [Z.pow_pos ?a ?b] =>
    let n := eval compute in (Z.pow_pos a b) in change (Z.pow_pos a b) with n end.

(** a decimal of the code as a real literal, kept as an atom by [field] *)
Lemma D_lit m e : D (mkdec m (Zneg e)) = Q2R (QArith_base.Qmake m (Z.to_pos (Z.pow_pos 10 e))).
Proof.
  unfold D, Q2R; cbn [dec_e dec_m QArith_base.Qnum QArith_base.Qden]. unfold Rdiv. do 3 f_equal.
  rewrite Z2Pos.id; [reflexivity|]. change (0 < 10 ^ Zpos e)%Z. apply Z.pow_pos_nonneg; lia.
Qed.
Lemma Q2R_neg m d : Q2R (QArith_base.Qmake (Zneg m) d) = - Q2R (QArith_base.Qmake (Zpos m) d).
Proof. unfold Q2R; cbn [QArith_base.Qnum QArith_base.Qden]. change (Zneg m) with (- Zpos m)%Z. rewrite opp_IZR. ring. Qed.
Ltac dlits :=
  repeat match goal with |- context [D (mkdec ?m (Zneg ?e))] => rewrite (D_lit m e);
    let z := eval vm_compute in (Z.to_pos (Z.pow_pos 10 e)) in change (Z.to_pos (Z.pow_pos 10 e)) with z end;
  rewrite ?Q2R_neg; repeat match goal with |- context [Q2R ?q] => generalize (Q2R q); intro end.

Lemma myHW_closed rho T : 277 <= T <= 775 ->
  myHW_rhoT_R4 (Fin rho) (Fin T) = Ok (Fin (R4_viscosity rho T)).
Proof.
  intros H. unfold myHW_rhoT_R4. cbv zeta. hred.
  rewrite (xdiv_Fin T) by known. hred. rewrite (xdiv_Fin rho) by known. hred.
  assert (Ht : 0.43 <= T / D 643.847%dec <= 1.21) by (unfold D; cbn [dec_e dec_m]; lra).
  assert (Hr : rho / D 358%dec = rho / 358) by reflexivity. rewrite Hr. clear Hr.
  assert (Et : T / D 643.847%dec = T / 643.847) by (unfold D; cbn [dec_e dec_m]; lra).
  unfold R4_viscosity. cbv zeta. rewrite Et in *.
  set (t := T / 643.847) in *. set (r := rho / 358). clearbody t r. clear H Et T rho.
  assert (P : t <> 0) by lra.
  cbn [for_each combine zrange slice firstn skipn myHW_rhoT_R4_A myHW_rhoT_R4_B Nat.sub map seq].
  repeat match goal with |- context [Z.of_nat ?n] => let z := eval compute in (Z.of_nat n) in change (Z.of_nat n) with z end.
  repeat match goal with |- context [item ?l ?i] =>
      let v := eval vm_compute in (item l i) in change (item l i) with v end.
  hev.
  assert (SA : D 0%dec + D 1.0%dec / 1 + D 0.940695%dec / t ^ Pos.to_nat 1 + D 0.578377%dec / t ^ Pos.to_nat 2
     + D (-0.202044)%dec / t ^ Pos.to_nat 3 = 1 + 0.940695 / t + 0.578377 / t ^ 2 - 0.202044 / t ^ 3).
  { lits. field. lra. }
  rewrite SA. pose proof (sumA_pos t Ht) as PA.
  rewrite xsqrt_Fin by lra. hred. rewrite xdiv_Fin by lra.
  hev.
  apply f_equal, f_equal. unfold R4_mu0, R4_mu1, R4_B, B. cbn [sumf].
  replace (D 55.2651%dec) with 55.2651 by (unfold D; cbn [dec_e dec_m]; lra).
  rewrite (Rmult_comm _ 55.2651). f_equal. f_equal. f_equal. f_equal.
  replace (D 1.0%dec) with 1 by (unfold D; cbn [dec_e dec_m]; lra). set (q := r - 1).
  replace (1 / t) with (/ t) by (field; lra).
  set (s := / t - 1). clearbody s q. tonat.
  replace (D 0.0%dec) with 0 by (unfold D; cbn [dec_e dec_m]; lra). dlits. change (D 0%dec) with 0.
  ring.
Qed.

Lemma tcHW_closed rho T : 
  tcHW_rhoT_R4 (Fin rho) (Fin T) = Ok (Fin (R4_conductivity rho T)).
Proof.
  unfold tcHW_rhoT_R4. cbv zeta. hred.
  rewrite (xdiv_Fin T) by known. hred. rewrite (xdiv_Fin rho) by known. hred.
  assert (Hr : rho / D 358%dec = rho / 358) by reflexivity. rewrite Hr. clear Hr.
  assert (Et : T / D 643.847%dec = T / 643.847) by (unfold D; cbn [dec_e dec_m]; lra).
  unfold R4_conductivity. cbv zeta. rewrite Et in *.
  set (t := T / 643.847) in *. set (r := rho / 358). clearbody t r. clear Et T rho.
  cbn [for_each combine zrange slice firstn skipn tcHW_rhoT_R4_A tcHW_rhoT_R4_B Nat.sub map seq].
  repeat match goal with |- context [Z.of_nat ?n] => let z := eval compute in (Z.of_nat n) in change (Z.of_nat n) with z end.
  repeat match goal with |- context [item ?l ?i] =>
      let v := eval vm_compute in (item l i) in change (item l i) with v end.
  assert (P1 : Rabs (t - D 1.1%dec) + D 1.1%dec <> 0).
  { pose proof (Rabs_pos (t - D 1.1%dec)). unfold D in *; cbn [dec_e dec_m] in *. lra. }
  assert (PE : forall x, D 1%dec + Rtrigo_def.exp x <> 0).
  { intros x. pose proof (exp_pos x). change (D 1%dec) with 1. lra. }
  assert (E1 : D 0.144847%dec * t + D (-5.64493)%dec * t ^ Pos.to_nat 2 = 0.144847 * t - 5.64493 * t ^ 2) by (lits; field).
  assert (E2 : D (-2.80000)%dec * (r - D 1.0%dec) ^ Pos.to_nat 2 = -2.8 * (r - 1) ^ 2) by (lits; field).
  assert (E3 : D (-17.9430)%dec * (r - D 0.125698%dec) ^ Pos.to_nat 2 = -17.943 * (r - 0.125698) ^ 2) by (lits; field).
  assert (E4 : D (-2.506)%dec * r = -2.506 * r) by (lits; field).
  assert (E5 : D (-1.0)%dec * (r / D 2.5%dec) ^ Pos.to_nat 10 = - (r / 2.5) ^ 10) by (lits; field).
  assert (E6 : t / (Rabs (t - D 1.1%dec) + D 1.1%dec) = t / (Rabs (t - 1.1) + 1.1)).
  { replace (D 1.1%dec) with 1.1 by (lits; field). reflexivity. }
  assert (E7 : forall u, D 60.0%dec * (u - D 1.0%dec) + D 20.0%dec = 60 * (u - 1) + 20) by (intros u; lits; field).
  assert (E8 : forall u, D 100.0%dec * (u - D 1.0%dec) + D 15.0%dec = 100 * (u - 1) + 15) by (intros u; lits; field).
  hred. rewrite xdiv_Fin by exact P1. rewrite E6. hev. rewrite ?E1, ?E2, ?E3, ?E4, ?E5, ?E7, ?E8.
  rewrite xdiv_Fin by apply PE. hred. rewrite xdiv_Fin by apply PE. hev.
  rewrite ?E1, ?E2, ?E3, ?E4, ?E5, ?E7, ?E8.
  match goal with |- context [xpowf (Fin ?a) (Fin ?b)] =>
    change (xpowf (Fin a) (Fin b)) with (powf (Num := RNum) (Fin a) (Fin b)); rewrite (powf_Fin a b) by apply exp_pos end.
  replace (D 1.2%dec) with 1.2 by (lits; field). hev. rewrite ?E5.
  apply f_equal, f_equal.
  set (tau := t / (Rabs (t - 1.1) + 1.1)).
  pose proof (PE (60 * (tau - 1) + 20)) as N1. pose proof (PE (100 * (tau - 1) + 15)) as N2.
  change (D 1%dec) with 1 in N1, N2.
  generalize dependent (Rtrigo_def.exp (60 * (tau - 1) + 20)). intros x1 N1.
  generalize dependent (Rtrigo_def.exp (100 * (tau - 1) + 15)). intros x2 N2.
  generalize (Rpower (Rtrigo_def.exp (0.144847 * t - 5.64493 * t ^ 2)) 1.2). intros x3.
  generalize (Rtrigo_def.exp (0.144847 * t - 5.64493 * t ^ 2)). intros x4.
  generalize (Rtrigo_def.exp (-2.8 * (r - 1) ^ 2)). intros x5.
  generalize (Rtrigo_def.exp (-17.943 * (r - 0.125698) ^ 2)). intros x6.
  generalize (Rtrigo_def.exp (-2.506 * r)). intros x7.
  generalize (Rtrigo_def.exp (- (r / 2.5) ^ 10)). intros x8.
  change (D 5000.0e6%dec) with 5000000000. tonat. replace (D 1.0%dec) with 1 by (unfold D; cbn [dec_e dec_m]; lra).
  replace (D 0%dec) with 0 by reflexivity. replace (D 0.0%dec) with 0 by (unfold D; cbn [dec_e dec_m]; lra).
  change (D 1%dec) with 1. dlits. unfold Rdiv. generalize (/ (1 + x1)) (/ (1 + x2)) 5000000000. intros. ring.
Qed.

(** ** NaN arguments *)
Ltac nan_eval :=
  cbv zeta;
  cbn [for_each combine zrange slice firstn skipn myHW_rhoT_R4_A myHW_rhoT_R4_B tcHW_rhoT_R4_A tcHW_rhoT_R4_B Nat.sub map seq];
  repeat match goal with |- context [Z.of_nat ?n] => let z := eval compute in (Z.of_nat n) in change (Z.of_nat n) with z end;
  repeat match goal with |- context [item ?l ?i] =>
      let v := eval vm_compute in (item l i) in change (item l i) with v end.

Lemma xdiv_N x : xdiv x NaN = Ok NaN. Proof. reflexivity. Qed.
Lemma xdiv_N1 b : b <> 0 -> xdiv NaN (Fin b) = Ok NaN.
Proof. intros H. unfold xdiv. now rewrite Reqb_false. Qed.
Lemma xpowz_N n : xpowz NaN (Zpos n) = Ok NaN. Proof. reflexivity. Qed.
Lemma xpowz_N0 : xpowz NaN 0 = Ok (Fin 1). Proof. reflexivity. Qed.
Lemma xpowf_N b : b <> 0 -> xpowf NaN (Fin b) = Ok NaN.
Proof. intros H. unfold xpowf. now rewrite Reqb_false. Qed.
Lemma xsqrt_N : xsqrt NaN = Ok NaN. Proof. reflexivity. Qed.
Ltac nz := first [assumption | apply pow_nz; assumption | apply R1_neq_R0 | known].
Ltac nev :=
  repeat (hred; match goal with
   | |- context [xdiv _ NaN] => rewrite xdiv_N
   | |- context [xdiv NaN (Fin ?b)] => rewrite (xdiv_N1 b) by nz
   | |- context [xpowz NaN 0] => rewrite xpowz_N0
   | |- context [xpowz NaN (Zpos ?n)] => rewrite (xpowz_N n)
   | |- context [xpowf NaN (Fin ?b)] => rewrite (xpowf_N b) by nz
   | |- context [xsqrt NaN] => rewrite xsqrt_N
   | |- context [xpowz (Fin ?a) 0] => rewrite (xpowz_nn a 0) by lia
   | |- context [xpowz (Fin ?a) (Zpos ?n)] => rewrite (xpowz_nn a (Zpos n)) by lia
   | |- context [xdiv (Fin ?a) (Fin ?b)] => rewrite (xdiv_Fin a b) by nz
   end; cbn [powerRZ]); hred.
Lemma myHW_nan_T rho : myHW_rhoT_R4 rho NaN = Ok NaN.
Proof. unfold myHW_rhoT_R4. nan_eval. destruct rho as [rho|]; nev; reflexivity. Qed.
Lemma myHW_nan_rho T : 277 <= T <= 775 -> myHW_rhoT_R4 NaN (Fin T) = Ok NaN.
Proof.
  intros H. unfold myHW_rhoT_R4. nan_eval. hred.
  rewrite (xdiv_Fin T) by known. hred.
  assert (Ht : 0.43 <= T / D 643.847%dec <= 1.21) by (unfold D; cbn [dec_e dec_m]; lra).
  set (t := T / D 643.847%dec) in *. clearbody t.
  assert (P : t <> 0) by lra. nev.
  assert (SA : D 0%dec + D 1.0%dec / 1 + D 0.940695%dec / t ^ Pos.to_nat 1 + D 0.578377%dec / t ^ Pos.to_nat 2
     + D (-0.202044)%dec / t ^ Pos.to_nat 3 = 1 + 0.940695 / t + 0.578377 / t ^ 2 - 0.202044 / t ^ 3).
  { lits. field. lra. }
  rewrite SA. pose proof (sumA_pos t Ht) as PA.
  rewrite xsqrt_Fin by lra. hred. rewrite xdiv_Fin by lra. nev. reflexivity.
Qed.
Lemma tcHW_nan_T rho : tcHW_rhoT_R4 rho NaN = Ok NaN.
Proof. unfold tcHW_rhoT_R4. nan_eval. destruct rho as [rho|]; nev; reflexivity. Qed.
Lemma tcHW_nan_rho T : tcHW_rhoT_R4 NaN (Fin T) = Ok NaN.
Proof.
  unfold tcHW_rhoT_R4. nan_eval. hred.
  rewrite (xdiv_Fin T) by known. hred.
  set (t := T / D 643.847%dec) in *. clearbody t.
  assert (P1 : Rabs (t - D 1.1%dec) + D 1.1%dec <> 0).
  { pose proof (Rabs_pos (t - D 1.1%dec)). unfold D in *; cbn [dec_e dec_m] in *. lra. }
  assert (PE : forall x, D 1%dec + Rtrigo_def.exp x <> 0).
  { intros x. pose proof (exp_pos x). change (D 1%dec) with 1. lra. }
  rewrite xdiv_Fin by exact P1. nev.
  rewrite xdiv_Fin by apply PE. hred. rewrite xdiv_N1 by apply PE. nev.
  match goal with |- context [xpowf (Fin ?a) (Fin ?b)] =>
    change (xpowf (Fin a) (Fin b)) with (powf (Num := RNum) (Fin a) (Fin b)); rewrite (powf_Fin a b) by apply exp_pos end.
  nev. reflexivity.
Qed.

(** ** The API functions *)
Lemma hw_my_in us rho T : 277 <= to_si us QT T <= 775 ->
  hw_my_rhoT us (Fin rho) (Fin T) =
    Ok (Fin (to_user us QT (R4_viscosity (to_si us Qp rho) (to_si us QT T)))).
Proof.
  intros H. unfold hw_my_rhoT. rewrite to_p, to_T. cbn [bind si lift1 ltb RNum lit cmp].
  rewrite !Rltb_false by (unfold D; cbn [dec_e dec_m]; lra). cbn [orb].
  rewrite myHW_closed by assumption. cbn [bind]. now rewrite from_T.
Qed.
Lemma hw_my_out us rho T : ~ 277 <= to_si us QT T <= 775 -> hw_my_rhoT us rho (Fin T) = Ok NaN.
Proof.
  intros H. unfold hw_my_rhoT. rewrite to_p, to_T. cbn [bind si lift1 ltb RNum lit cmp].
  destruct (Rltb_spec (to_si us QT T) (D 277.0%dec)); [reflexivity|].
  destruct (Rltb_spec (D 775.0%dec) (to_si us QT T)); [reflexivity|].
  exfalso. apply H. unfold D in *; cbn [dec_e dec_m] in *; lra.
Qed.
Lemma hw_my_nan us rho T : rho = NaN \/ T = NaN -> hw_my_rhoT us rho T = Ok NaN.
Proof.
  intros H. unfold hw_my_rhoT. rewrite to_p, to_T. cbn [bind].
  destruct T as [T|].
  - destruct H as [-> | H]; [|discriminate H]. cbn [si lift1 ltb RNum lit cmp].
    destruct (Rltb_spec (to_si us QT T) (D 277.0%dec)); [reflexivity|].
    destruct (Rltb_spec (D 775.0%dec) (to_si us QT T)); [reflexivity|]. cbn [orb].
    rewrite myHW_nan_rho by (unfold D in *; cbn [dec_e dec_m] in *; lra).
    cbn [bind]. now rewrite from_T.
  - cbn [si lift1 ltb RNum lit cmp orb]. rewrite myHW_nan_T. cbn [bind]. now rewrite from_T.
Qed.
Lemma hw_tc_in us rho T : 277 <= to_si us QT T <= 825 ->
  hw_tc_rhoT us (Fin rho) (Fin T) =
    Ok (Fin (to_user us Qtc (R4_conductivity (to_si us Qp rho) (to_si us QT T)))).
Proof.
  intros H. unfold hw_tc_rhoT. rewrite to_p, to_T. cbn [bind si lift1 ltb RNum lit cmp].
  rewrite !Rltb_false by (unfold D; cbn [dec_e dec_m]; lra). cbn [orb].
  rewrite tcHW_closed by assumption. cbn [bind]. now rewrite from_tc.
Qed.
Lemma hw_tc_out us rho T : ~ 277 <= to_si us QT T <= 825 -> hw_tc_rhoT us rho (Fin T) = Ok NaN.
Proof.
  intros H. unfold hw_tc_rhoT. rewrite to_p, to_T. cbn [bind si lift1 ltb RNum lit cmp].
  destruct (Rltb_spec (to_si us QT T) (D 277.0%dec)); [reflexivity|].
  destruct (Rltb_spec (D 825.0%dec) (to_si us QT T)); [reflexivity|].
  exfalso. apply H. unfold D in *; cbn [dec_e dec_m] in *; lra.
Qed.
Lemma hw_tc_nan us rho T : rho = NaN \/ T = NaN -> hw_tc_rhoT us rho T = Ok NaN.
Proof.
  intros H. unfold hw_tc_rhoT. rewrite to_p, to_T. cbn [bind].
  destruct T as [T|].
  - destruct H as [-> | H]; [|discriminate H]. cbn [si lift1 ltb RNum lit cmp].
    destruct (Rltb_spec (to_si us QT T) (D 277.0%dec)); [reflexivity|].
    destruct (Rltb_spec (D 825.0%dec) (to_si us QT T)); [reflexivity|]. cbn [orb].
    rewrite tcHW_nan_rho. cbn [bind]. now rewrite from_tc.
  - cbn [si lift1 ltb RNum lit cmp orb]. rewrite tcHW_nan_T. cbn [bind]. now rewrite from_tc.
Qed.

Lemma R4_viscosity_pos rho T : 277 <= T <= 775 -> 0 < R4_viscosity rho T.
Proof.
  intros H. unfold R4_viscosity, R4_mu0, R4_mu1. cbv zeta.
  assert (Ht : 0.43 <= T / 643.847 <= 1.21) by lra.
  apply Rmult_lt_0_compat; [lra|]. apply Rmult_lt_0_compat; [|apply exp_pos].
  apply Rdiv_lt_0_compat; [apply sqrt_lt_R0; lra | now apply sumA_pos].
Qed.

(** ** Covariance fails *)
Lemma critical_density_MKS :
  criticalDensity MKS = Ok (Fin 3220) /\ criticalDensity BARE = Ok (Fin 322).
Proof.
  unfold criticalDensity. rewrite !from_p. unfold CRITICAL_DENSITY, user, to_user. cbn [lift1 lit RNum origin factor shift].
  split; apply f_equal, f_equal; unfold D; cbn [dec_e dec_m]; lra.
Qed.
Lemma hw_critical_density_MKS :
  hw_criticalDensity MKS = Ok (Fin 3560) /\ hw_criticalDensity BARE = Ok (Fin 356).
Proof.
  unfold hw_criticalDensity. rewrite !from_p. unfold CRITICAL_DENSITY_D20_1992, user, to_user. cbn [lift1 lit RNum origin factor shift].
  split; apply f_equal, f_equal; unfold D; cbn [dec_e dec_m]; lra.
Qed.
(** The same state, 0 kg/m^3 at 300 K, asked in both systems. *)
Lemma hw_my_differs : exists a b,
  hw_my_rhoT BARE (Fin 0) (Fin 300) = Ok (Fin a) /\ hw_my_rhoT MKS (Fin 0) (Fin 26.85) = Ok (Fin b) /\
  b = a - 273.15.
Proof.
  eexists _, _. split; [|split].
  - apply hw_my_in. unfold to_si; cbn; lra.
  - apply hw_my_in. unfold to_si; cbn; lra.
  - unfold to_user, to_si. cbn [origin factor shift].
    replace ((26.85 - 0) / 1 + 273.15) with 300 by lra. replace ((300 - 0) / 1 + 0) with 300 by lra.
    replace ((0 - 0) / 10 + 0) with 0 by lra. replace ((0 - 0) / 1 + 0) with 0 by lra. lra.
Qed.
(** 1000 kg/m^3 at 300 K: 608 against 34. *)
Lemma hw_tc_differs : exists a b,
  hw_tc_rhoT BARE (Fin 1000) (Fin 300) = Ok (Fin a) /\ hw_tc_rhoT MKS (Fin 1000) (Fin 26.85) = Ok (Fin b) /\
  Rabs (a - b) > 100.
Proof.
  eexists _, _. split; [|split].
  - apply hw_tc_in. unfold to_si; cbn; lra.
  - apply hw_tc_in. unfold to_si; cbn; lra.
  - unfold to_user, to_si. cbn [origin factor shift].
    replace ((26.85 - 0) / 1 + 273.15) with 300 by lra. replace ((300 - 0) / 1 + 0) with 300 by lra.
    replace ((1000 - 0) / 10 + 0) with 100 by lra. replace ((1000 - 0) / 1 + 0) with 1000 by lra.
    unfold R4_conductivity. cbv zeta. interval with (i_prec 60).
Qed.
