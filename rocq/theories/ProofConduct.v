(** Thermal conductivity through the API. *)
From Coq Require Import ZArith Reals Lra Lia List Bool.
From Interval Require Import Tactic.
From Verif Require Import Py ExactReal ModState ModConstants ModUnits ModRegion1 ModRegion2 ModRegion3 ModRegion4
  ModRegion5 ModSelect ModTransport ModXSteam SpecUnits SpecApi SpecHW SpecTransport SpecThermo ProofUnits ProofCovariance RealSum
  ProofEos ProofSatApi ProofThermoApi ProofThermo ProofHW ProofIce ProofGeneric ProofExamples ProofTransport.
Import ListNotations.
Open Scope R_scope.
Local Notation sqrt := R_sqrt.sqrt.

Section Any.
Context {N : Num}.
Open Scope num_scope.
Definition ctail (T rho : num) : res num :=
      let* T := div T #647.26 in
      let* rho := div rho #317.7 in
      let* q3 := powf T #0.5 in
      let* q4 := powz T 2 in
      let* q5 := powz T 3 in
      let tc0 := (q3 * (#0.0102811 + #0.0299621 * T + #0.0156146 * q4 - #0.00422464 * q5))%num in
      let* q6 := powz (rho + #2.392190) 2 in
      let* q7 := exp (#(-0.171587) * q6) in
      let tc1 := (#(-0.397070) + #0.400302 * rho + #1.06 * q7)%num in
      let dT := (fabs (T - #1) + #0.00308976)%num in
      let* q8 := div #3 #5 in
      let* q9 := powf dT q8 in
      let* q10 := div #0.0822994 q9 in
      let Q := (#2 + q10)%num in
      let* s :=
          if (T >=? #1)%num then
            div #1 dT
          else
            let* q12 := div #3 #5 in
            let* q13 := powf dT q12 in
            div #10.0932 q13 in
      let* q15 := powz T 10 in
      let* q16 := div #0.0701309 q15 in
      let* q17 := div #9 #5 in
      let* q18 := powf rho q17 in
      let* q19 := div #14 #5 in
      let* q20 := powf rho q19 in
      let* q21 := exp (#0.642857 * (#1 - q20)) in
      let* q22 := powf rho Q in
      let* q23 := div Q (#1 + Q) in
      let* q24 := powf rho (#1 + Q) in
      let* q25 := exp (q23 * (#1 - q24)) in
      let* q26 := div #3 #2 in
      let* q27 := powf T q26 in
      let* q28 := powz rho 5 in
      let* q29 := div #6.17937 q28 in
      let* q30 := exp (#(-4.11717) * q27 - q29) in
      let tc2 := ((q16 + #0.0118520) * q18 * q21 + #0.00169937 * s * q22 * q25 - #1.02 * q30)%num in
      Ok (tc0 + tc1 + tc2).
End Any.

Lemma xpowf_pos a b : 0 < a -> xpowf (Fin a) (Fin b) = Ok (Fin (Rpower a b)).
Proof. exact (powf_Fin a b). Qed.

Lemma tc_ptrho_in p T rho : cond_range p T -> tc_ptrho (Fin p) (Fin T) rho = ctail (Fin T) rho.
Proof.
  intros [H0 H]. unfold tc_ptrho. cbn [ltb leb RNum lit cmp add lift2]. rewrite Rltb_false by known.
  repeat cases1; cbn [bind]; try reflexivity; exfalso; revert dependent T; undec; intros; lra.
Qed.
Lemma tc_ptrho_out p T rho : ~ cond_range p T -> tc_ptrho (Fin p) (Fin T) rho = Ok NaN.
Proof.
  intros H. unfold tc_ptrho. cbn [ltb leb RNum lit cmp add lift2].
  repeat cases1; cbn [bind]; try reflexivity; exfalso; apply H; unfold cond_range; clear H;
  revert dependent T; undec; intros; lra.
Qed.
Lemma dT_pos t : 0 < cond_dT t.
Proof. unfold cond_dT. pose proof (Rabs_pos (t - 1)). lra. Qed.
Lemma Q_pos t : 2 < cond_Q t.
Proof.
  unfold cond_Q. assert (0 < Rpower (cond_dT t) (3 / 5)) by (unfold Rpower; apply exp_pos).
  assert (0 < 0.0822994 / Rpower (cond_dT t) (3 / 5)) by (apply Rdiv_lt_0_compat; lra). lra.
Qed.
Lemma ctail_num T rho : 0 < T -> 0 < rho ->
  exists k, ctail (Fin T) (Fin rho) = Ok (Fin k) /\ is_conductivity rho T k.
Proof.
  intros HT Hr. unfold ctail, is_conductivity. cbv zeta. hred.
  rewrite (xdiv_Fin T) by known. hred. rewrite (xdiv_Fin rho) by known. hred.
  assert (Er : rho / D 317.7%dec = rho / 317.7) by (undec; lra).
  assert (Et : T / D 647.26%dec = T / 647.26) by (undec; lra).
  rewrite Er, Et. clear Er Et.
  assert (Pt : 0 < T / 647.26) by (apply Rdiv_lt_0_compat; lra).
  assert (Pr : 0 < rho / 317.7) by (apply Rdiv_lt_0_compat; lra).
  set (t := T / 647.26) in *. set (r := rho / 317.7) in *. clearbody t r. clear T rho HT Hr.
  assert (N1 : t <> 0) by lra. assert (N2 : r <> 0) by lra.
  assert (EdT : Rabs (t - D 1%dec) + D 0.00308976%dec = cond_dT t).
  { unfold cond_dT. change (D 1%dec) with 1. replace (D 0.00308976%dec) with 0.00308976 by (undec; lra). reflexivity. }
  assert (E35 : D 3%dec / D 5%dec = 3 / 5) by (undec; lra).
  assert (E95 : D 9%dec / D 5%dec = 9 / 5) by (undec; lra).
  assert (E14 : D 14%dec / D 5%dec = 14 / 5) by (undec; lra).
  assert (E32 : D 3%dec / D 2%dec = 3 / 2) by (undec; lra).
  pose proof (dT_pos t) as PdT. pose proof (Q_pos t) as PQ.
  assert (PdR : Rpower (cond_dT t) (3 / 5) <> 0) by (apply Rgt_not_eq; unfold Rpower; apply exp_pos).
  assert (EQ : D 2%dec + D 0.0822994%dec / Rpower (cond_dT t) (3 / 5) = cond_Q t).
  { unfold cond_Q. replace (D 0.0822994%dec) with 0.0822994 by (undec; lra). reflexivity. }
  change (xpowf (Fin t) (Fin (D 0.5%dec))) with (powf (Num := RNum) (Fin t) (lit 0.5%dec)).
  rewrite powf_half by lra. cbn [leb ltb RNum cmp].
  rewrite !(xdiv_Fin (D 3%dec)) by known. rewrite (xdiv_Fin (D 9%dec)), (xdiv_Fin (D 14%dec)) by known. hred.
  rewrite EdT, E35, E95, E14, E32. rewrite !(xpowf_pos (cond_dT t)), !(xpowf_pos t), !(xpowf_pos r) by assumption. hred.
  rewrite (xdiv_Fin (D 0.0822994%dec)) by exact PdR. hred.
  rewrite EQ. rewrite !(xpowf_pos r) by assumption. hred. rewrite (xdiv_Fin (cond_Q t)) by (change (D 1%dec) with 1; lra). hev.
  replace (D 1%dec) with 1 by reflexivity.
  assert (E10 : D 10.0932%dec / Rpower (cond_dT t) (3 / 5) = 10.0932 / Rpower (cond_dT t) (3 / 5)).
  { replace (D 10.0932%dec) with 10.0932 by (undec; lra). reflexivity. }
  rewrite E10. clear E10 E35 E95 E14 E32 EQ EdT.
  unfold cond_0, cond_1, cond_2. cbv zeta.
  assert (X1 : D (-0.171587)%dec * (r + D 2.392190%dec) ^ Pos.to_nat 2 = -0.171587 * (r + 2.39219) ^ 2) by (lits; field).
  assert (X2 : forall x, D 0.642857%dec * x = 0.642857 * x) by (intros x; lits; field).
  assert (X3 : forall x, D (-4.11717)%dec * x - D 6.17937%dec / r ^ Pos.to_nat 5 = -4.11717 * x - 6.17937 / r ^ 5)
    by (intros x; lits; field; exact N2).
  destruct (Rleb_spec 1 t) as [L|L]; hred.
  all: eexists; split; [reflexivity|].
  1: exists (1 / cond_dT t); split; [now left|].
  2: exists (10.0932 / Rpower (cond_dT t) (3 / 5)); split; [right; split; [lra | reflexivity]|].
  all: generalize (1 / cond_dT t) (10.0932 / Rpower (cond_dT t) (3 / 5)); intros s1 s2.
  all: rewrite X1, X2, X3.
  all: generalize (Rtrigo_def.exp (-0.171587 * (r + 2.39219) ^ 2)). all: intros x1.
  all: generalize (Rtrigo_def.exp (0.642857 * (1 - Rpower r (14 / 5)))). all: intros x2.
  all: generalize (Rtrigo_def.exp (-4.11717 * Rpower t (3 / 2) - 6.17937 / r ^ 5)). all: intros x3.
  all: generalize (Rtrigo_def.exp (cond_Q t / (1 + cond_Q t) * (1 - Rpower r (1 + cond_Q t)))). all: intros x4.
  all: generalize (Rpower r (cond_Q t)) (Rpower r (9 / 5)). all: intros x5 x6; lits; field; exact N1.
Qed.
Lemma bind_inv {A B} (r : res A) (f : A -> res B) b : bind r f = Ok b -> exists a, r = Ok a /\ f a = Ok b.
Proof. destruct r as [a|]; [intros H; exists a; auto | discriminate]. Qed.
Lemma ninth_fifth : Reqb (D 9%dec / D 5%dec) (IZR (Int_part (D 9%dec / D 5%dec))) = false.
Proof.
  apply Reqb_false. intros E. set (z := Int_part _) in *. clearbody z. revert E. undec. intros E.
  assert (E2 : 9 = IZR (5 * z)) by (rewrite mult_IZR; lra). apply eq_IZR in E2. lia.
Qed.
Lemma lift2_N f x : lift2 f x NaN = NaN.
Proof. now destruct x. Qed.
(** A result is a number only for a positive density. *)
Lemma ctail_fin T rho k : ctail T rho = Ok (Fin k) -> exists t r, T = Fin t /\ rho = Fin r /\ 0 < r.
Proof.
  intros H. unfold ctail in H.
  apply bind_inv in H. destruct H as (t & Et & H). apply bind_inv in H. destruct H as (r & Er & H).
  apply bind_inv in H. destruct H as (q3 & E3 & H). apply bind_inv in H. destruct H as (q4 & E4 & H).
  apply bind_inv in H. destruct H as (q5 & E5 & H). apply bind_inv in H. destruct H as (q6 & E6 & H).
  apply bind_inv in H. destruct H as (q7 & E7 & H). apply bind_inv in H. destruct H as (q8 & E8 & H).
  apply bind_inv in H. destruct H as (q9 & E9 & H). apply bind_inv in H. destruct H as (q10 & E10 & H).
  apply bind_inv in H. destruct H as (s & Es & H). apply bind_inv in H. destruct H as (q15 & E15 & H).
  apply bind_inv in H. destruct H as (q16 & E16 & H). apply bind_inv in H. destruct H as (q17 & E17 & H).
  apply bind_inv in H. destruct H as (q18 & E18 & H). apply bind_inv in H. destruct H as (q19 & E19 & H).
  apply bind_inv in H. destruct H as (q20 & E20 & H). apply bind_inv in H. destruct H as (q21 & E21 & H).
  apply bind_inv in H. destruct H as (q22 & E22 & H). apply bind_inv in H. destruct H as (q23 & E23 & H).
  apply bind_inv in H. destruct H as (q24 & E24 & H). apply bind_inv in H. destruct H as (q25 & E25 & H).
  apply bind_inv in H. destruct H as (q26 & E26 & H). apply bind_inv in H. destruct H as (q27 & E27 & H).
  apply bind_inv in H. destruct H as (q28 & E28 & H). apply bind_inv in H. destruct H as (q29 & E29 & H).
  apply bind_inv in H. destruct H as (q30 & E30 & H).
  cbn [div RNum lit] in Et, Er. unfold xdiv in Et, Er. rewrite Reqb_false in Et, Er by known.
  injection Et as <-. injection Er as <-.
  cbn [add sub mul RNum lit] in H.
  destruct T as [t|].
  2: { exfalso. cbn [powf RNum lit lift2] in E3. rewrite xpowf_N in E3 by known. injection E3 as <-. discriminate H. }
  destruct rho as [r|].
  2: { exfalso. cbn in E28. injection E28 as <-. cbn in E29. injection E29 as <-.
       cbn [exp RNum xexp sub lift2 mul lit] in E30.
       rewrite lift2_N in E30. injection E30 as <-. rewrite !lift2_N in H. discriminate H. }
  exists t, r. split; [reflexivity|]. split; [reflexivity|].
  destruct (Rtotal_order r 0) as [L|[L|L]]; [exfalso|exfalso|exact L].
  - cbn [div RNum lit] in E17. rewrite xdiv_Fin in E17 by known. injection E17 as <-.
    cbn [powf RNum lift2] in E18. unfold xpowf in E18.
    assert (Lr : r / D 317.7%dec < 0) by (undec; lra).
    rewrite Rltb_false in E18 by lra. rewrite (Reqb_false _ 0) in E18 by known.
    rewrite (Reqb_false _ 0) in E18 by lra. rewrite ninth_fifth in E18. discriminate E18.
  - subst r. cbn [powz RNum lift2] in E28. rewrite xpowz_nn in E28 by lia. injection E28 as <-.
    cbn [div RNum lit] in E29. unfold xdiv in E29. rewrite Reqb_true in E29; [discriminate E29|].
    unfold Rdiv. rewrite Rmult_0_l. ring.
Qed.
Lemma classic_range p T : cond_range p T \/ ~ cond_range p T.
Proof.
  unfold cond_range. destruct (Rle_lt_dec 273.15 T), (Rlt_le_dec T 773.15), (Rle_lt_dec T 923.15), (Rle_lt_dec p 100),
    (Rle_lt_dec p 70), (Rle_lt_dec p 40); (left; lra) || (right; lra).
Qed.
(** ** Positive *)
Lemma cond_0_pos t : 0.42 <= t <= 4 -> 0.016 <= cond_0 t.
Proof. intros H. unfold cond_0. interval with (i_bisect t, i_depth 14, i_prec 40). Qed.
Lemma cond_1_low r : 0 <= r <= 0.9 -> -0.001 <= cond_1 r.
Proof. intros H. unfold cond_1. interval with (i_bisect r, i_depth 14, i_taylor r, i_prec 40). Qed.
Lemma cond_1_high r : 0.9 <= r <= 2 -> 0 <= cond_1 r - 1.02 * Rtrigo_def.exp (-1.119 - 6.17937 / r ^ 5).
Proof. intros H. unfold cond_1. interval with (i_bisect r, i_depth 14, i_prec 40). Qed.
Lemma cond_1_far r : 2 <= r -> 0.4 <= cond_1 r.
Proof. intros H. unfold cond_1. pose proof (exp_pos (-0.171587 * (r + 2.39219) ^ 2)). lra. Qed.
Lemma rp42 : 0.272 <= Rpower 0.42 (3 / 2).
Proof. unfold Rpower. interval with (i_prec 60). Qed.
Lemma neg_term t r : 0.42 <= t -> 0 < r ->
  Rtrigo_def.exp (-4.11717 * Rpower t (3 / 2) - 6.17937 / r ^ 5) <= Rtrigo_def.exp (-1.119 - 6.17937 / r ^ 5).
Proof.
  intros Ht Hr.
  assert (A : 0.272 <= Rpower t (3 / 2)).
  { apply Rle_trans with (Rpower 0.42 (3 / 2)); [exact rp42|]. apply Rle_Rpower_l; lra. }
  assert (B : -4.11717 * Rpower t (3 / 2) - 6.17937 / r ^ 5 <= -1.119 - 6.17937 / r ^ 5) by lra.
  destruct (Rle_lt_or_eq_dec _ _ B) as [C|C]; [left; now apply exp_increasing | right; now rewrite C].
Qed.
Lemma exp_mono_le a b : a <= b -> Rtrigo_def.exp a <= Rtrigo_def.exp b.
Proof. intros [C|C]; [left; now apply exp_increasing | right; now rewrite C]. Qed.
Lemma low_sum r : 0 < r -> -0.002 <= cond_1 r - 1.02 * Rtrigo_def.exp (-1.119 - 6.17937 / r ^ 5).
Proof.
  intros H. assert (P : 0 < r ^ 5) by now apply pow_lt.
  destruct (Rle_lt_dec r 0.9) as [L|L]; [|destruct (Rle_lt_dec r 2) as [M|M]].
  - pose proof (cond_1_low r ltac:(lra)).
    assert (Q : r ^ 5 <= 0.591) by (apply Rle_trans with (0.9 ^ 5); [apply pow_incr; lra | lra]).
    assert (10.4 <= 6.17937 / r ^ 5).
    { apply Rle_trans with (6.17937 / 0.591); [lra|]. unfold Rdiv. apply Rmult_le_compat_l; [lra|].
      apply Rinv_le_contravar; lra. }
    pose proof (exp_mono_le (-1.119 - 6.17937 / r ^ 5) (-11.5) ltac:(lra)).
    assert (Rtrigo_def.exp (-11.5) <= 0.00002) by interval. lra.
  - pose proof (cond_1_high r ltac:(lra)). lra.
  - pose proof (cond_1_far r ltac:(lra)).
    assert (0 < 6.17937 / r ^ 5) by (apply Rdiv_lt_0_compat; lra).
    pose proof (exp_mono_le (-1.119 - 6.17937 / r ^ 5) (-1.119) ltac:(lra)).
    assert (Rtrigo_def.exp (-1.119) <= 0.35) by interval. lra.
Qed.
Lemma conductivity_pos rho T k : 273.15 <= T <= 2500 -> 0 < rho -> is_conductivity rho T k -> 0 < k.
Proof.
  intros HT Hr (s & Hs & ->). set (t := T / 647.26) in *. set (r := rho / 317.7) in *.
  assert (Ht : 0.42 <= t <= 4) by (unfold t; lra).
  assert (Pr : 0 < r) by (unfold r; lra).
  pose proof (cond_0_pos t Ht). pose proof (low_sum r Pr). pose proof (neg_term t r ltac:(lra) Pr).
  unfold cond_2. cbv zeta.
  assert (Ps : 0 < s).
  { pose proof (dT_pos t). destruct Hs as [[_ ->]|[_ ->]]; apply Rdiv_lt_0_compat; try lra.
    unfold Rpower; apply exp_pos. }
  assert (RP : forall x y, 0 < Rpower x y) by (intros; unfold Rpower; apply exp_pos).
  assert (A : 0 < (0.0701309 / t ^ 10 + 0.011852) * Rpower r (9 / 5) * Rtrigo_def.exp (0.642857 * (1 - Rpower r (14 / 5)))).
  { assert (0 < t ^ 10) by (apply pow_lt; lra). assert (0 < 0.0701309 / t ^ 10) by (apply Rdiv_lt_0_compat; lra).
    apply Rmult_lt_0_compat; [apply Rmult_lt_0_compat; [lra | apply RP] | apply exp_pos]. }
  assert (B : 0 < 0.00169937 * s * Rpower r (cond_Q t) *
     Rtrigo_def.exp (cond_Q t / (1 + cond_Q t) * (1 - Rpower r (1 + cond_Q t)))).
  { apply Rmult_lt_0_compat; [|apply exp_pos]. apply Rmult_lt_0_compat; [|apply RP].
    apply Rmult_lt_0_compat; [lra | exact Ps]. }
  lra.
Qed.

Lemma tc_ptrho_fin p T rho k : tc_ptrho (Fin p) T rho = Ok (Fin k) <->
  exists t r, T = Fin t /\ rho = Fin r /\ 0 < r /\ cond_range p t /\ is_conductivity r t k.
Proof.
  split.
  - intros H. destruct T as [t|].
    + destruct (classic_range p t) as [C|C].
      * rewrite tc_ptrho_in in H by exact C. destruct (ctail_fin _ _ _ H) as (t' & r & [= <-] & -> & Pr).
        destruct (ctail_num t r ltac:(destruct C; lra) Pr) as (k' & E & Hk). rewrite E in H. injection H as <-.
        exists t, r. auto.
      * rewrite tc_ptrho_out in H by exact C. discriminate H.
    + exfalso. assert (K : ctail NaN rho = Ok (Fin k)).
      { revert H. unfold tc_ptrho. cbn [ltb leb RNum lit cmp add lift2]. destruct (Rltb _ _); cbn [bind]; [discriminate|]. tauto. }
      destruct (ctail_fin _ _ _ K) as (t' & r & [=] & _).
  - intros (t & r & -> & -> & Pr & C & Hk). rewrite tc_ptrho_in by exact C.
    destruct (ctail_num t r ltac:(destruct C; lra) Pr) as (k' & E & Hk'). rewrite E.
    do 2 f_equal. destruct Hk as (s & Hs & ->), Hk' as (s' & Hs' & ->).
    replace s' with s; [reflexivity|]. destruct Hs as [[A1 ->]|[A1 ->]], Hs' as [[A2 ->]|[A2 ->]]; try reflexivity; lra.
Qed.

Section Api.
Context {F : Fuel}.
Lemma tc_pt_shape p T : tc_pt BARE (Fin p) (Fin T) = let* rho := rho_pt BARE (Fin p) (Fin T) in tc_ptrho (Fin p) (Fin T) rho.
Proof.
  unfold tc_pt, rho_pt. destruct (v_pt (N := RNum) BARE (Fin p) (Fin T)) as [v|]; cbn [bind]; [|reflexivity].
  bare. destruct (div _ v); cbn [bind]; [|reflexivity]. destruct (tc_ptrho _ _ _); cbn [bind]; [|reflexivity]. now bare.
Qed.
Lemma tc_ph_shape p h k : tc_ph BARE (Fin p) (Fin h) = Ok k <->
  exists rho T, rho_ph BARE (Fin p) (Fin h) = Ok rho /\ t_ph BARE (Fin p) (Fin h) = Ok T /\ tc_ptrho (Fin p) T rho = Ok k.
Proof.
  unfold tc_ph, rho_ph. destruct (v_ph (N := RNum) BARE (Fin p) (Fin h)) as [v|]; cbn [bind]; [|split; [discriminate | now intros (? & ? & ? & _)]].
  destruct (t_ph (N := RNum) BARE (Fin p) (Fin h)) as [T|]; cbn [bind]; [|split; [discriminate | now intros (? & ? & _ & ? & _)]].
  bare. destruct (div _ v) as [rho|]; cbn [bind]; [|split; [discriminate | now intros (? & ? & ? & _)]].
  split.
  - destruct (tc_ptrho _ T rho) as [x|] eqn:E; cbn [bind]; [|discriminate]. bare. intros [= ->]. exists rho, T. auto.
  - intros (? & ? & [= <-] & [= <-] & ->). cbn [bind]. now bare.
Qed.
Lemma tc_pt_bare p T k : tc_pt BARE (Fin p) (Fin T) = Ok (Fin k) <->
  exists rho, rho_pt BARE (Fin p) (Fin T) = Ok (Fin rho) /\ 0 < rho /\ cond_range p T /\ is_conductivity rho T k.
Proof.
  rewrite tc_pt_shape. split.
  - intros H. apply bind_inv in H. destruct H as (rho & E & H). apply tc_ptrho_fin in H.
    destruct H as (t & r & [= <-] & -> & H). exists r. auto.
  - intros (rho & -> & H). cbn [bind]. apply tc_ptrho_fin. exists T, rho. auto.
Qed.
Lemma tc_ph_bare p h k : tc_ph BARE (Fin p) (Fin h) = Ok (Fin k) <->
  exists rho T, rho_ph BARE (Fin p) (Fin h) = Ok (Fin rho) /\ t_ph BARE (Fin p) (Fin h) = Ok (Fin T) /\
    0 < rho /\ cond_range p T /\ is_conductivity rho T k.
Proof.
  rewrite tc_ph_shape. split.
  - intros (rho & T & E1 & E2 & H). apply tc_ptrho_fin in H.
    destruct H as (t & r & -> & -> & H). exists r, t. auto.
  - intros (rho & T & E1 & E2 & H). exists (Fin rho), (Fin T). repeat split; auto. apply tc_ptrho_fin. exists T, rho. auto.
Qed.
Lemma rho_scale us rho : 0 < to_si us Qrho rho <-> 0 < rho.
Proof. unfold to_si. destruct us; cbn [origin factor shift]; lra. Qed.
Lemma tc_scale us k : 0 < to_si us Qtc k <-> 0 < k.
Proof. unfold to_si. destruct us; cbn [origin factor shift]; lra. Qed.
Lemma tc_pt_any us p t k : tc_pt us (Fin p) (Fin t) = Ok (Fin k) <->
  exists rho, rho_pt us (Fin p) (Fin t) = Ok (Fin rho) /\ 0 < rho /\ cond_range (to_si us Qp p) (to_si us QT t) /\
    is_conductivity (to_si us Qrho rho) (to_si us QT t) (to_si us Qtc k).
Proof.
  pose proof (fun z => at_units F_tc_pt us p t z ltac:(discriminate)) as A.
  pose proof (fun z => at_units F_rho_pt us p t z ltac:(discriminate)) as B.
  cbn [run2 sig2 fst snd] in A, B. rewrite A, tc_pt_bare. split.
  - intros (rho & E & H & M). exists (to_user us Qrho rho). rewrite B, <- (rho_scale us), !to_si_user. tauto.
  - intros (rho & E & H & M). exists (to_si us Qrho rho). rewrite <- B, (rho_scale us). tauto.
Qed.
Lemma tc_ph_any us p h k : tc_ph us (Fin p) (Fin h) = Ok (Fin k) <->
  exists rho T, rho_ph us (Fin p) (Fin h) = Ok (Fin rho) /\ t_ph us (Fin p) (Fin h) = Ok (Fin T) /\
    0 < rho /\ cond_range (to_si us Qp p) (to_si us QT T) /\
    is_conductivity (to_si us Qrho rho) (to_si us QT T) (to_si us Qtc k).
Proof.
  pose proof (fun z => at_units F_tc_ph us p h z ltac:(discriminate)) as A.
  pose proof (fun z => at_units F_rho_ph us p h z ltac:(discriminate)) as B.
  pose proof (fun z => at_units F_t_ph us p h z ltac:(discriminate)) as C.
  cbn [run2 sig2 fst snd] in A, B, C. rewrite A, tc_ph_bare. split.
  - intros (rho & T & E & E2 & H & M). exists (to_user us Qrho rho), (to_user us QT T).
    rewrite B, C, <- (rho_scale us), !to_si_user. tauto.
  - intros (rho & T & E & E2 & H & M). exists (to_si us Qrho rho), (to_si us QT T). rewrite <- B, <- C, (rho_scale us). tauto.
Qed.
Lemma tc_pt_pos us p t k : tc_pt us (Fin p) (Fin t) = Ok (Fin k) -> 0 < k.
Proof.
  intros H. apply tc_pt_any in H. destruct H as (rho & E & Pr & C & K).
  assert (HT : to_si us QT t <= 2500).
  { pose proof (at_units F_rho_pt us p t rho ltac:(discriminate)) as B. cbn [run2 sig2 fst snd] in B.
    apply B in E. destruct (rho_pt_flows _ _ _ E) as (r & Er & Hr).
    apply region_map in Er. unfold if97_region, in_range in Er.
    destruct Hr as [-> | [-> | [-> | ->]]];
    repeat (destruct Er as [Er|Er]; [destruct Er as [Q Er]; try discriminate Q; lra|]); destruct Er as [Q Er]; try discriminate Q; lra. }
  apply (tc_scale us), (conductivity_pos (to_si us Qrho rho) (to_si us QT t)); [destruct C; lra | now apply rho_scale | exact K].
Qed.
Lemma tc_ph_pos us p h k T : tc_ph us (Fin p) (Fin h) = Ok (Fin k) -> t_ph us (Fin p) (Fin h) = Ok (Fin T) ->
  to_si us QT T <= 2500 -> 0 < k.
Proof.
  intros H ET L. apply tc_ph_any in H. destruct H as (rho & T' & E & E2 & Pr & C & K).
  rewrite ET in E2. injection E2 as <-.
  apply (tc_scale us), (conductivity_pos (to_si us Qrho rho) (to_si us QT T)); [destruct C; lra | now apply rho_scale | exact K].
Qed.
End Api.
