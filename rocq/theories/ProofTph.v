(** The temperature t_ph reports is between 200 and 1150 K outside region 5. *)
From Coq Require Import ZArith Reals Lra Lia List Bool.
From Coquelicot Require Import Coquelicot.
From Interval Require Import Tactic.
From Verif Require Import Py ModState ModUnits ModRegion1 ModRegion2 ModRegion3 ModRegion4 ModRegion5 ModBorders ModSelect ModXSteam ExactReal RealSum SpecUnits SpecApi SpecThermo
  ProofUnits ProofCovariance ProofEos ProofThermo ProofThermoApi ProofSat ProofSatApi ProofMono ProofMisc ProofWet ProofWetApi BoundPh ProofReg
  Bound2 ProofAgree ProofBack ProofBackS BoundR1 ProofRound Sat3 BoundX ProofIce SpecTransport ProofTransport ProofConduct.
From Verif Require ProofLoopsApi.
Open Scope R_scope.

(** ** The border equation of region 3 never exceeds the critical pressure *)
Lemma P3_lo h : 1540 <= h <= 1700 -> P3 h < 20.
Proof. intros H. unfold P3. reals. interval with (i_prec 60, i_bisect h, i_taylor h, i_degree 8, i_depth 15). Qed.
Lemma P3_hi h : 2560 <= h <= 2880 -> P3 h < 20.
Proof. intros H. unfold P3. reals. interval with (i_prec 60, i_bisect h, i_taylor h, i_degree 8, i_depth 15). Qed.
Lemma P3_top h : 2080 <= h <= 2095 -> P3 h < 22.0645.
Proof. intros H. unfold P3. reals. interval with (i_prec 60, i_bisect h, i_taylor h, i_degree 8, i_depth 25). Qed.
Lemma P3_max h : 1540 <= h <= 2880 -> P3 h < 22.0645.
Proof.
  intros H. destruct (Rle_or_lt h 1700); [pose proof (P3_lo h); lra|]. destruct (Rle_or_lt 2560 h); [pose proof (P3_hi h); lra|].
  destruct (Rlt_or_le h 2080) as [L|L].
  - apply Rlt_trans with (P3 2080); [apply P3_rise; lra | apply P3_top; lra].
  - destruct (Rle_or_lt h 2095) as [K|K]; [apply P3_top; lra|].
    apply Rlt_trans with (P3 2095); [apply P3_fall; lra | apply P3_top; lra].
Qed.

(** ** What the answers 2, 3 and 4 of region_ph mean *)
Lemma T23_in p : 16.529 <= p <= 100 -> 623.1 <= T23 p <= 863.2.
Proof. intros H. unfold T23. split; interval with (i_prec 60). Qed.
Lemma h23_p p : 16.529 <= p <= 100 -> 2540 < h2R p (T23 p) < 2880.
Proof.
  intros H. assert (A := p23_of_T p H). assert (B := T23_in p H).
  replace p with (p23R (T23 p) + (p - p23R (T23 p))) at 1 3 by lra. apply h23_range; [|exact B].
  rewrite Rabs_minus_sym. replace (p23R (T23 p)) with (q23 (T23 p)); [exact A|]. unfold q23, p23R, ProofIce.n1, ProofIce.n2, ProofIce.n3. cbn [pow]. rewrite Rmult_1_r. generalize (T23 p * T23 p) (T23 p). intros; lra.
Qed.
Section Regions.
Context {F : Fuel}.
Lemma ph_high p h r : 16.5292 <= p <= 100 -> region_ph (Fin p) (Fin h) = Ok r -> r <> 0%Z -> r <> 1%Z ->
  (r = 2%Z /\ h2R p (T23 p) <= h < h2R p 1073.15) \/
  (r = 3%Z /\ h1R p 623.15 <= h < h2R p (T23 p)) \/
  (r = 4%Z /\ h1R p 623.15 <= h < h2R p (T23 p) /\ p <= P3 h).
Proof.
  intros Hp H N N1. destruct (ph_range p h) as [_ Hh]; [rewrite H; congruence|]. revert H.
  unfold region_ph. rewrite D_273, D_1073, D_2273. destruct (eos1 p 273.15) as (_ & Eh & _); [unfold dom1; lra|]. rewrite Eh.
  cmps. cbn [add mul RNum lit lift2 cmp]. pose proof (edge_ok p ltac:(lra)) as [E _].
  replace (if Rltb h (D 0.963%dec * p + D 2.2%dec) then _ else _) with (Ok (Proceed tt) : res (outcome Z unit)).
  2: { cbn [bind]. undec. repeat cases1; try reflexivity; exfalso; lra. }
  cbn [bind]. change (D 16.5292%dec) with 16.5292. try rewrite (Rltb_false p) by lra.
  change (D 623.15%dec) with 623.15. destruct (eos1 p 623.15) as (_ & Eb & _); [unfold dom1; lra|]. rewrite Eb.
  cbn [bind cmp]. destruct (Rltb_spec h (h1R p 623.15)) as [L'|L']; [intros [= <-]; now elim N1|].
  rewrite B23T_closed by lra. cbn [bind]. assert (B := T23_in p ltac:(lra)).
  destruct (eos2 p (T23 p)) as (_ & E2 & _); [unfold dom2; lra|]. rewrite E2. cbn [bind cmp].
  destruct (Rltb_spec h (h2R p (T23 p))) as [L2|L2].
  - rewrite p3sat_closed. cbn [bind cmp]. destruct (Rltb_spec (P3 h) p) as [L3|L3]; intros [= <-]; [right; left | right; right]; repeat split; lra.
  - destruct (eos2 p 1073.15) as (_ & Eh2 & _); [unfold dom2; lra|]. rewrite Eh2. cbn [bind cmp].
    destruct (Rltb_spec h (h2R p 1073.15)) as [L3|L3]; intros [= <-]; [|now elim N]. left. repeat split; lra.
Qed.
Lemma ph_low p h : 0.000611657 <= p < 16.5292 -> region_ph (Fin p) (Fin h) = Ok 2%Z -> ~ below p h /\ h + 4 * p <= 4190.
Proof.
  intros Hp H. destruct (ph_range p h) as [_ Hh]; [rewrite H; congruence|]. revert H.
  unfold region_ph. rewrite D_273, D_1073, D_2273. destruct (eos1 p 273.15) as (_ & Eh & _); [unfold dom1; lra|]. rewrite Eh.
  cmps. cbn [add mul RNum lit lift2 cmp]. pose proof (edge_ok p ltac:(lra)) as [E _].
  replace (if Rltb h (D 0.963%dec * p + D 2.2%dec) then _ else _) with (Ok (Proceed tt) : res (outcome Z unit)).
  2: { cbn [bind]. undec. repeat cases1; try reflexivity; exfalso; lra. }
  cbn [bind]. change (D 16.5292%dec) with 16.5292. try rewrite (Rltb_true p) by lra.
  destruct (T4_mid p) as (ET & RT & I); [lra|]. rewrite ET. cbn [bind].
  replace (log (Num := RNum) (Fin p)) with (Ok (Fin (Rpower.ln p)) : res xr) by (symmetry; apply xlog_Fin; lra).
  cbn [bind add mul sub fabs RNum lit lift1 lift2].
  destruct (eos1 p (T4R p)) as (_ & Ea & _); [unfold dom1; lra|]. rewrite Ea.
  destruct (eos2 p (T4R p)) as (_ & E2 & _); [unfold dom2; lra|]. rewrite E2.
  destruct (eos2 p 1073.15) as (_ & Eh2 & _); [unfold dom2; lra|]. rewrite Eh2.
  destruct (eos5 p 2273.15) as (_ & Eh5 & _); [unfold dom5; lra|]. rewrite Eh5.
  pose proof (h1073_range p ltac:(lra)) as X.
  cbn [bind cmp]. unfold Rabs, below. undec.
  repeat match goal with |- context [Rcase_abs ?x] => destruct (Rcase_abs x) end;
  repeat (cases1; cbn [bind cmp]); intros K; try discriminate K; (split; [intros K'|]; lra).
Qed.

(** ** The temperature *)
Lemma T2_ph_in p h : (0.000611657 <= p < 16.5292 /\ ~ below p h /\ h + 4 * p <= 4190) \/
  (16.5292 <= p <= 100 /\ h2R p (T23 p) <= h < h2R p 1073.15) -> exists T, T2_ph (Fin p) (Fin h) = Ok (Fin T) /\ 200 <= T <= 1150.
Proof.
  intros H. assert (Hp : 0.000611657 <= p <= 100) by lra. assert (A : h + 4 * p <= 4190).
  { destruct H as [H|H]; [lra|]. pose proof (h1073_range p ltac:(lra)). lra. }
  destruct (Rlt_or_le p 4) as [L|L].
  - exists (T2aR p h). split; [now apply T2a_ph_closed|]. apply T2a_range; [lra | lra |]. destruct H as [H|H]; [tauto | lra].
  - assert (B : 2540 <= h).
    { destruct H as [(P & N & _)|(P & Q)]; [|pose proof (h23_p p ltac:(lra)); lra].
      apply Rnot_lt_le. intros K. apply N. unfold below. apply Rlt_le_trans with 2540; [exact K|]. interval with (i_bisect p). }
    destruct (Rlt_or_le p (bc h)) as [K|K].
    + exists (T2bR p h). split; [apply T2b_ph_closed; lra|]. apply T2b_range; lra.
    + exists (T2cR p h). split; [apply T2c_ph_closed; lra|]. apply T2c_range; lra.
Qed.
Lemma T3_ph_in p h : 16.5292 <= p <= 100 -> h1R p 623.15 <= h < h2R p (T23 p) -> exists T, T3_ph (Fin p) (Fin h) = Ok (Fin T) /\ 200 <= T <= 1150.
Proof.
  intros Hp H. pose proof (h23_p p ltac:(lra)). pose proof (h623_range p ltac:(lra)).
  destruct (Rlt_or_le h (ProofBack.ab p)) as [K|K].
  - exists (T3aR p h). split; [apply T3a_ph_closed; lra|]. apply T3a_range; lra.
  - exists (T3bR p h). split; [apply T3b_ph_closed; lra|]. apply T3b_range; lra.
Qed.
Lemma t_ph_in p h r : region_ph (Fin p) (Fin h) = Ok r -> r <> 0%Z -> r <> 5%Z ->
  exists T, t_ph BARE (Fin p) (Fin h) = Ok (Fin T) /\ 200 <= T <= 1150.
Proof.
  intros H N N5. destruct (Z.eq_dec r 1) as [->|N1].
  { destruct (ph_1 _ _ H) as (T & HT & Hp & Hs & E). exists (T1h p h). split; [now apply t_ph_1|].
    assert (B := back1h p T ltac:(lra) ltac:(lra) ltac:(lra)). rewrite E in B. revert B. unfold Rabs. destruct (Rcase_abs _); lra. }
  destruct (ph_range p h) as [Hp _]; [rewrite H; congruence|].
  assert (U : forall m, (exists T, m = Ok (Fin T) /\ 200 <= T <= 1150) ->
    exists T, (let* q := m in fromSIunit_T (N := RNum) BARE q) = Ok (Fin T) /\ 200 <= T <= 1150).
  { intros m (T & -> & K). exists T. split; [|exact K]. cbn [bind]. now rewrite from_T, user_BARE. }
  unfold t_ph. rewrite to_p, to_h. cbn [bind]. rewrite !si_BARE, H. cbn [bind].
  destruct (Rlt_or_le p 16.5292) as [L|L].
  - destruct (Z.eq_dec r 2) as [->|N2]; cbn [Z.eqb Pos.eqb].
    + apply U, T2_ph_in. left. split; [lra|]. apply ph_low; [lra | exact H].
    + assert (R4 : r = 4%Z).
      { revert H. clear - N N1 N2 N5 Hp L.
        unfold region_ph. rewrite D_1073, D_2273, D_273. cmps. cbn [add mul RNum lit lift2 cmp].
        destruct (T4_mid p) as (ET & RT & I); [lra|]. rewrite ET.
        replace (log (Num := RNum) (Fin p)) with (Ok (Fin (Rpower.ln p)) : res xr) by (symmetry; apply xlog_Fin; lra).
        change (D 16.5292%dec) with 16.5292. try rewrite (Rltb_true p) by lra. cbn [bind cmp add mul sub fabs RNum lit lift1 lift2].
        destruct (eos1 p (T4R p)) as (_ & Ea & _); [unfold dom1; lra|]. rewrite Ea.
        destruct (eos2 p (T4R p)) as (_ & E2 & _); [unfold dom2; lra|]. rewrite E2.
        destruct (eos1 p 273.15) as (_ & Eh & _); [unfold dom1; lra|]. rewrite Eh.
        destruct (eos2 p 1073.15) as (_ & Eh2 & _); [unfold dom2; lra|]. rewrite Eh2.
        destruct (eos5 p 2273.15) as (_ & Eh5 & _); [unfold dom5; lra|]. rewrite Eh5.
        cbn [bind cmp]. repeat (cases1; cbn [bind cmp]); intros [= <-]; congruence. }
      subst r. cbn [Z.eqb Pos.eqb]. apply U. destruct (T4_mid p) as (ET & RT & _); [lra|]. exists (T4R p). split; [exact ET | lra].
  - destruct (ph_high p h r ltac:(lra) H N N1) as [(-> & K)|[(-> & K)|(-> & K & K')]]; cbn [Z.eqb Pos.eqb]; apply U.
    + apply T2_ph_in. right. lra.
    + apply T3_ph_in; lra.
    + pose proof (h23_p p ltac:(lra)). pose proof (h623_range p ltac:(lra)). pose proof (P3_max h ltac:(lra)).
      destruct (p4_T4 p) as (ET & RT & _); [lra|]. exists (T4R p). split; [exact ET | lra].
Qed.

(** ** In every unit system *)
Lemma t_ph_answers us p h r : region_ph (si us Qp (Fin p)) (si us Qh (Fin h)) = Ok r -> r <> 0%Z -> r <> 5%Z ->
  exists T, t_ph us (Fin p) (Fin h) = Ok (Fin T) /\ 200 <= to_si us QT T <= 1150.
Proof.
  intros H N N5. rewrite !Fin_si in H. destruct (t_ph_in _ _ _ H N N5) as (T & E & K). rewrite <- !Fin_si in E.
  destruct (call_t_ph us p h _ E) as (t & Et & S). exists t. rewrite S. now split.
Qed.
Lemma t_ph_bounds us p h T : t_ph us (Fin p) (Fin h) = Ok (Fin T) -> 200 <= to_si us QT T < 2273.15.
Proof.
  intros H. destruct (region_ph (N := RNum) (si us Qp (Fin p)) (si us Qh (Fin h))) as [r|e] eqn:E.
  2: { exfalso. revert H. unfold t_ph. rewrite to_p, to_h. cbn [bind]. now rewrite E. }
  destruct (Z.eq_dec r 0) as [->|N].
  { exfalso. revert H. unfold t_ph. rewrite to_p, to_h. cbn [bind]. now rewrite E. }
  destruct (Z.eq_dec r 5) as [->|N5].
  - destruct (ProofLoopsApi.t_ph_inside us _ _ _ E H) as (x & Ex & K). injection Ex as ->.
    rewrite to_si_user. lra.
  - destruct (t_ph_answers us p h r E N N5) as (T' & E' & K). rewrite H in E'. injection E' as <-. lra.
Qed.
Lemma my_ph_iff us p h m : my_ph us (Fin p) (Fin h) = Ok (Fin m) <->
  exists r rho T, region_ph (Fin (to_si us Qp p)) (Fin (to_si us Qh h)) = Ok r /\ r <> 4%Z /\
    t_ph us (Fin p) (Fin h) = Ok (Fin T) /\ rho_ph us (Fin p) (Fin h) = Ok (Fin rho) /\
    to_si us QT T <= 1173.15 /\ m = to_user us Qmy (viscosity (to_si us Qrho rho) (to_si us QT T)).
Proof.
  split.
  - intros H. destruct (my_ph_region us p h m H) as (r & E & Fl). destruct (my_ph_any us p h m H) as (rho & T & A & B & K & ->).
    exists r, rho, T. repeat split; try tauto; try lra. destruct Fl as [-> | [-> | [-> | ->]]]; discriminate.
  - intros (r & rho & T & E & N4 & A & B & K & ->). apply (my_ph_conv us p h r); auto.
    + intros ->. revert A. unfold t_ph. rewrite to_p, to_h. cbn [bind]. rewrite !Fin_si, E. discriminate.
    + pose proof (t_ph_bounds us p h T A). lra.
Qed.
Lemma my_ph_positive us p h m : my_ph us (Fin p) (Fin h) = Ok (Fin m) -> 0 < m.
Proof.
  intros H. destruct (my_ph_any us p h m H) as (rho & T & A & _). apply (my_ph_pos us p h m T H A).
  now destruct (t_ph_bounds us p h T A).
Qed.
Lemma tc_ph_positive us p h k : tc_ph us (Fin p) (Fin h) = Ok (Fin k) -> 0 < k.
Proof.
  intros H. destruct (proj1 (tc_ph_any us p h k) H) as (rho & T & _ & A & _). apply (tc_ph_pos us p h k T H A).
  pose proof (t_ph_bounds us p h T A). lra.
Qed.
End Regions.
