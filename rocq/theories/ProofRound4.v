(** Region 2: the temperature t_ps reports. *)
From Coq Require Import ZArith Reals Lra Lia List Bool.
From Coquelicot Require Import Coquelicot.
From Interval Require Import Tactic.
From Verif Require Import Py ModState ModUnits ModRegion1 ModRegion2 ModRegion3 ModRegion4 ModRegion5 ModBorders ModSelect ModXSteam ExactReal RealSum SpecUnits SpecApi SpecThermo
  ProofUnits ProofCovariance ProofEos ProofThermo ProofThermoApi ProofSat ProofSatApi ProofMono ProofMisc ProofWet ProofWetApi BoundPh ProofReg
  Bound2 ProofAgree ProofBack ProofBackS BoundR1 ProofRound Sat3 BoundX ProofIce ProofTph BoundR2 ProofRound2 BoundR2s ProofExamples9.
Open Scope R_scope.

Lemma T23_low' p : 16.529 < p <= 100 -> 623.14 < T23 p.
Proof.
  intros Hp. assert (A := p23_of_T p ltac:(lra)). assert (B := T23_in p ltac:(lra)). rewrite q23_p23 in A. apply Rnot_le_lt. intros L.
  pose proof (p23_le (T23 p) 623.14 ltac:(lra) L). assert (p23R 623.14 < 16.5285) by (unfold p23R; lra).
  revert A. unfold Rabs. destruct (Rcase_abs _); lra.
Qed.
Lemma in2_b23' p t : 16.529 < p <= 100 -> T23 p <= t -> in2 p t.
Proof.
  intros Hp Ht. pose proof (T23_low' p Hp). assert (A := p23_of_T p ltac:(lra)). rewrite q23_p23 in A. split; intros L; [lra|].
  pose proof (p23_le (T23 p) t ltac:(lra) Ht). revert A. unfold Rabs. destruct (Rcase_abs _); lra.
Qed.

Section Regions.
Context {F : Fuel}.
Lemma ps_edges p s : region_ps (Fin p) (Fin s) = Ok 2%Z -> 0.000611657 <= p <= 100 /\
  s <= s2R p 1073.15 /\ (16.529 < p -> s2R p (T23 p) < s) /\ (p <= 16.529 -> s2R p (T4R p) < s).
Proof.
  unfold region_ps, or_else, and_then. rewrite D_273, D_1073, D_2273. change (lit (Num := RNum) 623.15%dec) with (Fin 623.15).
  cmps. cbn [cmp bind]. change (D 0.000611657%dec) with 0.000611657. change (D 100%dec) with 100. change (D 16.529%dec) with 16.529.
  change (D 10%dec) with 10. change (D 0%dec) with 0.
  destruct (Rltb_spec p 0.000611657) as [L1|L1]; [cbn [bind orb]; discriminate|].
  destruct (Rltb_spec 100 p) as [L2|L2]; [cbn [bind orb]; discriminate|]. cbn [bind orb].
  destruct (eos2 p 1073.15) as (_ & _ & _ & Es2 & _); [unfold dom2; lra|]. rewrite Es2.
  destruct (eos5 p 2273.15) as (_ & _ & _ & Es5 & _); [unfold dom5; lra|]. rewrite Es5. cbn [bind cmp].
  destruct (Rltb_spec s 0) as [L3|L3]; [cbn [bind orb]; discriminate|]. cbn [bind orb].
  destruct (Rltb_spec (s5R p 2273.15) s) as [L4|L4]; [cbn [bind orb]; discriminate|]. cbn [bind].
  destruct (Rltb_spec (s2R p 1073.15) s) as [L5|L5].
  { destruct (Rleb_spec p 10); discriminate. }
  destruct (Rltb_spec 16.529 p) as [L6|L6].
  - rewrite B23T_closed by lra. cbn [bind]. assert (B := T23_in p ltac:(lra)).
    destruct (eos2 p (T23 p)) as (_ & _ & _ & E2 & _); [unfold dom2; lra|]. rewrite E2. cbn [bind cmp].
    destruct (Rltb_spec (s2R p (T23 p)) s) as [L7|L7]; [intros _; repeat split; lra|].
    destruct (eos1 p 623.15) as (_ & _ & _ & Es3 & _); [unfold dom1; lra|]. rewrite Es3. cbn [bind cmp andb].
    destruct (Rltb_spec (s1R p 623.15) s) as [L8|L8]; cbn [andb].
    + destruct (@p3sat_s RNum _) as [q2|]; cbn [bind]; [|discriminate]. (repeat match goal with |- context [if ?b then _ else _] => destruct b end; cbn [bind]; repeat match goal with |- context [if ?b then _ else _] => destruct b end; discriminate).
    + rewrite Rltb_false by lra. cbn [bind]. destruct (Rltb 0.000611657 p); cbn [bind]; [|discriminate].
      destruct (@s1_pT RNum (Fin p) (Fin 273.15)) as [q|]; cbn [bind]; [|discriminate]. destruct (cmp _ _ _); discriminate.
  - destruct (T4_mid p) as (ET & RT & I); [lra|]. rewrite ET. cbn [bind].
    destruct (eos2 p (T4R p)) as (_ & _ & _ & E2 & _); [unfold dom2; lra|]. rewrite E2. cbn [bind cmp].
    destruct (Rltb_spec (s2R p (T4R p)) s) as [L7|L7]; [intros _; repeat split; lra|].
    destruct (eos1 p 623.15) as (_ & _ & _ & Es3 & _); [unfold dom1; lra|]. rewrite Es3. cbn [bind cmp andb].
    destruct (eos1 p (T4R p)) as (_ & _ & _ & Es4 & _); [unfold dom1; lra|]. rewrite Es4. cbn [bind cmp andb].
    destruct (Rltb p 16.529); cbn [bind]; [destruct (Rltb (s1R p (T4R p)) s); cbn [bind]; [discriminate|]|];
    (destruct (Rltb 0.000611657 p); cbn [bind]; [|discriminate]; destruct (@s1_pT RNum (Fin p) (Fin 273.15)) as [q|]; cbn [bind]; [|discriminate]; destruct (cmp _ _ _); discriminate).
Qed.
Lemma ps_2 p s : region_ps (Fin p) (Fin s) = Ok 2%Z ->
  exists T, 273.15 <= T <= 1073.15 /\ 0.000611657 <= p <= 100 /\ in2 p T /\ s2R p T = s.
Proof.
  intros H. destruct (ps_edges p s H) as (Hp & S1 & S2 & S3).
  assert (B : exists a, 273.15 <= a <= 1073.15 /\ (forall t, a <= t -> in2 p t) /\ s2R p a <= s <= s2R p 1073.15).
  { destruct (Rlt_or_le 16.529 p) as [L|L].
    - exists (T23 p). pose proof (T23_in p ltac:(lra)). specialize (S2 L). split; [lra|]. split; [|lra].
      intros t. apply in2_b23'. lra.
    - exists (T4R p). destruct (T4_mid p ltac:(lra)) as (_ & R & _). specialize (S3 L). split; [lra|]. split; [|lra].
      intros t. apply in2_sat. lra. }
  destruct B as (a & Ha & I & Hs).
  destruct (reach (fun T => s2R p T) (fun T => Cp2R p T / T) a 1073.15 s) as (T & HT & E).
  - lra.
  - intros x Hx. apply thermo2. unfold dom2. lra.
  - exact Hs.
  - exists T. split; [lra|]. split; [exact Hp|]. split; [apply I; lra | exact E].
Qed.
Lemma t_ps_2 p s T : region_ps (Fin p) (Fin s) = Ok 2%Z -> T2_ps (Fin p) (Fin s) = Ok (Fin T) -> t_ps BARE (Fin p) (Fin s) = Ok (Fin T).
Proof.
  intros H E. unfold t_ps. rewrite to_p, to_s. cbn [bind]. rewrite !si_BARE, H. cbn [bind Z.eqb Pos.eqb].
  rewrite E. cbn [bind]. now rewrite from_T, user_BARE.
Qed.
Lemma eos2s p t : dom2 p t -> s2_pT (Fin p) (Fin t) = Ok (Fin (s2R p t)).
Proof. intros H. exact (proj1 (proj2 (proj2 (proj2 (eos2 p t H))))). Qed.
Lemma from_ps_2 us p s : region_ps (si us Qp (Fin p)) (si us Qs (Fin s)) = Ok 2%Z ->
  exists t t', s2_pT (si us Qp (Fin p)) (si us QT (Fin t)) = Ok (si us Qs (Fin s)) /\ t_ps us (Fin p) (Fin s) = Ok (Fin t') /\
    273.15 <= to_si us QT t <= 1073.15 /\ Rabs (to_si us QT t' - to_si us QT t) <= 0.05.
Proof.
  rewrite !Fin_si. intros H. destruct (ps_2 _ _ H) as (T & HT & Hp & I & E).
  destruct (back2s _ T Hp HT I) as (T' & ET & B). rewrite E in ET.
  destruct (call_t_ps us p s _ (t_ps_2 _ _ _ H ET)) as (t' & Et' & S'). destruct (back_si us QT T) as (t & St).
  exists t, t'. rewrite Fin_si, St, S', <- E.
  split; [apply eos2s; unfold dom2; lra|]. split; [exact Et'|]. split; [lra | exact B].
Qed.
Lemma there_ps_2 us p t s : region_pT (si us Qp (Fin p)) (si us QT (Fin t)) = Ok 2%Z ->
  s_pt us (Fin p) (Fin t) = Ok (Fin s) ->
  0.000611657 <= to_si us Qp p < 16.529 \/ region_ps (si us Qp (Fin p)) (si us Qs (Fin s)) = Ok 2%Z ->
  exists t', t_ps us (Fin p) (Fin s) = Ok (Fin t') /\ Rabs (to_si us QT t' - to_si us QT t) <= 0.05.
Proof.
  rewrite !Fin_si. intros H E Hr. assert (Z := region_zone2 _ _ H).
  assert (Es : s_pt BARE (Fin (to_si us Qp p)) (Fin (to_si us QT t)) = Ok (Fin (s2R (to_si us Qp p) (to_si us QT t)))).
  { destruct (api_pT _ _ _ H) as (_ & _ & -> & _); [tauto|]. cbn [pick Z.eqb Pos.eqb]. apply eos2s. unfold dom2. lra. }
  pose proof (run2_units F_s_pt us (Fin p) (Fin t) ltac:(discriminate)) as U. cbn [run2 sig2 fst snd] in U. rewrite E in U. symmetry in U.
  apply map_inv in U. rewrite !Fin_si, Es in U. injection U as U.
  assert (P : 0.000611657 <= to_si us Qp p <= 100).
  { destruct Hr as [Hp|R]; [lra | exact (proj1 (ps_edges _ _ R))]. }
  assert (R : region_ps (Fin (to_si us Qp p)) (Fin (to_si us Qs s)) = Ok 2%Z).
  { destruct Hr as [Hp|R]; [|exact R].
    destruct (ProofReg.agree_ps _ _ 2%Z Hp (or_intror eq_refl) H) as (s' & Es' & K). rewrite Es in Es'. injection Es' as <-. rewrite <- U. apply K.
    assert (X := above2s (to_si us Qp p) (to_si us QT t) P ltac:(lra) (in2_zone _ _ H)). lra. }
  destruct (back2s _ (to_si us QT t) P ltac:(lra) (in2_zone _ _ H)) as (T' & ET & B). rewrite U in ET.
  destruct (call_t_ps us p s _ (t_ps_2 _ _ _ R ET)) as (t' & Et & St). exists t'. split; [exact Et|]. now rewrite St.
Qed.
(** ** Sample states *)
Lemma s_50 : 6.3 < s2R 50 1000 < 6.31 /\ 6.5 < s2R 50 1073.15 /\ 6.5 < s5R 50 2273.15.
Proof. repeat split; reals; interval with (i_prec 60). Qed.
Lemma T23_50 : 760.6 <= T23 50 <= 760.8.
Proof. unfold T23. interval. Qed.
Lemma s_50_edge t : 760.6 <= t <= 760.8 -> s2R 50 t < 6.
Proof. intros H. reals. interval with (i_prec 60, i_bisect t). Qed.
Lemma region_50s s : 6.3 < s < 6.31 -> region_ps (Fin 50) (Fin s) = Ok 2%Z.
Proof.
  intros Hs. destruct s_50 as (_ & A & B). assert (C := s_50_edge _ T23_50). assert (D := T23_50). unfold region_ps, or_else, and_then.
  change (lit (Num := RNum) 1073.15%dec) with (Fin 1073.15). change (lit (Num := RNum) 2273.15%dec) with (Fin 2273.15).
  destruct (eos2 50 1073.15) as (_ & _ & _ & Es2 & _); [unfold dom2; lra|]. 
  destruct (eos5 50 2273.15) as (_ & _ & _ & Es5 & _); [unfold dom5; lra|]. 
  destruct (eos2 50 (T23 50)) as (_ & _ & _ & E2 & _); [unfold dom2; lra|].
  cmps. cbn [bind]. rewrite Es5. cbn [bind]. cmps. cbn [bind]. rewrite Es2. cbn [bind]. cmps. cbn [bind]. cmps. cbn [bind].
  rewrite B23T_closed by lra. cbn [bind]. rewrite E2. cbn [bind cmp]. now rewrite Rltb_true by lra.
Qed.
Lemma round4_examples : region_pT (Fin 1) (Fin 600) = Ok 2%Z /\ region_pT (Fin 50) (Fin 1000) = Ok 2%Z /\
  exists s, s_pt BARE (Fin 50) (Fin 1000) = Ok (Fin s) /\ region_ps (Fin 50) (Fin s) = Ok 2%Z.
Proof.
  split; [apply (proj1 (proj2 ProofExamples2.ex_seam))|]. split; [apply steam_50|].
  exists (s2R 50 1000). destruct (api_pT _ _ _ steam_50) as (_ & _ & -> & _); [tauto|]. cbn [pick Z.eqb Pos.eqb].
  split; [apply eos2s; unfold dom2; lra|]. apply region_50s, s_50.
Qed.
End Regions.
