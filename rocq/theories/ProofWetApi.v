(** Saturated and wet states below 16.529 MPa: regions, quality, interpolation. *)
From Coq Require Import ZArith Reals Lra Lia List Bool.
From Verif Require Import Py ExactReal ModState ModConstants ModUnits ModBorders ModRegion1 ModRegion2
  ModRegion4 ModRegion5 ModSelect ModXSteam SpecUnits SpecApi SpecRange SpecThermo ProofUnits
  ProofCovariance ProofGeneric RealSum ProofEos ProofThermo ProofSat ProofSatApi ProofThermoApi ProofMisc
  ProofWet BoundSat BoundPh Bound1 Bound2 ProofSigns ProofMono.
Open Scope R_scope.

Definition uL p := u1R p (T4R p).
Definition uV p := u2R p (T4R p).

Section Low.
Context {F : Fuel}.
Variable p : R.
Hypothesis Hp : 0.000611657 <= p < 16.529.
Let L : low p := Hp.

Lemma T4_range : 273.15 < T4R p < 623.15. Proof. exact (proj1 (proj2 (T4_low p L))). Qed.
Lemma p4_T4R : p4R (T4R p) = p. Proof. exact (proj2 (proj2 (T4_low p L))). Qed.
Lemma eT : T4_p (Fin p) = Ok (Fin (T4R p)). Proof. exact (proj1 (T4_low p L)). Qed.
Lemma ev1 : v1_pT (Fin p) (Fin (T4R p)) = Ok (Fin (vL p)). Proof. apply (eos1 p (T4R p) (dom1_low p L)). Qed.
Lemma eh1 : h1_pT (Fin p) (Fin (T4R p)) = Ok (Fin (hL p)). Proof. apply (eos1 p (T4R p) (dom1_low p L)). Qed.
Lemma eu1 : u1_pT (Fin p) (Fin (T4R p)) = Ok (Fin (uL p)). Proof. apply (eos1 p (T4R p) (dom1_low p L)). Qed.
Lemma es1 : s1_pT (Fin p) (Fin (T4R p)) = Ok (Fin (sL p)). Proof. apply (eos1 p (T4R p) (dom1_low p L)). Qed.
Lemma ev2 : v2_pT (Fin p) (Fin (T4R p)) = Ok (Fin (vV p)). Proof. apply (eos2 p (T4R p) (dom2_low p L)). Qed.
Lemma eh2 : h2_pT (Fin p) (Fin (T4R p)) = Ok (Fin (hV p)). Proof. apply (eos2 p (T4R p) (dom2_low p L)). Qed.
Lemma eu2 : u2_pT (Fin p) (Fin (T4R p)) = Ok (Fin (uV p)). Proof. apply (eos2 p (T4R p) (dom2_low p L)). Qed.
Lemma es2 : s2_pT (Fin p) (Fin (T4R p)) = Ok (Fin (sV p)). Proof. apply (eos2 p (T4R p) (dom2_low p L)). Qed.

Lemma above_low : hL p < hV p /\ sL p < sV p /\ 0 < vL p < vV p /\ uL p < uV p.
Proof.
  pose proof T4_range as R. pose proof (sat_above (T4R p) ltac:(lra)) as A.
  pose proof (sat_uabove (T4R p) ltac:(lra)) as B.
  unfold above in A. unfold uabove in B. rewrite p4_T4R in A, B. cbv zeta in A, B.
  unfold hL, hV, sL, sV, vL, vV, uL, uV.
  assert (E1 : u1R p (T4R p) = h1R p (T4R p) - 1000 * p * v1R p (T4R p)) by (unfold u1R, h1R, v1R; field; lra).
  assert (E2 : u2R p (T4R p) = h2R p (T4R p) - 1000 * p * v2R p (T4R p)) by (unfold u2R, h2R, v2R; field; lra).
  rewrite E1, E2. splits; lra.
Qed.
Lemma coarse_low : -100 < hL p - hL0 p < 100 /\ -50 < hV p - hV0 p < 50.
Proof.
  pose proof T4_range as R. pose proof (coarse_ok (T4R p) ltac:(lra)) as A.
  unfold coarse in A. rewrite p4_T4R in A. exact A.
Qed.

(** The line T = 273.15 K lies below the boiling line, the dew line below 1073.15 K. *)
Lemma cold_low : h1R p 273.15 < hL p.
Proof.
  pose proof T4_range as R. apply rise1; [lra|]. apply path1_T; [|lra].
  unfold zone1. rewrite p4_T4R. lra.
Qed.
Lemma hot_low : hV p < h2R p 1073.15 /\ sV p < s2R p 1073.15.
Proof.
  pose proof T4_range as R. apply rise2; [lra|]. intros T HT. apply zone2_ok. unfold zone2.
  split; [lra|]. destruct (Rle_dec T 623.15).
  - left. pose proof (p4_le (T4R p) T ltac:(lra) ltac:(lra) ltac:(lra)). rewrite p4_T4R in H. lra.
  - right. destruct (Rle_dec T 863.15); [left | right; lra].
    pose proof (p23_le 623.15 T ltac:(lra) ltac:(lra)). pose proof psat_623. pose proof p4_623_15.
    assert (16.529 <= p23R 623.15) by (unfold p23R; lra). lra.
Qed.

(** ** Region by (p,h) *)
Definition regph (h : R) : Z :=
  if Rltb h (h1R p 273.15) then 0 else if Rleb h (hL p) then 1 else if Rltb h (hV p) then 4
  else if Rleb h (h2R p 1073.15) then 2 else if Rltb 10 p then 0
  else if Rltb h (h5R p 2273.15) then 5 else 0.
Lemma D_1073 : lit (Num := RNum) 1073.15%dec = Fin 1073.15. Proof. reflexivity. Qed.
Lemma D_2273 : lit (Num := RNum) 2273.15%dec = Fin 2273.15. Proof. reflexivity. Qed.
Lemma D_273 : lit (Num := RNum) 273.15%dec = Fin 273.15. Proof. reflexivity. Qed.
Lemma region_ph_low h : region_ph (Fin p) (Fin h) = Ok (regph h).
Proof.
  pose proof coarse_low as C. pose proof (edge_ok p ltac:(lra)) as [E _].
  pose proof (hot_ok p ltac:(lra)) as Hot. unfold hot in Hot.
  pose proof above_low as A. pose proof cold_low as K. pose proof hot_low as K'.
  unfold region_ph, regph. rewrite D_1073, D_2273, D_273.
  destruct (eos1 p 273.15) as (_ & Eh & _); [unfold dom1; lra|]. rewrite Eh.
  destruct (eos2 p 1073.15) as (_ & Eh2 & _); [unfold dom2; lra|]. rewrite Eh2.
  destruct (eos5 p 2273.15) as (_ & Eh5 & _); [unfold dom5; lra|]. rewrite Eh5.
  rewrite eT. cbn [bind]. rewrite eh1, eh2.
  cmps. cbn [add mul sub RNum lit lift2].
  replace (log (Num := RNum) (Fin p)) with (Ok (Fin (Rpower.ln p)) : res xr)
    by (symmetry; apply xlog_Fin; lra).
  cbn [bind add mul sub fabs RNum lit lift1 lift2].
  replace (D 109.6635%dec * Rpower.ln p + D 40.3481%dec * p + D 734.58%dec) with (hL0 p)
    by (unfold hL0; undec; lra).
  replace (D 45.1768%dec * Rpower.ln p - D 20.158%dec * p + D 2804.4%dec) with (hV0 p)
    by (unfold hV0; undec; lra).
  cbn [cmp]. unfold Rabs. undec.
  destruct (Rltb_spec h (h1R p 273.15)).
  - rewrite Rltb_true by lra. reflexivity.
  - replace (if Rltb h (963 / 1000 * p + 22 / 10) then _ else _) with (Ok (Proceed tt) : res (outcome Z unit))
      by now destruct (Rltb h _).
    cbn [bind].
    destruct (Rleb_spec h (hL p)); destruct (Rltb_spec h (hV p)); destruct (Rleb_spec h (h2R p 1073.15));
      destruct (Rcase_abs (h - hL0 p)), (Rcase_abs (h - hV0 p));
      repeat (cases1; cbn [bind]); try reflexivity; exfalso; lra.
Qed.

(** ** Region by (p,s) *)
Definition regps (s : R) : Z :=
  if Rltb s 0 then 0 else if Rltb (s5R p 2273.15) s then 0
  else if Rltb (s2R p 1073.15) s then (if Rleb p 10 then 5 else 0)
  else if Rltb (sV p) s then 2 else if Rltb (sL p) s then 4 else 1.
Lemma region_ps_low s : region_ps (Fin p) (Fin s) = Ok (regps s).
Proof.
  unfold region_ps, regps. rewrite D_1073, D_2273, D_273.
  destruct (eos1 p 273.15) as (_ & _ & _ & Es & _); [unfold dom1; lra|]. rewrite Es.
  destruct (eos2 p 1073.15) as (_ & _ & _ & Es2 & _); [unfold dom2; lra|]. rewrite Es2.
  destruct (eos5 p 2273.15) as (_ & _ & _ & Es5 & _); [unfold dom5; lra|]. rewrite Es5.
  change (lit (Num := RNum) 623.15%dec) with (Fin 623.15).
  destruct (eos1 p 623.15) as (_ & _ & _ & Es3 & _); [unfold dom1; lra|]. rewrite Es3.
  unfold or_else, and_then.
  rewrite eT. cbn [bind]. rewrite es1, es2.
  cmps. cbn [bind cmp]. undec.
  repeat (cases1; cbn [bind andb orb]); try reflexivity; exfalso; lra.
Qed.
End Low.
