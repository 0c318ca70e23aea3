(** Concrete cases for the theorems about loops. *)
From Coq Require Import ZArith Reals Lra Lia List Bool.
From Flocq Require Import Core BinarySingleNaN.
From Interval Require Import Tactic.
From Verif Require Import Py ExactReal Float64 ModState ModConstants ModUnits ModBorders ModRegion1 ModRegion2 ModRegion3 ModRegion4
  ModRegion5 ModSelect ModXSteam SpecUnits SpecApi SpecThermo SpecLoops ProofUnits ProofCovariance RealSum ProofEos
  ProofThermo ProofSat ProofSatApi ProofThermoApi ProofMisc ProofMono ProofReg ProofSettle ProofBisect ProofLoops ProofConverge ProofGap
  Sat3 ProofDense ProofLoopsApi.
Open Scope R_scope.

(** A C library with integer powers only. *)
Fixpoint ppow (x : f64) (n : positive) : f64 :=
  match n with
  | xH => x
  | xO n' => let y := ppow x n' in Bmult mode_NE y y
  | xI n' => let y := ppow x n' in Bmult mode_NE x (Bmult mode_NE y y)
  end.
Definition ipow (x y : f64) : f64 :=
  match fint y with
  | Some Z0 => Bone
  | Some (Zpos n) => ppow x n
  | Some (Zneg n) => Bdiv mode_NE Bone (ppow x n)
  | None => Bone
  end.
Definition powers_only : libm := {| c_pow := ipow; c_log := fun x => x; c_exp := fun x => x |}.

Lemma ex_tame : (forall h' q, toSIunit_h (N := FNum powers_only) BARE (flit 2000%dec) = Ok h' ->
  p3sat_h (N := FNum powers_only) h' = Ok q -> tame q) /\ of_hs F_t_hs = true.
Proof.
  split; [|reflexivity]. intros h' q H. change (toSIunit_h (N := FNum powers_only) BARE (flit 2000%dec)) with (@Ok f64 (flit 2000%dec)) in H.
  injection H as <-. intros H.
  assert (X : match p3sat_h (N := FNum powers_only) (flit 2000%dec) with Ok q => Bleb (Babs q) (flit 268435456%dec) | Err _ => false end = true)
    by (vm_compute; reflexivity).
  rewrite H in X. left. exact X.
Qed.
Lemma ex_in_dense L : in_dense (N := FNum L) (flit 20%dec).
Proof. repeat split. Qed.
Lemma ex_in_dense_R : in_dense (N := RNum) (Fin 20) /\ dense BARE 20 /\ dense MKS 200.
Proof.
  unfold in_dense. cbn [ltb RNum lit cmp].
  rewrite !Rltb_true by (undec; lra). rewrite Rltb_false by (undec; lra).
  unfold dense, to_si; cbn [origin shift factor]. repeat split; lra.
Qed.
Lemma at5 : 5000 < h5R 1 1500 < 5400 /\ 9 < s5R 1 1500 < 10 /\ h5R 1 1673.15 - h5R 1 1500 > 100 /\ s5R 1 1673.15 - s5R 1 1500 > 0.1 /\
  h2R 1 1073.15 < 4500 /\ s2R 1 1073.15 < 8.9 /\ 6000 < h5R 1 2273.15 /\ 10 < s5R 1 2273.15.
Proof. unfold h2R, s2R, h5R, s5R. reals. repeat split; interval with (i_prec 80). Qed.
Lemma ex_round5 (F : Fuel) : exists h s, region_pT (Fin 1) (Fin 1500) = Ok 5%Z /\
  h_pt BARE (Fin 1) (Fin 1500) = Ok (Fin h) /\ region_ph (Fin 1) (Fin h) = Ok 5%Z /\ h_pt BARE (Fin 1) (Fin 1673.15) <> Ok (Fin (h - 1)) /\
  s_pt BARE (Fin 1) (Fin 1500) = Ok (Fin s) /\ region_ps (Fin 1) (Fin s) = Ok 5%Z /\ s_pt BARE (Fin 1) (Fin 1673.15) <> Ok (Fin (s - 1)).
Proof.
  assert (R : region_pT (Fin 1) (Fin 1500) = Ok 5%Z) by (apply region5_intro; lra).
  assert (R' : region_pT (Fin 1) (Fin 1673.15) = Ok 5%Z) by (apply region5_intro; lra).
  destruct at5 as (A & B & C & D & E & G & H & I).
  exists (h5R 1 1500), (s5R 1 1500). split; [exact R|]. split; [exact (h_pt_5 _ _ R)|].
  split; [|split; [|split; [exact (s_pt_5 _ _ R)|split]]].
  - destruct (map_ph 1 (h5R 1 1500)) as (h0 & hl & hv & h2 & h5 & _ & _ & _ & E2 & E5 & _ & _ & _ & _ & _ & K & _); [lra|].
    destruct (eos5 1 2273.15) as (_ & X & _); [split; lra|]. rewrite X in E5. injection E5 as <-.
    destruct (eos2 1 1073.15) as (_ & Y & _); [unfold dom2; lra|]. rewrite Y in E2. injection E2 as <-.
    apply K. lra.
  - rewrite (h_pt_5 _ _ R'). intros X. apply (f_equal (fun r => match r with Ok x => x | _ => NaN end)) in X. apply Fin_inj in X. lra.
  - destruct (map_ps 1 (s5R 1 1500)) as (sl & sv & s2 & s5 & _ & _ & E2 & E5 & _ & _ & _ & _ & _ & K & _); [lra|].
    destruct (eos5 1 2273.15) as (_ & _ & _ & X & _); [split; lra|]. rewrite X in E5. injection E5 as <-.
    destruct (eos2 1 1073.15) as (_ & _ & _ & Y & _); [unfold dom2; lra|]. rewrite Y in E2. injection E2 as <-.
    apply K. lra.
  - rewrite (s_pt_5 _ _ R'). intros X. apply (f_equal (fun r => match r with Ok x => x | _ => NaN end)) in X. apply Fin_inj in X. lra.
Qed.
(** binary64, with the integer powers above: a dense pressure and a region 5 state. *)
Lemma ok_finite (r : res f64) : match r with Ok x => is_finite x | Err _ => false end = true -> exists x, r = Ok x.
Proof. destruct r; [eauto|discriminate]. Qed.
Lemma ex_run5 : region_ph (N := FNum powers_only) (flit 1%dec) (flit 5000%dec) = Ok 5%Z.
Proof. vm_cast_no_check (eq_refl (@Ok Z 5%Z)). Qed.
Lemma ex_runt : exists x, t_ph (N := FNum powers_only) (F := 200%nat) BARE (flit 1%dec) (flit 5000%dec) = Ok x.
Proof. apply ok_finite. vm_cast_no_check (eq_refl true). Qed.
Lemma ex_runL : exists x, hL_p (N := FNum powers_only) (F := 200%nat) BARE (flit 20%dec) = Ok x.
Proof. apply ok_finite. vm_cast_no_check (eq_refl true). Qed.
