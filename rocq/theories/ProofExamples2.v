(** Concrete states meeting the hypotheses of the wet steam theorems. *)
From Coq Require Import ZArith Reals Lra Lia List Bool.
From Interval Require Import Tactic.
From Verif Require Import Py ExactReal ModState ModXSteam ModSelect SpecUnits SpecApi SpecRange SpecThermo SpecWet
  RealSum ProofEos ProofThermo ProofSat ProofSatApi ProofThermoApi ProofMisc ProofWet BoundEos
  ProofWetApi ProofWet2 ProofWet3 ProofReg ProofExamples.
Open Scope R_scope.

Lemma ex_low : in_low MKS 10 /\ in_low FLS 100 /\ in_low BARE 16.5.
Proof. unfold in_low, to_si; cbn [origin shift factor]; repeat split; lra. Qed.

Section Ex.
Context {F : Fuel}.
Lemma low_MKS : in_low MKS 10. Proof. apply ex_low. Qed.
Lemma si_10 : to_si MKS Qp 10 = 1. Proof. unfold to_si; cbn [origin shift factor]; lra. Qed.
Lemma s_1_pos : 2 < sL 1 < 4.
Proof.
  pose proof T_1. unfold sL. set (T := T4R 1) in *. clearbody T. split; reals; interval with (i_prec 60).
Qed.
Lemma ex_wet : exists hl hv sl sv vl vv ul uv, saturated MKS 10 hl hv sl sv vl vv ul uv /\
  hl < 1500 < hv /\ sl < 4 <= sv /\ exists s, s_ph MKS (Fin 10) (Fin 1500) = Ok (Fin s) /\ 0 <= s.
Proof.
  do 8 eexists. split; [exact (saturated_low MKS 10 low_MKS)|].
  assert (Hh : forall y, to_user MKS Qh y = y) by (intros y; unfold to_user; cbn [origin shift factor]; lra).
  assert (Hs : forall y, to_user MKS Qs y = y) by (intros y; unfold to_user; cbn [origin shift factor]; lra).
  assert (A : hL 1 < 1500 < hV 1) by (apply (region_ph_wet 1 ltac:(lra)); apply region_1_1500).
  pose proof s_1_wet as B. pose proof s_1_pos as C.
  rewrite !Hh, !Hs, si_10. split; [lra|]. split; [lra|].
  destruct (wet_ph_api MKS 10 1500 _ _ _ _ _ _ _ _ low_MKS (saturated_low MKS 10 low_MKS)) as (x & Hx & _ & _ & _ & Es & _).
  { rewrite !Hh, si_10. exact A. }
  eexists. split; [exact Es|]. rewrite !Hs, si_10.
  pose proof (mix_between (sL 1) (sV 1) x ltac:(lra) Hx). lra.
Qed.
Lemma ex_seam : region_pT (Fin 1) (Fin 400) = Ok 1%Z /\ region_pT (Fin 1) (Fin 600) = Ok 2%Z /\
  region_pT (Fin 10) (Fin 1073.155) = Ok 5%Z.
Proof.
  split; [apply (inside_at _ _ _ inside_1)|]. split; [apply (inside_at _ _ _ inside_2)|].
  apply region5_intro; lra.
Qed.
End Ex.
