(** * C55, C56: region_hs on compressed water, in the library's terms; expansion of water. *)
From Coq Require Import ZArith Reals Lra Lia List Bool.
From Coquelicot Require Import Coquelicot.
From Interval Require Import Tactic.
From Verif Require Import Py ExactReal RealSum ModState ModUnits ModBorders ModRegion1 ModRegion2 ModRegion3 ModRegion4 ModSelect ModXSteam SpecUnits SpecApi SpecThermo
  ProofUnits ProofCovariance ProofSat ProofEos ProofSatApi ProofThermo ProofThermoApi ProofMisc ProofBack ProofBackS SatS Bound1 Bound2 BoundR1 ProofSigns ProofMono ProofAgree ProofRound BoundE BoundHs ProofHs3.
Import ListNotations.
Open Scope R_scope.

Section Api.
Context {F : Fuel}.
Lemma states us p t h s : region_pT (si us Qp (Fin p)) (si us QT (Fin t)) = Ok 1%Z ->
  h_pt us (Fin p) (Fin t) = Ok (Fin h) -> s_pt us (Fin p) (Fin t) = Ok (Fin s) ->
  to_si us Qh h = h1R (to_si us Qp p) (to_si us QT t) /\ to_si us Qs s = s1R (to_si us Qp p) (to_si us QT t).
Proof.
  rewrite !Fin_si. intros H E E'. pose proof (dom_1 _ _ H) as Dm.
  assert (Es : s_pt BARE (Fin (to_si us Qp p)) (Fin (to_si us QT t)) = Ok (Fin (s1R (to_si us Qp p) (to_si us QT t))) /\
               h_pt BARE (Fin (to_si us Qp p)) (Fin (to_si us QT t)) = Ok (Fin (h1R (to_si us Qp p) (to_si us QT t)))).
  { destruct (api_pT _ _ _ H) as (_ & -> & -> & _); [tauto|]. cbn [pick Z.eqb Pos.eqb].
    split; [now apply eos1s | now apply eos1h]. }
  destruct Es as [Es Eh].
  pose proof (run2_units F_s_pt us (Fin p) (Fin t) ltac:(discriminate)) as U. cbn [run2 sig2 fst snd] in U. rewrite E' in U. symmetry in U.
  apply map_inv in U. rewrite !Fin_si, Es in U. injection U as U.
  pose proof (run2_units F_h_pt us (Fin p) (Fin t) ltac:(discriminate)) as V. cbn [run2 sig2 fst snd] in V. rewrite E in V. symmetry in V.
  apply map_inv in V. rewrite !Fin_si, Eh in V. injection V as V. now split.
Qed.
Lemma psat_si us t ps : 273.15 <= to_si us QT t <= 623.15 -> psat_t us (Fin t) = Ok (Fin ps) -> to_si us Qp ps = p4R (to_si us QT t).
Proof.
  intros H E. pose proof (via1 F_psat_t us (Fin t)) as V. cbn [run1 sig1 fst snd si lift1] in V. rewrite E, psat_bare in V by lra.
  cbn [map_res] in V. injection V as V. rewrite V. assert (K := si_user us Qp (Fin (p4R (to_si us QT t)))). cbn in K. now injection K.
Qed.
Lemma found us p t ps h s : region_pT (si us Qp (Fin p)) (si us QT (Fin t)) = Ok 1%Z -> psat_t us (Fin t) = Ok (Fin ps) ->
  to_si us QT t <= 623.05 -> to_si us Qp ps + 0.005 <= to_si us Qp p <= 99.8 ->
  h_pt us (Fin p) (Fin t) = Ok (Fin h) -> s_pt us (Fin p) (Fin t) = Ok (Fin s) -> 0 <= to_si us Qs s ->
  region_hs (si us Qh (Fin h)) (si us Qs (Fin s)) = Ok 1%Z.
Proof.
  intros H Ep HT Hp Eh Es Hs. destruct (states us p t h s H Eh Es) as [A B]. rewrite !Fin_si in *. rewrite A, B in *.
  pose proof (region_1 _ _ H) as R1. rewrite (psat_si us t ps ltac:(lra) Ep) in Hp. apply recognised; lra.
Qed.
Lemma found_p us p t ps h s : region_pT (si us Qp (Fin p)) (si us QT (Fin t)) = Ok 1%Z -> psat_t us (Fin t) = Ok (Fin ps) ->
  to_si us QT t <= 623.05 -> to_si us Qp ps + 0.005 <= to_si us Qp p <= 99.8 ->
  h_pt us (Fin p) (Fin t) = Ok (Fin h) -> s_pt us (Fin p) (Fin t) = Ok (Fin s) -> 0 <= to_si us Qs s ->
  exists p', p_hs us (Fin h) (Fin s) = Ok (Fin p') /\ Rabs (to_si us Qp p' - to_si us Qp p) <= 0.015.
Proof. intros H Ep HT Hp Eh Es Hs. apply (there_hs_1 us p t h s H Eh Es). now apply (found us p t ps h s). Qed.
Lemma t_hs_1 h s : region_hs (Fin h) (Fin s) = Ok 1%Z -> t_hs BARE (Fin h) (Fin s) = Ok (Fin (T1h (p1hs h s) h)).
Proof.
  intros H. unfold t_hs. bare. rewrite H. cbn [bind Z.eqb Pos.eqb].
  rewrite p1_hs_closed. cbn [bind]. rewrite T1_ph_closed. cbn [bind]. reflexivity.
Qed.
Lemma found_t us p t ps h s : region_pT (si us Qp (Fin p)) (si us QT (Fin t)) = Ok 1%Z -> psat_t us (Fin t) = Ok (Fin ps) ->
  to_si us QT t <= 623.05 -> to_si us Qp ps + 0.04 <= to_si us Qp p <= 99.8 ->
  h_pt us (Fin p) (Fin t) = Ok (Fin h) -> s_pt us (Fin p) (Fin t) = Ok (Fin s) -> 0 <= to_si us Qs s ->
  exists t', t_hs us (Fin h) (Fin s) = Ok (Fin t') /\ Rabs (to_si us QT t' - to_si us QT t) <= 0.042.
Proof.
  intros H Ep HT Hp Eh Es Hs. assert (R := found us p t ps h s H Ep HT ltac:(lra) Eh Es Hs).
  destruct (states us p t h s H Eh Es) as [A B]. rewrite !Fin_si in *. pose proof (region_1 _ _ H) as R1.
  rewrite (psat_si us t ps ltac:(lra) Ep) in Hp. assert (T := t_hs_1 _ _ R).
  pose proof (via2 F_t_hs us (Fin h) (Fin s) ltac:(discriminate)) as V. cbn [run2 sig2 fst snd si lift1] in V. rewrite T, A, B in V.
  set (y := T1h _ _) in V. exists (to_user us QT y). split; [exact V|]. assert (K := si_user us QT (Fin y)). cbn [si user lift1] in K. injection K as K. rewrite K. unfold y.
  assert (P := p4_le 273.15 (to_si us QT t) ltac:(lra) ltac:(lra) ltac:(lra)). assert (P0 := p4_low).
  apply back_t; [lra | lra|]. apply back1p; lra.
Qed.
End Api.
