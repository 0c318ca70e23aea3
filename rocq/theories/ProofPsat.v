(** Saturation pressure and temperature of an entropy: always a number, always a point of the saturation line. *)
From Coq Require Import ZArith QArith Reals Lra Lia List Bool.
From Verif Require Import Py ModUnits ModState ModRegion1 ModRegion2 ModRegion3 ModRegion4 ModXSteam ExactReal RealSum SpecUnits SpecApi SpecSat
  ProofUnits ProofCovariance ProofSat ProofSatApi ProofMisc ProofEos ProofBack SatS ProofBackS BoundS.
Open Scope R_scope.

Ltac q2r H := unfold Q2R in H; cbn [Qnum Qden] in H.
Definition inside (s : R) : Prop := 0.00099945 <= s <= 4.411 \/ 4.426 <= s <= 9.155.
Lemma p4_s_all s : -0.0001545495919 < s < 9.155759395 ->
  exists p, p4_s (N := RNum) (Fin s) = Ok (Fin p) /\ 0.000608 < p < 22.0646 /\
    (inside s -> 0.000611657 < p < 22.06395) /\ (s <= 0.0009 -> p < 0.000611657).
Proof.
  intros H. unfold inside. destruct (Rle_dec s 3.77828134) as [A|A].
  { exists (p1hsR (H4a s) s). split.
    { unfold p4_s. rewrite h4a_closed by lra. cbn [bind]. decide_s. rewrite p1_hs_closed. reflexivity. }
    destruct (Rle_dec s 0.00099945) as [B|B].
    - assert (K := pa_low s ltac:(lra)). q2r K. split; [lra|]. split.
      + intros I. assert (E : s = 0.00099945) by lra. assert (K' := pa_mid s ltac:(lra)). q2r K'. lra.
      + intros I. assert (K' := pa_under s ltac:(lra)). q2r K'. lra.
    - assert (K := pa_mid s ltac:(lra)). q2r K. repeat split; lra. }
  destruct (Rlt_dec s 4.41202148223476) as [B|B].
  { exists (p3ahsR (H4b s) s). split.
    { unfold p4_s. rewrite h4b_closed by lra. cbn [bind]. decide_s. rewrite p3a_hs_closed by lra. reflexivity. }
    destruct (Rle_dec s 4.411) as [C|C].
    - assert (K := pb_mid s ltac:(lra)). q2r K. repeat split; lra.
    - assert (K := pb_top s ltac:(lra)). q2r K. repeat split; lra. }
  destruct (Req_EM_T s 4.41202148223476) as [C|C].
  { assert (K := hb_one s ltac:(lra)). assert (K1 := db_one s ltac:(lra)). assert (K2 := pb_one s ltac:(lra)). q2r K; q2r K1; q2r K2.
    exists (p3bhsR (H4b s) s). split; [|repeat split; lra].
    unfold p4_s. rewrite h4b_closed by lra. cbn [bind]. decide_s. rewrite p3b_hs_closed; [reflexivity | lra | lra |]. unfold d3b in K1. lra. }
  destruct (Rle_dec s 5.210887663) as [D|D].
  { assert (K := hc_all s ltac:(lra)). assert (K1 := dc_all s ltac:(lra)). q2r K; q2r K1.
    exists (p3bhsR (H4c s) s). split.
    { unfold p4_s. rewrite h4c_closed by lra. cbn [bind]. decide_s. rewrite p3b_hs_closed; [reflexivity | lra | lra |]. unfold d3b in K1. lra. }
    destruct (Rle_dec 4.426 s) as [E|E].
    - assert (K2 := pc_mid s ltac:(lra)). q2r K2. repeat split; lra.
    - assert (K2 := pc_top s ltac:(lra)). q2r K2. repeat split; lra. }
  destruct (Rle_dec s 5.85) as [E|E].
  { assert (K := ab'_all s ltac:(lra)). q2r K. destruct (Req_EM_T s 5.85) as [G|G].
    - exists (p2bhsR (H4c s) s). assert (K1 := pd_one s ltac:(lra)). q2r K1. split; [|repeat split; lra].
      unfold p4_s. rewrite h4c_closed by lra. cbn [bind]. decide_s. rewrite p2b_hs_closed; [reflexivity | lra | lra].
    - exists (p2chsR (H4c s) s). assert (K1 := pd_all s ltac:(lra)). q2r K1. split; [|repeat split; lra].
      unfold p4_s. rewrite h4c_closed by lra. cbn [bind]. decide_s. rewrite p2c_hs_closed; [reflexivity | lra | lra]. }
  assert (P : forall a b, side a b s -> exists p, p4_s (N := RNum) (Fin s) = Ok (Fin p) /\ Q2R a < p < Q2R b).
  { intros a b [X Y]. unfold p4_s. rewrite h4d_closed by lra. cbn [bind]. decide_s. destruct (Rle_dec (b2ab s) (H4d s)) as [L|L].
    - rewrite p2b_hs_closed by lra. eexists. split; [reflexivity|]. now apply X.
    - rewrite p2a_hs_closed by lra. eexists. split; [reflexivity|]. apply Y. lra. }
  destruct (Rle_dec s 9.155) as [L|L].
  - destruct (P _ _ (pe_mid s ltac:(lra))) as (p & Ep & K). q2r K. exists p. split; [exact Ep|]. repeat split; lra.
  - destruct (P _ _ (pe_end s ltac:(lra))) as (p & Ep & K). q2r K. exists p. split; [exact Ep|]. repeat split; lra.
Qed.

(** ** The published equation *)
Lemma line_eq T : 273 <= T <= 647.1 -> if97_saturation (p4R T) T.
Proof.
  intros H. assert (R := th_range T H). exists (be (th T)). split; [now apply be_pos|]. split; [reflexivity|].
  cbv zeta. replace (T + -0.23855557567849 / (T - 650.17534844798)) with (th T) by (unfold th, Rdiv; lra).
  destruct (be_root _ R) as [E _]. revert E. unfold qA, qB, qC. set (b := be _). set (t := th _). clearbody b t. clear. intros E. lra.
Qed.
Lemma gate_s s : -0.0001545495919 < s < 9.155759395 ->
  ((lit (Num := RNum) (-0.0001545495919)%dec <? Fin s) && (Fin s <? lit 9.155759395%dec))%num = true.
Proof. intros H. cbn [ltb RNum lit cmp]. rewrite !Rltb_true; [reflexivity | |]; undec; lra. Qed.
Lemma gate_out s : ~ -0.0001545495919 < s < 9.155759395 ->
  ((lit (Num := RNum) (-0.0001545495919)%dec <? Fin s) && (Fin s <? lit 9.155759395%dec))%num = false.
Proof.
  intros H. cbn [ltb RNum lit cmp]. destruct (Rlt_dec (-0.0001545495919) s) as [L|L].
  - rewrite (Rltb_false s) by (undec; lra). now rewrite andb_false_r.
  - rewrite Rltb_false by (undec; lra). reflexivity.
Qed.

Section Api.
Context {F : Fuel}.
Lemma psat_s_line us s : -0.0001545495919 < to_si us Qs s < 9.155759395 ->
  exists p t, psat_s us (Fin s) = Ok (Fin p) /\ tsat_s us (Fin s) = Ok (Fin t) /\
    if97_saturation (to_si us Qp p) (to_si us QT t) /\ 0.000608 < to_si us Qp p < 22.0646 /\ 273 <= to_si us QT t <= 647.1.
Proof.
  intros H. destruct (p4_s_all _ H) as (p & E & B & _). destruct (p4_T4 p ltac:(lra)) as (E4 & B4 & E5).
  exists (to_user us Qp p), (to_user us QT (T4R p)). rewrite !to_si_to_user.
  split; [|split; [|split; [|split; [exact B | exact B4]]]].
  - rewrite (via1 F_psat_s us (Fin s)). cbn [run1 sig1 fst snd si lift1]. unfold psat_s. bare.
    rewrite gate_s by exact H. rewrite E. reflexivity.
  - rewrite (via1 F_tsat_s us (Fin s)). cbn [run1 sig1 fst snd si lift1]. unfold tsat_s. bare.
    rewrite gate_s by exact H. rewrite E. cbn [bind]. rewrite E4. reflexivity.
  - rewrite <- E5 at 1. now apply line_eq.
Qed.
Lemma sat_s_outside us s : ~ -0.0001545495919 < to_si us Qs s < 9.155759395 ->
  psat_s us (Fin s) = Ok NaN /\ tsat_s us (Fin s) = Ok NaN.
Proof.
  intros H. split.
  - rewrite (via1 F_psat_s us (Fin s)). cbn [run1 sig1 fst snd si lift1]. unfold psat_s. bare. rewrite gate_out by exact H. reflexivity.
  - rewrite (via1 F_tsat_s us (Fin s)). cbn [run1 sig1 fst snd si lift1]. unfold tsat_s. bare. rewrite gate_out by exact H. reflexivity.
Qed.
Lemma sat_s_agree us s : 0.001 <= to_si us Qs s <= 4.411 \/ 4.426 <= to_si us Qs s <= 9.155 ->
  exists p t, psat_s us (Fin s) = Ok (Fin p) /\ tsat_p us (Fin p) = Ok (Fin t) /\ tsat_s us (Fin s) = Ok (Fin t).
Proof.
  intros H. assert (H' : -0.0001545495919 < to_si us Qs s < 9.155759395) by lra.
  destruct (p4_s_all _ H') as (p & E & _ & B & _). specialize (B ltac:(unfold inside; lra)).
  destruct (psat_s_line us s H') as (q & t & Eq & Et & _).
  assert (Q : to_si us Qp q = p).
  { pose proof (via1 F_psat_s us (Fin s)) as V. cbn [run1 sig1 fst snd si lift1] in V. rewrite Eq in V. revert V.
    unfold psat_s. bare. rewrite gate_s by exact H'. rewrite E. cbn [bind]. intros [= ->]. apply to_si_to_user. }
  exists q, t. split; [exact Eq|]. split; [|exact Et]. rewrite <- (sat_s_R us (Fin s) q Eq); [exact Et | lra].
Qed.
(** The pressure of [psat_s] can leave the range of [tsat_p]. *)
Lemma sat_s_gap : exists s p t, -0.0001545495919 < s < 9.155759395 /\
  psat_s BARE (Fin s) = Ok (Fin p) /\ tsat_s BARE (Fin s) = Ok (Fin t) /\ tsat_p BARE (Fin p) = Ok NaN.
Proof.
  assert (H : -0.0001545495919 < 0.0009 < 9.155759395) by lra.
  destruct (p4_s_all _ H) as (p & E & B & _ & C). specialize (C ltac:(lra)).
  destruct (p4_T4 p ltac:(lra)) as (E4 & _ & _).
  exists 0.0009, p, (T4R p). split; [exact H|]. split; [|split].
  - unfold psat_s. bare. rewrite gate_s by exact H. rewrite E. reflexivity.
  - unfold tsat_s. bare. rewrite gate_s by exact H. rewrite E. cbn [bind]. rewrite E4. reflexivity.
  - unfold tsat_p. bare. cbn [ltb RNum lit cmp]. rewrite Rltb_false by (undec; lra). reflexivity.
Qed.
(** [psat_t] and [tsat_p] follow the published equation too. *)
Lemma psat_t_line us t p : psat_t us (Fin t) = Ok (Fin p) -> if97_saturation (to_si us Qp p) (to_si us QT t).
Proof.
  pose proof (via1 F_psat_t us (Fin t)) as V. cbn [run1 sig1 fst snd si lift1] in V. rewrite V. clear V.
  intros E. apply map_ok in E. destruct E as (y & E & Ey). apply user_Fin in Ey. subst y. revert E.
  unfold psat_t. bare. match goal with |- context [if ?c then _ else _] => destruct c eqn:C end; [|discriminate].
  revert C. cbn [ltb RNum lit cmp]. rewrite andb_true_iff. intros [C1 C2]. unfold Rltb in C1, C2. destruct (Rlt_dec _ _) as [L1|] in C1; [|discriminate]. destruct (Rlt_dec _ _) as [L2|] in C2; [|discriminate]. clear C1 C2. revert L1 L2. undec. intros C1 C2.
  rewrite p4_closed by lra. cbn [bind]. intros [= <-]. apply line_eq. lra.
Qed.
End Api.
Lemma ex_entropies : -0.0001545495919 < to_si MKS Qs 6.5 < 9.155759395 /\ 4.426 <= to_si FLS Qs 1.7 <= 9.155 /\
  ~ -0.0001545495919 < to_si BARE Qs 9.2 < 9.155759395.
Proof. unfold to_si. cbn. lra. Qed.
