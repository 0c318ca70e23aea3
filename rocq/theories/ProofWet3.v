(** Wet steam below 16.529 MPa, in every unit system. *)
From Coq Require Import ZArith Reals Lra Lia List Bool.
From Interval Require Import Tactic.
From Verif Require Import Py ExactReal ModState ModConstants ModUnits ModXSteam SpecUnits SpecApi SpecRange
  SpecThermo SpecWet ProofUnits ProofCovariance ProofSat ProofSatApi ProofThermo ProofThermoApi ProofMisc ProofWet ProofWetApi ProofWet2.
Open Scope R_scope.

Lemma to_user_le us q x y : x <= y <-> to_user us q x <= to_user us q y.
Proof.
  split; intros H; apply Rnot_lt_le; intros K; apply Rle_not_lt in H; apply H; [now apply (to_user_lt us q) | now apply to_user_lt].
Qed.
Lemma to_user_mix us q a b x : to_user us q (mix a b x) = mix (to_user us q a) (to_user us q b) x.
Proof. unfold mix, to_user. ring. Qed.
Lemma mix_between a b x : a < b -> 0 < x < 1 -> a < mix a b x < b.
Proof.
  intros H Hx. unfold mix. assert (0 < x * (b - a)) by (apply Rmult_lt_0_compat; lra).
  assert (0 < (1 - x) * (b - a)) by (apply Rmult_lt_0_compat; lra). lra.
Qed.

Lemma one_user us x : to_user us Qone x = x.
Proof. unfold to_user; destruct us; cbn [origin shift factor]; ring. Qed.
Lemma one_si us x : to_si us Qone x = x.
Proof. unfold to_si; destruct us; cbn [origin shift factor]; field. Qed.

Section Api.
Context {F : Fuel}.
Ltac up1 f us p :=
  let V := fresh "V" in
  pose proof (via1 f us (Fin p)) as V; cbn [run1 sig1 fst snd si lift1] in V; rewrite V; clear V.
Ltac up2 f us p y :=
  let V := fresh "V" in
  pose proof (via2 f us (Fin p) (Fin y) ltac:(discriminate)) as V;
  cbn [run2 sig2 fst snd si lift1] in V; rewrite V; clear V.

Lemma saturated_low us p : in_low us p ->
  let P := to_si us Qp p in
  saturated us p (to_user us Qh (hL P)) (to_user us Qh (hV P)) (to_user us Qs (sL P)) (to_user us Qs (sV P))
    (to_user us Qv (vL P)) (to_user us Qv (vV P)) (to_user us Qu (uL P)) (to_user us Qu (uV P)).
Proof.
  intros H. cbv zeta. unfold saturated.
  up1 F_hL_p us p. up1 F_hV_p us p. up1 F_sL_p us p. up1 F_sV_p us p.
  up1 F_vL_p us p. up1 F_vV_p us p. up1 F_uL_p us p. up1 F_uV_p us p.
  destruct (sat_low (to_si us Qp p) H) as (-> & -> & -> & -> & -> & -> & -> & ->). repeat split.
Qed.
Lemma zero_v us : to_user us Qv 0 = 0.
Proof. unfold to_user; destruct us; cbn [origin shift]; ring. Qed.
Lemma zero_s us : to_user us Qs 0 = 0.
Proof. unfold to_user; destruct us; cbn [origin shift]; ring. Qed.

Lemma vapour_above us p : in_low us p ->
  exists hl hv sl sv vl vv ul uv, saturated us p hl hv sl sv vl vv ul uv /\
    hl < hv /\ sl < sv /\ 0 < vl < vv /\ ul < uv.
Proof.
  intros H. do 8 eexists. split; [exact (saturated_low us p H)|].
  destruct (above_low (to_si us Qp p) ltac:(unfold in_low in H; lra)) as (A & B & C & D).
  rewrite <- (zero_v us). repeat split; now apply to_user_lt.
Qed.

Lemma quality_user us q lo hi y : lo < hi ->
  let x := quality lo hi (to_si us q y) in
  0 <= x <= 1 /\ (y <= to_user us q lo -> x = 0) /\ (to_user us q hi <= y -> x = 1) /\
  (to_user us q lo <= y <= to_user us q hi -> y = to_user us q lo + x * (to_user us q hi - to_user us q lo)).
Proof.
  intros H. destruct (quality_spec lo hi (to_si us q y) H) as (A & B & C & D & _). cbv zeta.
  set (x := quality lo hi (to_si us q y)) in *.
  assert (E : y = to_user us q (to_si us q y)) by (now rewrite to_user_to_si).
  split; [exact A|]. split; [|split].
  - intros K. apply B. apply (to_user_le us q). now rewrite <- E.
  - intros K. apply C. apply (to_user_le us q). now rewrite <- E.
  - intros [K K']. rewrite E at 1. rewrite D; [apply to_user_mix|].
    split; apply (to_user_le us q); now rewrite <- E.
Qed.

Lemma x_ph_api us p h : in_low us p -> exists hl hv x,
  hL_p us (Fin p) = Ok (Fin hl) /\ hV_p us (Fin p) = Ok (Fin hv) /\ x_ph us (Fin p) (Fin h) = Ok (Fin x) /\
  0 <= x <= 1 /\ (h <= hl -> x = 0) /\ (hv <= h -> x = 1) /\ (hl <= h <= hv -> h = hl + x * (hv - hl)).
Proof.
  intros H. destruct (saturated_low us p H) as (E1 & E2 & _). do 3 eexists. split; [exact E1|]. split; [exact E2|].
  split; [up2 F_x_ph us p h; rewrite x_ph_low by exact H; reflexivity|].
  destruct (above_low (to_si us Qp p) ltac:(unfold in_low in H; lra)) as (A & _).
  rewrite one_user.
  now apply quality_user.
Qed.
Lemma x_ps_api us p s : in_low us p -> exists sl sv x,
  sL_p us (Fin p) = Ok (Fin sl) /\ sV_p us (Fin p) = Ok (Fin sv) /\ x_ps us (Fin p) (Fin s) = Ok (Fin x) /\
  0 <= x <= 1 /\ (s <= sl -> x = 0) /\ (sv <= s -> x = 1) /\ (sl <= s <= sv -> s = sl + x * (sv - sl)).
Proof.
  intros H. destruct (saturated_low us p H) as (_ & _ & E1 & E2 & _). do 3 eexists. split; [exact E1|]. split; [exact E2|].
  split; [up2 F_x_ps us p s; rewrite x_ps_low by exact H; reflexivity|].
  destruct (above_low (to_si us Qp p) ltac:(unfold in_low in H; lra)) as (_ & A & _).
  rewrite one_user.
  now apply quality_user.
Qed.

Lemma h_px_api us p x : in_low us p -> 0 <= x <= 1 -> exists hl hv h,
  hL_p us (Fin p) = Ok (Fin hl) /\ hV_p us (Fin p) = Ok (Fin hv) /\
  h_px us (Fin p) (Fin x) = Ok (Fin h) /\ h = hl + x * (hv - hl) /\ x_ph us (Fin p) (Fin h) = Ok (Fin x).
Proof.
  intros H Hx. destruct (saturated_low us p H) as (E1 & E2 & _). do 3 eexists. split; [exact E1|]. split; [exact E2|].
  destruct (above_low (to_si us Qp p) ltac:(unfold in_low in H; lra)) as (A & _).
  split; [up2 F_h_px us p x; rewrite one_si, h_px_low by assumption; reflexivity|].
  split; [apply (to_user_mix us Qh)|].
  match goal with |- x_ph _ _ (Fin ?h) = _ => up2 F_x_ph us p h end.
  rewrite to_si_to_user, x_ph_low, quality_mix by assumption. cbn [map_res user lift1]. now rewrite one_user.
Qed.

(** Volume share of the vapour *)
Lemma share_user us p x : in_low us p -> 0 <= x <= 1 ->
  let P := to_si us Qp p in
  let vl := to_user us Qv (vL P) in let vv := to_user us Qv (vV P) in
  0 <= share P x <= 1 /\ share P x * (x * vv + (1 - x) * vl) = x * vv /\ 0 < x * vv + (1 - x) * vl.
Proof.
  intros H Hx. cbv zeta.
  split; [now apply share_range|].
  pose proof (share_den _ H x Hx) as K.
  assert (E : forall y, to_user us Qv y = y * factor us Qv).
  { intros y. unfold to_user; destruct us; cbn [origin shift]; ring. }
  rewrite !E.
  replace (x * (vV (to_si us Qp p) * factor us Qv) + (1 - x) * (vL (to_si us Qp p) * factor us Qv))
    with ((x * vV (to_si us Qp p) + (1 - x) * vL (to_si us Qp p)) * factor us Qv) by ring.
  split.
  - unfold share. field. lra.
  - apply Rmult_lt_0_compat; [easy | apply factor_pos].
Qed.
Lemma vx_ph_api us p h : in_low us p -> exists x vl vv vx,
  x_ph us (Fin p) (Fin h) = Ok (Fin x) /\ vL_p us (Fin p) = Ok (Fin vl) /\ vV_p us (Fin p) = Ok (Fin vv) /\
  vx_ph us (Fin p) (Fin h) = Ok (Fin vx) /\
  0 <= vx <= 1 /\ vx * (x * vv + (1 - x) * vl) = x * vv /\ 0 < x * vv + (1 - x) * vl.
Proof.
  intros H. destruct (saturated_low us p H) as (_ & _ & _ & _ & E1 & E2 & _).
  exists (quality (hL (to_si us Qp p)) (hV (to_si us Qp p)) (to_si us Qh h)). do 3 eexists.
  split. { up2 F_x_ph us p h. rewrite x_ph_low by exact H. cbn [map_res user lift1]. now rewrite one_user. }
  split; [exact E1|]. split; [exact E2|]. split.
  { up2 F_vx_ph us p h. rewrite vx_ph_low by exact H. cbn [map_res user lift1]. now rewrite one_user. }
  apply share_user; [exact H|].
  apply quality_spec. apply above_low. unfold in_low in H; lra.
Qed.
Lemma vx_ps_api us p s : in_low us p -> exists x vl vv vx,
  x_ps us (Fin p) (Fin s) = Ok (Fin x) /\ vL_p us (Fin p) = Ok (Fin vl) /\ vV_p us (Fin p) = Ok (Fin vv) /\
  vx_ps us (Fin p) (Fin s) = Ok (Fin vx) /\
  0 <= vx <= 1 /\ vx * (x * vv + (1 - x) * vl) = x * vv /\ 0 < x * vv + (1 - x) * vl.
Proof.
  intros H. destruct (saturated_low us p H) as (_ & _ & _ & _ & E1 & E2 & _).
  exists (quality (sL (to_si us Qp p)) (sV (to_si us Qp p)) (to_si us Qs s)). do 3 eexists.
  split. { up2 F_x_ps us p s. rewrite x_ps_low by exact H. cbn [map_res user lift1]. now rewrite one_user. }
  split; [exact E1|]. split; [exact E2|]. split.
  { up2 F_vx_ps us p s. rewrite vx_ps_low by exact H. cbn [map_res user lift1]. now rewrite one_user. }
  apply share_user; [exact H|].
  apply quality_spec. apply above_low. unfold in_low in H; lra.
Qed.

(** Wet states *)
Lemma wet_ph_api us p h hl hv sl sv vl vv ul uv : in_low us p -> saturated us p hl hv sl sv vl vv ul uv ->
  hl < h < hv -> exists x, 0 < x < 1 /\ x_ph us (Fin p) (Fin h) = Ok (Fin x) /\
    h = mix hl hv x /\
    v_ph us (Fin p) (Fin h) = Ok (Fin (mix vl vv x)) /\
    s_ph us (Fin p) (Fin h) = Ok (Fin (mix sl sv x)) /\
    u_ph us (Fin p) (Fin h) = Ok (Fin (mix ul uv x)) /\
    t_ph us (Fin p) (Fin h) = tsat_p us (Fin p).
Proof.
  intros H S K. destruct (saturated_low us p H) as (E1 & E2 & E3 & E4 & E5 & E6 & E7 & E8).
  destruct S as (S1 & S2 & S3 & S4 & S5 & S6 & S7 & S8).
  rewrite E1 in S1; rewrite E2 in S2; rewrite E3 in S3; rewrite E4 in S4; rewrite E5 in S5; rewrite E6 in S6;
  rewrite E7 in S7; rewrite E8 in S8.
  injection S1 as <-; injection S2 as <-; injection S3 as <-; injection S4 as <-; injection S5 as <-;
  injection S6 as <-; injection S7 as <-; injection S8 as <-.
  set (P := to_si us Qp p) in *.
  assert (K' : hL P < to_si us Qh h < hV P).
  { split; apply (to_user_lt us Qh); rewrite to_user_to_si; apply K. }
  destruct (above_low P ltac:(unfold in_low in H; unfold P; lra)) as (A & _).
  destruct (quality_spec (hL P) (hV P) (to_si us Qh h) A) as (_ & _ & _ & Q1 & Q2 & Q3).
  exists (quality (hL P) (hV P) (to_si us Qh h)).
  split; [split; [apply Q2; lra | apply Q3; lra]|].
  split. { up2 F_x_ph us p h. rewrite x_ph_low by exact H. cbn [map_res user lift1]. now rewrite one_user. }
  split. { rewrite <- to_user_mix. unfold mix. rewrite <- Q1 by lra. now rewrite to_user_to_si. }
  destruct (wet_ph_low P H _ K') as (W1 & W2 & W3 & W4).
  split; [up2 F_v_ph us p h; fold P; rewrite W1; cbn [map_res user lift1]; now rewrite to_user_mix|].
  split; [up2 F_s_ph us p h; fold P; rewrite W2; cbn [map_res user lift1]; now rewrite to_user_mix|].
  split; [up2 F_u_ph us p h; fold P; rewrite W3; cbn [map_res user lift1]; now rewrite to_user_mix|].
  apply wet_ph_R; [apply region_ph_wet; assumption | unfold in_low in H; fold P; fold P in H; lra].
Qed.
Lemma wet_ps_api us p s hl hv sl sv vl vv ul uv : in_low us p -> saturated us p hl hv sl sv vl vv ul uv ->
  0 <= s -> sl < s <= sv -> exists x, 0 < x <= 1 /\ x_ps us (Fin p) (Fin s) = Ok (Fin x) /\
    s = mix sl sv x /\
    v_ps us (Fin p) (Fin s) = Ok (Fin (mix vl vv x)) /\
    h_ps us (Fin p) (Fin s) = Ok (Fin (mix hl hv x)) /\
    u_ps us (Fin p) (Fin s) = Ok (Fin (mix ul uv x)) /\
    t_ps us (Fin p) (Fin s) = tsat_p us (Fin p).
Proof.
  intros H S K0 K. destruct (saturated_low us p H) as (E1 & E2 & E3 & E4 & E5 & E6 & E7 & E8).
  destruct S as (S1 & S2 & S3 & S4 & S5 & S6 & S7 & S8).
  rewrite E1 in S1; rewrite E2 in S2; rewrite E3 in S3; rewrite E4 in S4; rewrite E5 in S5; rewrite E6 in S6;
  rewrite E7 in S7; rewrite E8 in S8.
  injection S1 as <-; injection S2 as <-; injection S3 as <-; injection S4 as <-; injection S5 as <-;
  injection S6 as <-; injection S7 as <-; injection S8 as <-.
  set (P := to_si us Qp p) in *.
  assert (K' : 0 <= to_si us Qs s /\ sL P < to_si us Qs s <= sV P).
  { split; [|split].
    - apply (to_user_le us Qs). now rewrite to_user_to_si, zero_s.
    - apply (to_user_lt us Qs); rewrite to_user_to_si; apply K.
    - apply (to_user_le us Qs); rewrite to_user_to_si; apply K. }
  destruct (above_low P ltac:(unfold in_low in H; unfold P; lra)) as (_ & A & _).
  destruct (quality_spec (sL P) (sV P) (to_si us Qs s) A) as (Q0 & _ & _ & Q1 & Q2 & _).
  exists (quality (sL P) (sV P) (to_si us Qs s)).
  split; [split; [apply Q2; lra | apply Q0]|].
  split. { up2 F_x_ps us p s. rewrite x_ps_low by exact H. cbn [map_res user lift1]. now rewrite one_user. }
  split. { rewrite <- to_user_mix. unfold mix. rewrite <- Q1 by lra. now rewrite to_user_to_si. }
  destruct (wet_ps_low P H _ K') as (W1 & W2 & W3 & W4).
  split; [up2 F_v_ps us p s; fold P; rewrite W1; cbn [map_res user lift1]; now rewrite to_user_mix|].
  split; [up2 F_h_ps us p s; fold P; rewrite W2; cbn [map_res user lift1]; now rewrite to_user_mix|].
  split; [up2 F_u_ps us p s; fold P; rewrite W3; cbn [map_res user lift1]; now rewrite to_user_mix|].
  apply wet_ps_R; [apply region_ps_wet; assumption | unfold in_low in H; fold P; fold P in H; lra].
Qed.

Lemma mix_inj a b x y : a < b -> mix a b x = mix a b y -> x = y.
Proof. unfold mix. intros H E. apply (Rmult_eq_reg_r (b - a)); lra. Qed.
Lemma wet_inverse us p h s hl hv sl sv vl vv ul uv : in_low us p -> saturated us p hl hv sl sv vl vv ul uv ->
  hl < h < hv -> s_ph us (Fin p) (Fin h) = Ok (Fin s) -> 0 <= s ->
  h_ps us (Fin p) (Fin s) = Ok (Fin h) /\ x_ps us (Fin p) (Fin s) = x_ph us (Fin p) (Fin h) /\
  v_ps us (Fin p) (Fin s) = v_ph us (Fin p) (Fin h) /\ u_ps us (Fin p) (Fin s) = u_ph us (Fin p) (Fin h) /\
  t_ps us (Fin p) (Fin s) = t_ph us (Fin p) (Fin h).
Proof.
  intros H S K Es P.
  destruct (wet_ph_api us p h _ _ _ _ _ _ _ _ H S K) as (x & Hx & X & Eh & V & Es' & U & Tq).
  rewrite Es' in Es. apply (f_equal (fun r => match r with Ok x => x | _ => NaN end)) in Es.
  apply Fin_inj in Es. subst s.
  assert (Ls : sl < sv).
  { destruct (vapour_above us p H) as (hl' & hv' & sl' & sv' & vl' & vv' & ul' & uv' & S' & _ & L & _).
    destruct S as (_ & _ & S3 & S4 & _). destruct S' as (_ & _ & S3' & S4' & _).
    rewrite S3 in S3'. rewrite S4 in S4'.
    apply (f_equal (fun r => match r with Ok x => x | _ => NaN end)) in S3', S4'.
    apply Fin_inj in S3', S4'. now subst. }
  pose proof (mix_between sl sv x Ls Hx) as B.
  destruct (wet_ps_api us p _ _ _ _ _ _ _ _ _ H S P ltac:(lra)) as (y & Hy & Y & Ey & V' & H' & U' & T').
  apply mix_inj in Ey; [|exact Ls]. subst y.
  rewrite Y, X, H', V', V, U', U, T', Tq, Eh. repeat split.
Qed.
End Api.
