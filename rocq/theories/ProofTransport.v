(** Viscosity and Prandtl number through the API. *)
From Coq Require Import ZArith Reals Lra Lia List Bool.
From Interval Require Import Tactic.
From Verif Require Import Py ExactReal ModState ModConstants ModUnits ModRegion1 ModRegion2 ModRegion3 ModRegion4
  ModRegion5 ModSelect ModTransport ModXSteam SpecUnits SpecApi SpecHW SpecTransport SpecThermo ProofUnits ProofCovariance RealSum
  ProofEos ProofSatApi ProofThermoApi ProofThermo ProofHW ProofIce ProofGeneric ProofExamples.
Import ListNotations.
Open Scope R_scope.
Local Notation sqrt := R_sqrt.sqrt.

Section Any.
Context {N : Num} {F : Fuel}.
Open Scope num_scope.
Definition tail (p T rho : num) : res num :=
    let* rhos := div rho #317.763 in
    let* Ts := div T #647.226 in
    if ((T >? (#900 + #273.15)) || ((T >? (#600 + #273.15)) && (p >? #300)) || ((T >? (#150 + #273.15)) && (p >? #350)) || (p >? #500))%num then
      Ok nan
    else
    let* q24 := powf Ts #0.5 in
    let* q25 := div #0.978197 Ts in
    let* q26 := powz Ts 2 in
    let* q27 := div #0.579829 q26 in
    let* q28 := powz Ts 3 in
    let* q29 := div #0.202354 q28 in
    let* my0 := div q24 (#1 + q25 + q27 - q29) in
    let temp_sum := (#0)%num in
    let* temp_sum := for_each (combine (zrange 0 6) (combine (slice 0 6 my_AllRegions_pT_h0) (combine (slice 0 6 my_AllRegions_pT_h1) (combine (slice 0 6 my_AllRegions_pT_h2) (combine (slice 0 6 my_AllRegions_pT_h3) (combine (slice 0 6 my_AllRegions_pT_h4) (combine (slice 0 6 my_AllRegions_pT_h5) (slice 0 6 my_AllRegions_pT_h6)))))))) temp_sum (fun temp_sum '(i, (h0_i, (h1_i, (h2_i, (h3_i, (h4_i, (h5_i, h6_i))))))) =>
        let* q31 := div #1 Ts in
        let* q32 := powz (q31 - #1) i in
        let* q33 := div #1 Ts in
        let* q34 := powz (q33 - #1) i in
        let* q35 := powz (rhos - #1) 1 in
        let* q36 := div #1 Ts in
        let* q37 := powz (q36 - #1) i in
        let* q38 := powz (rhos - #1) 2 in
        let* q39 := div #1 Ts in
        let* q40 := powz (q39 - #1) i in
        let* q41 := powz (rhos - #1) 3 in
        let* q42 := div #1 Ts in
        let* q43 := powz (q42 - #1) i in
        let* q44 := powz (rhos - #1) 4 in
        let* q45 := div #1 Ts in
        let* q46 := powz (q45 - #1) i in
        let* q47 := powz (rhos - #1) 5 in
        let* q48 := div #1 Ts in
        let* q49 := powz (q48 - #1) i in
        let* q50 := powz (rhos - #1) 6 in
        let temp_sum := (temp_sum + (lit h0_i) * q32 + (lit h1_i) * q34 * q35 + (lit h2_i) * q37 * q38 + (lit h3_i) * q40 * q41 + (lit h4_i) * q43 * q44 + (lit h5_i) * q46 * q47 + (lit h6_i) * q49 * q50)%num in
        Ok temp_sum) in
    let* my1 := exp (rhos * temp_sum) in
    let mys := (my0 * my1)%num in
    Ok (mys * #0.000055071).

Definition flows (r : Z) : Prop := r = 1%Z \/ r = 2%Z \/ r = 3%Z \/ r = 5%Z.
Lemma my_pT_split p T r : region_pT p T = Ok r -> flows r ->
  my_AllRegions_pT p T = let* rho := rho_pt BARE p T in tail p T rho.
Proof.
  intros E H. unfold my_AllRegions_pT, rho_pt, v_pt. bare. rewrite E. cbn [bind].
  destruct H as [-> | [-> | [-> | ->]]]; cbn [Z.eqb Pos.eqb bind].
  - destruct (v1_pT p T); cbn [bind]; [|reflexivity]. bare. destruct (div _ _); reflexivity.
  - destruct (v2_pT p T); cbn [bind]; [|reflexivity]. bare. destruct (div _ _); reflexivity.
  - destruct (h3_pT p T); cbn [bind]; [|reflexivity]. destruct (v3_ph p _); cbn [bind]; [|reflexivity].
    bare. destruct (div _ _); reflexivity.
  - destruct (v5_pT p T); cbn [bind]; [|reflexivity]. bare. destruct (div _ _); reflexivity.
Qed.
Lemma my_ph_split p h r m : region_ph p h = Ok r -> flows r ->
  my_AllRegions_ph p h = Ok m <->
  exists T rho, t_ph BARE p h = Ok T /\ rho_ph BARE p h = Ok rho /\ tail p T rho = Ok m.
Proof.
  intros E H. unfold my_AllRegions_ph, rho_ph, v_ph, t_ph. bare. rewrite E. cbn [bind].
  destruct H as [-> | [-> | [-> | ->]]]; cbn [Z.eqb Pos.eqb bind].
  - destruct (T1_ph p h) as [T|]; cbn [bind]; [|split; [discriminate | now intros (? & ? & ? & _)]].
    destruct (v1_pT p T) as [v|]; cbn [bind]; [|split; [discriminate | now intros (? & ? & _ & ? & _)]].
    bare. destruct (div _ v) as [rho|]; cbn [bind]; [|split; [discriminate | now intros (? & ? & _ & ? & _)]].
    split; [intros K; exists T, rho; auto | intros (T' & rho' & [= <-] & [= <-] & K); exact K].
  - destruct (T2_ph p h) as [T|]; cbn [bind]; [|split; [discriminate | now intros (? & ? & ? & _)]].
    destruct (v2_pT p T) as [v|]; cbn [bind]; [|split; [discriminate | now intros (? & ? & _ & ? & _)]].
    bare. destruct (div _ v) as [rho|]; cbn [bind]; [|split; [discriminate | now intros (? & ? & _ & ? & _)]].
    split; [intros K; exists T, rho; auto | intros (T' & rho' & [= <-] & [= <-] & K); exact K].
  - destruct (v3_ph p h) as [v|]; cbn [bind]; [|split; [discriminate | now intros (? & ? & _ & ? & _)]].
    bare. destruct (div _ v) as [rho|]; cbn [bind]; [|split; [discriminate | now intros (? & ? & _ & ? & _)]].
    destruct (T3_ph p h) as [T|]; cbn [bind]; [|split; [discriminate | now intros (? & ? & ? & _)]].
    split; [intros K; exists T, rho; auto | intros (T' & rho' & [= <-] & [= <-] & K); exact K].
  - destruct (T5_ph p h) as [T|]; cbn [bind]; [|split; [discriminate | now intros (? & ? & ? & _)]].
    destruct (v5_pT p T) as [v|]; cbn [bind]; [|split; [discriminate | now intros (? & ? & _ & ? & _)]].
    bare. destruct (div _ v) as [rho|]; cbn [bind]; [|split; [discriminate | now intros (? & ? & _ & ? & _)]].
    split; [intros K; exists T, rho; auto | intros (T' & rho' & [= <-] & [= <-] & K); exact K].
Qed.
End Any.

(** ** The formula on real numbers *)
Definition vden (t : R) := 1 + 0.978197 / t + 0.579829 / t ^ 2 - 0.202354 / t ^ 3.
Ltac unroll :=
  cbn [for_each combine zrange slice firstn skipn my_AllRegions_pT_h0 my_AllRegions_pT_h1 my_AllRegions_pT_h2
       my_AllRegions_pT_h3 my_AllRegions_pT_h4 my_AllRegions_pT_h5 my_AllRegions_pT_h6 Nat.sub map seq];
  repeat match goal with |- context [Z.of_nat ?n] => let z := eval compute in (Z.of_nat n) in change (Z.of_nat n) with z end.
Lemma hot_flag p T : p <= 300 ->
  ((ltb (Num := RNum) (add (Num := RNum) (lit 900%dec) (lit 273.15%dec)) (Fin T)) ||
   ((ltb (Num := RNum) (add (Num := RNum) (lit 600%dec) (lit 273.15%dec)) (Fin T)) && (ltb (Num := RNum) (lit 300%dec) (Fin p))) ||
   ((ltb (Num := RNum) (add (Num := RNum) (lit 150%dec) (lit 273.15%dec)) (Fin T)) && (ltb (Num := RNum) (lit 350%dec) (Fin p))) ||
   (ltb (Num := RNum) (lit 500%dec) (Fin p)))%bool = Rltb 1173.15 T.
Proof.
  intros H. cbn [ltb add RNum lit lift2 cmp]. undec. repeat cases1; try reflexivity; exfalso; lra.
Qed.
Lemma tail_hot p T rho : p <= 300 -> 1173.15 < T -> tail (Fin p) (Fin T) rho = Ok NaN.
Proof.
  intros Hp HT. unfold tail. rewrite hot_flag by exact Hp. rewrite Rltb_true by exact HT.
  cbn [div RNum lit]. unfold xdiv. rewrite !Reqb_false by known. reflexivity.
Qed.
Lemma tail_num p T rho : p <= 300 -> 0 < T <= 1173.15 -> vden (T / 647.226) <> 0 ->
  tail (Fin p) (Fin T) (Fin rho) = Ok (Fin (viscosity rho T)).
Proof.
  intros Hp HT Hd. unfold tail. rewrite hot_flag by exact Hp. rewrite Rltb_false by lra. hred.
  rewrite (xdiv_Fin rho) by known. hred. rewrite (xdiv_Fin T) by known. hred.
  assert (Hr : rho / D 317.763%dec = rho / 317.763) by (undec; lra).
  assert (Et : T / D 647.226%dec = T / 647.226) by (undec; lra).
  rewrite Hr, Et. unfold viscosity. cbv zeta.
  assert (P : 0 < T / 647.226) by (apply Rdiv_lt_0_compat; lra).
  set (t := T / 647.226) in *. set (r := rho / 317.763). clearbody t r. clear Hr Et T rho Hp HT.
  assert (P0 : t <> 0) by lra.
  change (xpowf (Fin t) (Fin (D 0.5%dec))) with (powf (Num := RNum) (Fin t) (lit 0.5%dec)).
  rewrite powf_half by lra. unroll. hev.
  assert (SA : D 1%dec + D 0.978197%dec / t + D 0.579829%dec / t ^ Pos.to_nat 2 - D 0.202354%dec / t ^ Pos.to_nat 3 = vden t).
  { unfold vden. lits. field. lra. }
  rewrite SA.
  apply f_equal, f_equal. unfold visc_mu0, visc_mu1, visc_H, B. fold (vden t). cbn [sumf].
  replace (D 0.000055071%dec) with 0.000055071 by (undec; lra).
  rewrite (Rmult_comm _ 0.000055071). f_equal. f_equal. f_equal. f_equal.
  replace (D 1%dec) with 1 by (undec; lra). set (q := r - 1).
  replace (1 / t) with (/ t) by (field; lra).
  set (s := / t - 1).
  lits.
  field.
Qed.
Lemma vden_pos t : 0.3 <= t <= 2 -> 0 < vden t.
Proof. intros H. unfold vden. interval with (i_bisect t, i_depth 12). Qed.
Lemma viscosity_pos rho T : 200 <= T <= 1173.15 -> 0 < viscosity rho T.
Proof.
  intros H. unfold viscosity. cbv zeta. set (t := T / 647.226).
  assert (Ht : 0.3 <= t <= 2) by (unfold t; lra).
  unfold visc_mu0, visc_mu1. fold (vden t). pose proof (vden_pos t Ht).
  apply Rmult_lt_0_compat; [lra|]. apply Rmult_lt_0_compat; [|apply exp_pos].
  apply Rdiv_lt_0_compat; [apply sqrt_lt_R0; lra | assumption].
Qed.

(** ** What an answer says about the inputs of the formula *)
Lemma tail_nan_rho p T : p <= 300 -> 0 < T <= 1173.15 -> vden (T / 647.226) <> 0 ->
  tail (Fin p) (Fin T) NaN = Ok NaN.
Proof.
  intros Hp HT Hd. unfold tail. rewrite hot_flag by exact Hp. rewrite Rltb_false by lra. hred.
  rewrite (xdiv_Fin T) by known. unfold xdiv at 1. rewrite Reqb_false by known. hred.
  assert (Et : T / D 647.226%dec = T / 647.226) by (undec; lra). rewrite Et.
  assert (P : 0 < T / 647.226) by (apply Rdiv_lt_0_compat; lra).
  set (t := T / 647.226) in *. clearbody t.
  assert (P0 : t <> 0) by lra.
  change (xpowf (Fin t) (Fin (D 0.5%dec))) with (powf (Num := RNum) (Fin t) (lit 0.5%dec)).
  rewrite powf_half by lra. unroll. hev. cbn [xpowz]. hev. reflexivity.
Qed.
Lemma tail_fin p T rho m : p <= 300 -> tail (Fin p) T rho = Ok (Fin m) ->
  exists T' rho', T = Fin T' /\ rho = Fin rho' /\ 0 < T' <= 1173.15 /\ vden (T' / 647.226) <> 0.
Proof.
  intros Hp H. destruct T as [T|].
  2: { exfalso. revert H. unfold tail. hred. unfold xdiv at 1. rewrite Reqb_false by known. hred.
    cbn [ltb RNum lit cmp lift2 orb andb]. rewrite Rltb_false by known. cbn [xdiv]. hred.
    rewrite Reqb_false by known. hred. cbn [xpowf]. rewrite Reqb_false by known. hred.
    repeat (progress (cbn [xpowf xpowz xdiv Z.eqb]; hred)).
    destruct (for_each _ _ _) as [w|]; hred; discriminate. }
  destruct (Rlt_le_dec 1173.15 T) as [K|K].
  { rewrite tail_hot in H by assumption. discriminate H. }
  assert (Q : 0 < T /\ vden (T / 647.226) <> 0).
  { revert H. unfold tail. rewrite hot_flag by exact Hp. rewrite Rltb_false by lra. hred.
    unfold xdiv at 1. rewrite Reqb_false by known. hred.
    rewrite (xdiv_Fin T) by known. hred.
    assert (Et : T / D 647.226%dec = T / 647.226) by (undec; lra). rewrite Et. clear Et.
    set (t := T / 647.226).
    destruct (Rtotal_order T 0) as [L|[L|L]].
    - assert (t < 0) by (unfold t; lra). unfold xpowf. rewrite Rltb_false by lra.
      rewrite Reqb_false by known. rewrite Reqb_false by lra.
      destruct (Reqb_spec (D 0.5%dec) (IZR (Int_part (D 0.5%dec)))) as [E|_]; [|discriminate].
      exfalso. set (z := Int_part (D 0.5%dec)) in *. clearbody z. revert E. undec. intros E.
      assert (E2 : 1 = IZR (2 * z)) by (rewrite mult_IZR; lra). apply eq_IZR in E2. lia.
    - assert (E : t = 0) by (unfold t; lra). rewrite E.
      unfold xpowf. rewrite Rltb_false by lra. rewrite !Reqb_false by known. rewrite Reqb_true by reflexivity.
      rewrite Rltb_false by (undec; lra). hred. cbn [xdiv]. rewrite Reqb_true by reflexivity. discriminate.
    - assert (P : 0 < t) by (unfold t; lra). assert (P0 : t <> 0) by lra.
      change (xpowf (Fin t) (Fin (D 0.5%dec))) with (powf (Num := RNum) (Fin t) (lit 0.5%dec)).
      rewrite powf_half by lra. hred.
      rewrite (xdiv_Fin _ t) by assumption. hred.
      rewrite !xpowz_nn by lia. cbn [powerRZ]. hred. rewrite xdiv_Fin by (apply pow_nz; assumption). hred.
      rewrite xdiv_Fin by (apply pow_nz; assumption). hred.
      assert (SA : D 1%dec + D 0.978197%dec / t + D 0.579829%dec / t ^ Pos.to_nat 2 - D 0.202354%dec / t ^ Pos.to_nat 3 = vden t).
      { unfold vden. lits. field. lra. }
      rewrite SA. unfold xdiv at 1. destruct (Reqb_spec (vden t) 0) as [E|E]; [discriminate|]. auto. }
  destruct Q as [Q1 Q2]. destruct rho as [rho|].
  - exists T, rho. repeat split; auto.
  - rewrite tail_nan_rho in H by (auto; lra). discriminate H.
Qed.

Lemma to_si_BARE q x : to_si BARE q x = x.
Proof. pose proof (si_BARE q (Fin x)) as H. cbn [si lift1] in H. now apply Fin_inj in H. Qed.
Lemma to_user_BARE q x : to_user BARE q x = x.
Proof. pose proof (user_BARE q (Fin x)) as H. cbn [user lift1] in H. now apply Fin_inj in H. Qed.
Section Api.
Context {F : Fuel}.
Lemma my_pt_region us p t m : my_pt us (Fin p) (Fin t) = Ok (Fin m) ->
  exists r, region_pT (Fin (to_si us Qp p)) (Fin (to_si us QT t)) = Ok r /\ flows r.
Proof.
  unfold my_pt. rewrite to_p, to_T. cbn [bind si lift1].
  destruct (region_pT _ _) as [r|] eqn:E; cbn [bind]; [|discriminate].
  destruct (Z.eqb r 4); [discriminate|]. cbn [existsb].
  destruct (Z.eqb_spec r 1); [exists r; unfold flows; auto|].
  destruct (Z.eqb_spec r 2); [exists r; unfold flows; auto|].
  destruct (Z.eqb_spec r 3); [exists r; unfold flows; auto|].
  destruct (Z.eqb_spec r 5); [exists r; unfold flows; auto|]. cbn [orb]. discriminate.
Qed.
Lemma my_ph_region us p h m : my_ph us (Fin p) (Fin h) = Ok (Fin m) ->
  exists r, region_ph (Fin (to_si us Qp p)) (Fin (to_si us Qh h)) = Ok r /\ flows r.
Proof.
  unfold my_ph. rewrite to_p, to_h. cbn [bind si lift1].
  destruct (region_ph _ _) as [r|] eqn:E; cbn [bind]; [|discriminate]. cbn [existsb].
  destruct (Z.eqb_spec r 1); [exists r; unfold flows; auto|].
  destruct (Z.eqb_spec r 2); [exists r; unfold flows; auto|].
  destruct (Z.eqb_spec r 3); [exists r; unfold flows; auto|].
  destruct (Z.eqb_spec r 5); [exists r; unfold flows; auto|]. cbn [orb]. destruct (Z.eqb r 4); discriminate.
Qed.
Lemma my_pt_is us p t r : region_pT (Fin (to_si us Qp p)) (Fin (to_si us QT t)) = Ok r -> flows r ->
  my_pt us (Fin p) (Fin t) = let* m := my_AllRegions_pT (Fin (to_si us Qp p)) (Fin (to_si us QT t)) in Ok (user us Qmy m).
Proof.
  intros E H. unfold my_pt. rewrite to_p, to_T. cbn [bind si lift1]. rewrite E. cbn [bind].
  replace (Z.eqb r 4) with false by (destruct H as [-> | [-> | [-> | ->]]]; reflexivity).
  replace (existsb (Z.eqb r) [1; 2; 3; 5]%Z) with true by (destruct H as [-> | [-> | [-> | ->]]]; reflexivity).
  destruct (my_AllRegions_pT _ _); cbn [bind]; [|reflexivity]. now rewrite from_my.
Qed.
Lemma my_ph_is us p h r : region_ph (Fin (to_si us Qp p)) (Fin (to_si us Qh h)) = Ok r -> flows r ->
  my_ph us (Fin p) (Fin h) = let* m := my_AllRegions_ph (Fin (to_si us Qp p)) (Fin (to_si us Qh h)) in Ok (user us Qmy m).
Proof.
  intros E H. unfold my_ph. rewrite to_p, to_h. cbn [bind si lift1]. rewrite E. cbn [bind].
  replace (existsb (Z.eqb r) [1; 2; 3; 5]%Z) with true by (destruct H as [-> | [-> | [-> | ->]]]; reflexivity).
  destruct (my_AllRegions_ph _ _); cbn [bind]; [|reflexivity]. now rewrite from_my.
Qed.
Lemma flow_pT p T r : region_pT (Fin p) (Fin T) = Ok r -> flows r -> 273.15 < T /\ p <= 100.
Proof.
  intros E H. apply region_map in E.
  destruct H as [-> | [-> | [-> | ->]]]; unfold if97_region, in_range in E;
    repeat (destruct E as [E|E]; [destruct E as [Q E]; try discriminate Q; lra|]); destruct E as [Q E]; try discriminate Q; lra.
Qed.
Lemma flow_ph p h r : region_ph (Fin p) (Fin h) = Ok r -> flows r -> 0.000611657 <= p <= 100.
Proof.
  unfold region_ph. cbn [ltb RNum lit cmp].
  destruct (Rltb_spec p (D 0.000611657%dec)) as [K|K]; cbn [orb]; [intros [= <-] [H|[H|[H|H]]]; discriminate H|].
  destruct (Rltb_spec (D 100%dec) p) as [L|L]; cbn [orb]; [intros [= <-] [H|[H|[H|H]]]; discriminate H|].
  intros _ _. revert K L. undec. lra.
Qed.

Lemma rho_pt_flows p T rho : rho_pt BARE (Fin p) (Fin T) = Ok (Fin rho) ->
  exists r, region_pT (Fin p) (Fin T) = Ok r /\ flows r.
Proof.
  unfold rho_pt, v_pt. bare. rewrite region_pT_reg. cbn [bind].
  set (r := reg p T). clearbody r. intros H. exists r. split; [reflexivity|]. revert H.
  destruct (Z.eqb_spec r 1); [unfold flows; auto|].
  destruct (Z.eqb_spec r 2); [unfold flows; auto|].
  destruct (Z.eqb_spec r 3); [unfold flows; auto|].
  destruct (Z.eqb r 4); [cbn; discriminate|].
  destruct (Z.eqb_spec r 5); [unfold flows; auto|]. cbn; discriminate.
Qed.
Lemma my_pt_bare p T m : my_pt BARE (Fin p) (Fin T) = Ok (Fin m) <->
  exists rho, rho_pt BARE (Fin p) (Fin T) = Ok (Fin rho) /\ T <= 1173.15 /\ m = viscosity rho T.
Proof.
  split.
  - intros H. destruct (my_pt_region _ _ _ _ H) as (r & E & Hr). rewrite (my_pt_is _ _ _ _ E Hr) in H.
    rewrite !to_si_BARE in *. rewrite (my_pT_split _ _ _ E Hr) in H. destruct (flow_pT _ _ _ E Hr) as [HT Hp].
    destruct (rho_pt (N := RNum) BARE (Fin p) (Fin T)) as [rho|]; cbn [bind] in H; [|discriminate H].
    destruct (tail _ _ rho) as [x|] eqn:K; cbn [bind] in H; [|discriminate H].
    destruct x as [x|]; [|discriminate H].
    destruct (tail_fin p (Fin T) rho x ltac:(lra) K) as (T' & rho' & [= <-] & -> & A & B).
    exists rho'. split; [reflexivity|]. split; [lra|]. rewrite tail_num in K by (auto; lra).
    injection K as <-. injection H as <-. unfold to_user; cbn; lra.
  - intros (rho & E1 & HT & ->). destruct (rho_pt_flows _ _ _ E1) as (r & E & Hr).
    destruct (flow_pT _ _ _ E Hr) as [HT1 Hp].
    rewrite (my_pt_is BARE p T r) by (rewrite ?to_si_BARE; assumption). rewrite !to_si_BARE.
    rewrite (my_pT_split _ _ _ E Hr), E1. cbn [bind].
    assert (vden (T / 647.226) <> 0) by (apply Rgt_not_eq, vden_pos; lra).
    rewrite tail_num by (auto; lra). cbn [bind user lift1]. now rewrite to_user_BARE.
Qed.
Lemma my_ph_bare p h m : my_ph BARE (Fin p) (Fin h) = Ok (Fin m) ->
  exists rho T, t_ph BARE (Fin p) (Fin h) = Ok (Fin T) /\ rho_ph BARE (Fin p) (Fin h) = Ok (Fin rho) /\
    0 < T <= 1173.15 /\ m = viscosity rho T.
Proof.
  intros H. destruct (my_ph_region _ _ _ _ H) as (r & E & Hr). rewrite (my_ph_is _ _ _ _ E Hr) in H.
  rewrite !to_si_BARE in *. pose proof (flow_ph _ _ _ E Hr) as Hp.
  destruct (my_AllRegions_ph (N := RNum) (Fin p) (Fin h)) as [x|] eqn:K; cbn [bind] in H; [|discriminate H].
  destruct x as [x|]; [|discriminate H].
  apply (my_ph_split _ _ _ _ E Hr) in K. destruct K as (T & rho & E1 & E2 & K).
  destruct (tail_fin p T rho x ltac:(lra) K) as (T' & rho' & -> & -> & A & B).
  rewrite tail_num in K by (auto; lra). injection K as <-. injection H as <-.
  exists rho', T'. repeat split; try tauto. unfold to_user; cbn; lra.
Qed.
Lemma my_ph_bare_conv p h r rho T : region_ph (Fin p) (Fin h) = Ok r -> flows r ->
  t_ph BARE (Fin p) (Fin h) = Ok (Fin T) -> rho_ph BARE (Fin p) (Fin h) = Ok (Fin rho) ->
  200 <= T <= 1173.15 -> my_ph BARE (Fin p) (Fin h) = Ok (Fin (viscosity rho T)).
Proof.
  intros E Hr E1 E2 HT. pose proof (flow_ph _ _ _ E Hr) as Hp.
  rewrite (my_ph_is BARE p h r) by (rewrite ?to_si_BARE; assumption). rewrite !to_si_BARE.
  assert (K : my_AllRegions_ph (Fin p) (Fin h) = Ok (Fin (viscosity rho T))).
  { apply (my_ph_split _ _ _ _ E Hr). exists (Fin T), (Fin rho). repeat split; auto.
    assert (vden (T / 647.226) <> 0) by (apply Rgt_not_eq, vden_pos; lra).
    apply tail_num; auto; lra. }
  rewrite K. cbn [bind user lift1]. now rewrite to_user_BARE.
Qed.

(** ** In every unit system *)
Lemma to_si_user us q x : to_si us q (to_user us q x) = x.
Proof. pose proof (si_user us q (Fin x)) as H. cbn [user si lift1] in H. now apply Fin_inj in H. Qed.
Lemma to_user_si us q x : to_user us q (to_si us q x) = x.
Proof. pose proof (user_si us q (Fin x)) as H. cbn [user si lift1] in H. now apply Fin_inj in H. Qed.
Lemma at_units f us x y z : f <> F_p_hrho ->
  run2 f us (Fin x) (Fin y) = Ok (Fin z) <->
  run2 f BARE (Fin (to_si us (fst (fst (sig2 f))) x)) (Fin (to_si us (snd (fst (sig2 f))) y)) =
    Ok (Fin (to_si us (snd (sig2 f)) z)).
Proof.
  intros H. rewrite (via2 f us _ _ H). cbn [si lift1].
  destruct (run2 f BARE _ _) as [[w|]|]; cbn [map_res user lift1]; split; try discriminate.
  - intros [= <-]. now rewrite to_si_user.
  - intros [= ->]. now rewrite to_user_si.
Qed.
Lemma my_pt_any us p t m : my_pt us (Fin p) (Fin t) = Ok (Fin m) <->
  exists rho, rho_pt us (Fin p) (Fin t) = Ok (Fin rho) /\ to_si us QT t <= 1173.15 /\
    m = to_user us Qmy (viscosity (to_si us Qrho rho) (to_si us QT t)).
Proof.
  pose proof (fun z => at_units F_my_pt us p t z ltac:(discriminate)) as A.
  pose proof (fun z => at_units F_rho_pt us p t z ltac:(discriminate)) as B.
  cbn [run2 sig2 fst snd] in A, B. rewrite A, my_pt_bare. split.
  - intros (rho & E & H & M). exists (to_user us Qrho rho). rewrite B, to_si_user.
    repeat split; auto. now rewrite <- M, to_user_si.
  - intros (rho & E & H & ->). exists (to_si us Qrho rho). rewrite <- B, to_si_user. auto.
Qed.
Lemma my_ph_any us p h m : my_ph us (Fin p) (Fin h) = Ok (Fin m) ->
  exists rho T, t_ph us (Fin p) (Fin h) = Ok (Fin T) /\ rho_ph us (Fin p) (Fin h) = Ok (Fin rho) /\
    0 < to_si us QT T <= 1173.15 /\ m = to_user us Qmy (viscosity (to_si us Qrho rho) (to_si us QT T)).
Proof.
  pose proof (fun z => at_units F_my_ph us p h z ltac:(discriminate)) as A.
  pose proof (fun z => at_units F_rho_ph us p h z ltac:(discriminate)) as B.
  pose proof (fun z => at_units F_t_ph us p h z ltac:(discriminate)) as C.
  cbn [run2 sig2 fst snd] in A, B, C. rewrite A. intros H. apply my_ph_bare in H.
  destruct H as (rho & T & E1 & E2 & HT & M). exists (to_user us Qrho rho), (to_user us QT T).
  rewrite B, C, !to_si_user. repeat split; auto; try apply HT. now rewrite <- M, to_user_si.
Qed.
Lemma my_ph_conv us p h r rho T :
  region_ph (Fin (to_si us Qp p)) (Fin (to_si us Qh h)) = Ok r -> r <> 0%Z -> r <> 4%Z ->
  t_ph us (Fin p) (Fin h) = Ok (Fin T) -> rho_ph us (Fin p) (Fin h) = Ok (Fin rho) ->
  200 <= to_si us QT T <= 1173.15 ->
  my_ph us (Fin p) (Fin h) = Ok (Fin (to_user us Qmy (viscosity (to_si us Qrho rho) (to_si us QT T)))).
Proof.
  pose proof (fun z => at_units F_my_ph us p h z ltac:(discriminate)) as A.
  pose proof (fun z => at_units F_rho_ph us p h z ltac:(discriminate)) as B.
  pose proof (fun z => at_units F_t_ph us p h z ltac:(discriminate)) as C.
  cbn [run2 sig2 fst snd] in A, B, C. rewrite A, B, C. intros E N0 N4 E1 E2 HT.
  rewrite to_si_user. apply (my_ph_bare_conv _ _ r); auto.
  pose proof (region_ph_range _ _ _ E). unfold flows. lia.
Qed.
Lemma to_user_my_pos us x : 0 < x -> 0 < to_user us Qmy x.
Proof. intros H. unfold to_user. destruct us; cbn [origin factor shift]; lra. Qed.
Lemma my_pt_pos us p t m : my_pt us (Fin p) (Fin t) = Ok (Fin m) -> 0 < m.
Proof.
  intros H. destruct (my_pt_region _ _ _ _ H) as (r & E & Hr). destruct (flow_pT _ _ _ E Hr) as [HT Hp].
  apply my_pt_any in H. destruct H as (rho & E1 & HT1 & ->). apply to_user_my_pos, viscosity_pos. lra.
Qed.
Lemma my_ph_pos us p h m T : my_ph us (Fin p) (Fin h) = Ok (Fin m) -> t_ph us (Fin p) (Fin h) = Ok (Fin T) ->
  200 <= to_si us QT T -> 0 < m.
Proof.
  intros H E L. apply my_ph_any in H. destruct H as (rho & T' & E1 & E2 & HT & ->).
  rewrite E in E1. injection E1 as <-. apply to_user_my_pos, viscosity_pos. lra.
Qed.

(** ** Prandtl number *)
Lemma prandtl_eq cp m k x : (let* Cp := cp in let* my := m in let* tc := k in div (Num := RNum) (mul (Num := RNum) (mul (Num := RNum) Cp (lit 1000%dec)) my) tc) = Ok (Fin x) <->
  exists a b c, cp = Ok (Fin a) /\ m = Ok (Fin b) /\ k = Ok (Fin c) /\ c <> 0 /\ x = a * 1000 * b / c.
Proof.
  split.
  - destruct cp as [[a|]|]; cbn [bind]; [| |discriminate].
    + destruct m as [[b|]|]; cbn [bind]; [| |discriminate].
      * destruct k as [[c|]|]; cbn [bind]; [| |discriminate]; hred; unfold xdiv; [|discriminate].
        destruct (Reqb_spec c 0) as [|N]; [discriminate|]. hred. intros [= <-].
        exists a, b, c. repeat split; auto.
      * destruct k as [[c|]|]; cbn [bind]; try discriminate; hred; unfold xdiv; try discriminate;
        destruct (Reqb_spec c 0); discriminate.
    + destruct m as [[b|]|]; cbn [bind]; [| |discriminate];
      (destruct k as [[c|]|]; cbn [bind]; try discriminate; hred; unfold xdiv; try discriminate;
        destruct (Reqb_spec c 0); discriminate).
  - intros (a & b & c & -> & -> & -> & N & ->). hred. rewrite xdiv_Fin by exact N. reflexivity.
Qed.

Lemma si_ok us q r x : (let* a := r in Ok (si us q a)) = Ok (Fin x) <-> exists a, r = Ok (Fin a) /\ x = to_si us q a.
Proof.
  destruct r as [[a|]|]; cbn [bind si lift1]; split; try discriminate.
  - intros [= <-]. eauto.
  - now intros (b & [= <-] & ->).
  - now intros (b & [=] & _).
  - now intros (b & [=] & _).
Qed.
Lemma pr_shape {A B C} (us : unit_system) (cp m k : res xr) : A = cp -> B = m -> C = k ->
  (let* q1 := A in let* Cp := toSIunit_Cp us q1 in let* q3 := B in let* my := toSIunit_my us q3 in
   let* q5 := C in let* tc := toSIunit_tc us q5 in
   div (Num := RNum) (mul (Num := RNum) (mul (Num := RNum) Cp (lit 1000%dec)) my) tc) =
  (let* Cp := (let* a := cp in Ok (si us QCp a)) in let* my := (let* a := m in Ok (si us Qmy a)) in
   let* tc := (let* a := k in Ok (si us Qtc a)) in
   div (Num := RNum) (mul (Num := RNum) (mul (Num := RNum) Cp (lit 1000%dec)) my) tc).
Proof.
  intros -> -> ->. destruct cp; cbn [bind]; [|reflexivity]. rewrite to_Cp. cbn [bind].
  destruct m; cbn [bind]; [|reflexivity]. rewrite to_my. cbn [bind].
  destruct k; cbn [bind]; [|reflexivity]. rewrite to_tc. reflexivity.
Qed.
Lemma pr_pt_any us p t x : pr_pt us (Fin p) (Fin t) = Ok (Fin x) <->
  exists cp m k, Cp_pt us (Fin p) (Fin t) = Ok (Fin cp) /\ my_pt us (Fin p) (Fin t) = Ok (Fin m) /\
    tc_pt us (Fin p) (Fin t) = Ok (Fin k) /\ to_si us Qtc k <> 0 /\
    x = to_si us QCp cp * 1000 * to_si us Qmy m / to_si us Qtc k.
Proof.
  unfold pr_pt. rewrite (pr_shape us _ _ _ eq_refl eq_refl eq_refl), prandtl_eq. split.
  - intros (a & b & c & Ha & Hb & Hc & N & ->). apply si_ok in Ha, Hb, Hc.
    destruct Ha as (cp & Ha & ->), Hb as (m & Hb & ->), Hc as (k & Hc & ->). exists cp, m, k. auto.
  - intros (cp & m & k & Ha & Hb & Hc & N & ->). do 3 eexists. rewrite !si_ok. repeat split; eauto.
Qed.
Lemma pr_ph_any us p h x : pr_ph us (Fin p) (Fin h) = Ok (Fin x) <->
  exists cp m k, Cp_ph us (Fin p) (Fin h) = Ok (Fin cp) /\ my_ph us (Fin p) (Fin h) = Ok (Fin m) /\
    tc_ph us (Fin p) (Fin h) = Ok (Fin k) /\ to_si us Qtc k <> 0 /\
    x = to_si us QCp cp * 1000 * to_si us Qmy m / to_si us Qtc k.
Proof.
  unfold pr_ph. rewrite (pr_shape us _ _ _ eq_refl eq_refl eq_refl), prandtl_eq. split.
  - intros (a & b & c & Ha & Hb & Hc & N & ->). apply si_ok in Ha, Hb, Hc.
    destruct Ha as (cp & Ha & ->), Hb as (m & Hb & ->), Hc as (k & Hc & ->). exists cp, m, k. auto.
  - intros (cp & m & k & Ha & Hb & Hc & N & ->). do 3 eexists. rewrite !si_ok. repeat split; eauto.
Qed.
Lemma pr_pt_units us p t : pr_pt us p t = pr_pt BARE (si us Qp p) (si us QT t).
Proof.
  pose proof (via2 F_pr_pt us p t ltac:(discriminate)) as V. cbn [run2 sig2 fst snd] in V. rewrite V.
  clear V. destruct (pr_pt BARE _ _); cbn [map_res]; [|reflexivity]. now rewrite user_one.
Qed.
Lemma pr_ph_units us p h : pr_ph us p h = pr_ph BARE (si us Qp p) (si us Qh h).
Proof.
  pose proof (via2 F_pr_ph us p h ltac:(discriminate)) as V. cbn [run2 sig2 fst snd] in V. rewrite V.
  clear V. destruct (pr_ph BARE _ _); cbn [map_res]; [|reflexivity]. now rewrite user_one.
Qed.
End Api.
