(** t_hs, p_hs and tc_hs for wet steam of low enthalpy: the search of T4_hs starts at an absurd pressure and fails. *)
From Coq Require Import ZArith Reals Lra Lia List Bool.
From Interval Require Import Tactic.
From Verif Require Import Py ExactReal ModState ModUnits ModBorders ModRegion1 ModRegion2 ModRegion3 ModRegion4 ModSelect ModXSteam
  SpecUnits SpecApi ProofUnits ProofCovariance RealSum ProofEos ProofSat ProofSatApi ProofBack ProofMisc SatS Sat3 ProofHs
  ProofThermo ProofWet ProofWetApi ProofWet2 SpecWet.
Import ListNotations.
Open Scope R_scope.

(** ** T4_p far above the critical pressure *)
Lemma disc_big b : 2.1 <= b -> 0 < qF b ^ 2 - 4 * qE b * qG b.
Proof.
  intros H. destruct (Rle_dec b 20) as [L|L].
  - unfold qE, qF, qG. interval with (i_bisect b, i_taylor b, i_depth 25).
  - assert (P : 0 < / b <= 0.05) by (split; [apply Rinv_0_lt_compat; lra | replace 0.05 with (/ 20) by lra; apply Rinv_le_contravar; lra]).
    set (w := / b) in *. replace b with (/ w) by (unfold w; rewrite Rinv_inv; reflexivity).
    replace (qF (/ w) ^ 2 - 4 * qE (/ w) * qG (/ w)) with
      (((1167.0521452767 + 12020.82470247 * w - 4823.2657361591 * w ^ 2) ^ 2 -
        4 * (1 - 17.073846940092 * w + 14.91510861353 * w ^ 2) * (- (724213.16703206) - 3232555.0322333 * w + 405113.40542057 * w ^ 2)) / w ^ 4)
      by (unfold qE, qF, qG; field; lra).
    apply Rdiv_lt_0_compat; [|apply pow_lt; lra].
    clearbody w. interval with (i_bisect w, i_depth 20).
Qed.
Lemma qF_big b : 2.1 <= b -> 0 < qF b. Proof. intros H. unfold qF. nra. Qed.
Lemma qG_big b : 2.1 <= b -> qG b < - (700000 * b ^ 2). Proof. intros H. unfold qG. nra. Qed.
Lemma disc_top b : 2.1 <= b -> qF b ^ 2 - 4 * qE b * qG b <= (100000 * b ^ 2) ^ 2.
Proof.
  intros H.
  assert (P : 0 < / b <= / 2.1) by (split; [apply Rinv_0_lt_compat; lra | apply Rinv_le_contravar; lra]).
  set (w := / b) in *. replace b with (/ w) by (unfold w; rewrite Rinv_inv; reflexivity).
  apply Rmult_le_reg_r with (w ^ 4); [apply pow_lt; lra|].
  replace ((qF (/ w) ^ 2 - 4 * qE (/ w) * qG (/ w)) * w ^ 4) with
      ((1167.0521452767 + 12020.82470247 * w - 4823.2657361591 * w ^ 2) ^ 2 -
        4 * (1 - 17.073846940092 * w + 14.91510861353 * w ^ 2) * (- (724213.16703206) - 3232555.0322333 * w + 405113.40542057 * w ^ 2))
      by (unfold qE, qF, qG; field; lra).
  replace ((100000 * (/ w) ^ 2) ^ 2 * w ^ 4) with 10000000000 by (field; lra).
  clearbody w. interval.
Qed.
Lemma de_big b : 2.1 <= b -> 1 < de b.
Proof.
  intros H. pose proof (disc_big b H) as HD. pose proof (disc_top b H) as HT. pose proof (qF_big b H) as HF. pose proof (qG_big b H) as HG.
  assert (S : R_sqrt.sqrt (qF b ^ 2 - 4 * qE b * qG b) <= 100000 * b ^ 2).
  { rewrite <- (sqrt_pow2 (100000 * b ^ 2)) by nra. now apply sqrt_le_1_alt. }
  assert (F' : qF b <= 100000 * b ^ 2) by (unfold qF; nra).
  unfold de. pose proof (sqrt_pos (qF b ^ 2 - 4 * qE b * qG b)) as SP. set (s := R_sqrt.sqrt _) in *.
  replace (2 * qG b / (- qF b - s)) with (- 2 * qG b / (qF b + s)) by (field; lra).
  apply Rmult_lt_reg_r with (qF b + s); [lra|]. unfold Rdiv. rewrite Rmult_assoc, Rinv_l by lra. nra.
Qed.
Lemma T4_big p : 22 <= p -> T4_p (Fin p) = Ok (Fin (T4R p)) /\ T4R p <> 0.
Proof.
  intros Hp. assert (Hb : 2.1 <= Rpower p (/ 4)).
  { apply Rle_trans with (Rpower 22 (/ 4)); [interval|]. apply Rle_Rpower_l; lra. }
  split.
  - unfold T4_p, T4R. red1. unfold xpowf at 1. rewrite Rltb_true by lra. rewrite D_quarter.
    set (b := Rpower p (/ 4)) in *. red1. ev. rewrite ?powerRZ2.
    pose proof (disc_big _ Hb) as HD. pose proof (qF_big _ Hb) as HF.
    assert (EE : b ^ 2 - D 17.073846940092%dec * b + D 14.91510861353%dec = qE b) by reflexivity.
    assert (EF : D 1167.0521452767%dec * b ^ 2 + D 12020.82470247%dec * b - D 4823.2657361591%dec = qF b) by reflexivity.
    assert (EG : D (-724213.16703206)%dec * b ^ 2 - D 3232555.0322333%dec * b + D 405113.40542057%dec = qG b)
      by (unfold qG, D; cbn [dec_e dec_m]; lra).
    rewrite EE, EF, EG.
    change (xpowf (Fin (qF b ^ 2 - D 4%dec * qE b * qG b)) (Fin (D 0.5%dec)))
      with (powf (Num:=RNum) (Fin (qF b ^ 2 - 4 * qE b * qG b)) (lit 0.5%dec)).
    rewrite powf_half by lra. red1.
    pose proof (sqrt_pos (qF b ^ 2 - 4 * qE b * qG b)) as SP.
    rewrite xdiv_Fin by lra. red1.
    change (D 2%dec * qG b / (- qF b - R_sqrt.sqrt (qF b ^ 2 - 4 * qE b * qG b))) with (de b).
    ev. rewrite ?powerRZ2.
    match goal with |- context [xpowf ?x ?y] => assert (E2 : xpowf x y =
      Ok (Fin (R_sqrt.sqrt ((650.17534844798 + de b) ^ 2 - 4 * (- (0.23855557567849) + 650.17534844798 * de b))))) end.
    { match goal with |- xpowf (Fin ?a) _ = _ => replace a with
        ((650.17534844798 + de b) ^ 2 - 4 * (- (0.23855557567849) + 650.17534844798 * de b)) end.
      - apply powf_half.
        replace (_ - _) with ((650.17534844798 - de b) ^ 2 + 4 * 0.23855557567849) by ring.
        pose proof (pow2_ge_0 (650.17534844798 - de b)). lra.
      - unfold D; cbn [dec_e dec_m]; lra. }
    rewrite E2. red1. ev. reflexivity.
  - unfold T4R, Tb. pose proof (de_big _ Hb) as HD. set (d := de _) in *.
    set (X := (650.17534844798 + d) ^ 2 - 4 * (- (0.23855557567849) + 650.17534844798 * d)).
    assert (K : R_sqrt.sqrt X < 650.17534844798 + d).
    { rewrite <- (sqrt_pow2 (650.17534844798 + d)) by lra. apply sqrt_lt_1_alt. unfold X. split; [|lra].
      replace (_ - _) with ((650.17534844798 - d) ^ 2 + 4 * 0.23855557567849) by ring.
      pose proof (pow2_ge_0 (650.17534844798 - d)). lra. }
    lra.
Qed.

(** ** The pressure the search starts from *)
Ltac reals ::= cbv -[Rplus Rmult Rdiv Rminus Ropp Rinv powerRZ IZR Rlt Rle Rge Rgt ln Rpower R_sqrt.sqrt Rabs pow Rtrigo_def.exp].
Lemma P3_absurd h : 1030 <= h <= 1390 -> 60 < P3 h.
Proof. intros H. unfold P3. reals. interval with (i_bisect h, i_taylor h, i_depth 20). Qed.

(** ** The "volume" at the marker -99999 *)
Lemma vneg_small u : 0.3 <= u <= 900 -> S2 tabv3ah 0 0 u (-99999 / 2100 - 0.727) < 0.
Proof. intros H. reals. interval with (i_bisect u, i_depth 30). Qed.
Lemma S2_scale l u b : u <> 0 -> S2 l 0 0 u b = u ^ 8 * rsum (fun x => D (fst x) * powerRZ (/ u) (8 - fst (snd x)) * powerRZ b (snd (snd x))) l.
Proof.
  intros N. unfold S2. induction l as [|[d [i j]] l IH]; cbn [rsum]; [ring|]. rewrite IH. rewrite Rmult_plus_distr_l. f_equal.
  unfold tm; cbn [fst snd ff Z.of_nat]; rewrite ?Z.sub_0_r.
  assert (K : powerRZ u i = u ^ 8 * powerRZ (/ u) (8 - i)).
  { rewrite powerRZ_inv', <- powerRZ_neg' . replace (- (8 - i))%Z with (i - 8)%Z by lia.
    rewrite (pow_powerRZ u 8), <- powerRZ_add by exact N. f_equal. lia. }
  rewrite K. ring.
Qed.
Lemma vneg_big u : 900 <= u -> S2 tabv3ah 0 0 u (-99999 / 2100 - 0.727) < 0.
Proof.
  intros H. rewrite S2_scale by lra. assert (0 < u ^ 8) by (apply pow_lt; lra).
  assert (P : 0 < / u <= / 900) by (split; [apply Rinv_0_lt_compat; lra | apply Rinv_le_contravar; lra]).
  set (w := / u) in *. clearbody w. match goal with |- _ * ?x < 0 => assert (x < 0); [|nra] end.
  reals. interval.
Qed.
Lemma marker_vol p : 22 <= p -> exists v, v3_ph (Fin p) (Fin (-99999)) = Ok (Fin v) /\ v < 0.
Proof.
  intros H. eexists. split; [apply v3a_ph_closed; [lra|]|].
  - assert (Q : 0 <= 3.74696550136983 - 0.0219921901054187 * p + 8.7513168600995e-5 * p ^ 2) by nra.
    unfold ab. nra.
  -
  assert (K : S2 tabv3ah 0 0 (p / 100 + 0.128) (-99999 / 2100 - 0.727) < 0); [|lra].
  destruct (Rle_dec (p / 100 + 0.128) 900); [apply vneg_small | apply vneg_big]; lra.
Qed.
Lemma s3_negative rho T : rho < 0 -> T <> 0 -> s3_rhoT (Fin rho) (Fin T) = Err ValueError.
Proof.
  intros Hr HT. assert (Hd : dl rho < 0) by (unfold dl; lra).
  assert (Hrho : dl rho <> 0) by lra. assert (Htau : ta T <> 0) by (unfold ta; apply Rmult_integral_contrapositive; split; [lra | now apply Rinv_neq_0_compat]).
  unfold s3_rhoT. red1. rewrite (xdiv_Fin rho) by known. red1. rewrite xdiv_Fin by exact HT. red1.
  change (rho / D 322.0%dec) with (dl rho). change (D 647.096%dec / T) with (ta T).
  tabs tab3.
  erewrite (for_each_sum2 _ (fun x => tm 0 0 (dl rho) (ta T) x) (fun x => tm 0 1 (dl rho) (ta T) x)) by body ltac:(fun _ => idtac).
  red1. unfold xlog. rewrite Rltb_false by lra. reflexivity.
Qed.

(** ** Outside the pressures of the saturation line h4V_p and h4L_p answer the marker *)
Lemma marker {F : Fuel} p : 22.06395 <= p -> h4V_p (Fin p) = Ok (Fin (-99999)) /\ h4L_p (Fin p) = Ok (Fin (-99999)).
Proof.
  intros H. unfold h4V_p, h4L_p. cbn [ltb RNum lit cmp]. rewrite (Rltb_false p) by (undec; lra). rewrite andb_false_r.
  split; do 2 f_equal; undec; lra.
Qed.
Section Raise.
Context {F : Fuel}.
Lemma T4_hs_fails h s : (0 < fuel)%nat -> 3.77828134 < s <= 5.210887663 -> 1030 <= h <= 1390 -> T4_hs (Fin h) (Fin s) = Err ValueError.
Proof.
  intros HF Hs Hh. pose proof (P3_absurd h Hh) as HP. unfold T4_hs.
  assert (PL : forall X Y : bool, (X = true \/ Y = true) -> (if X then let* PL := p3sat_h (Fin h) in Ok (Some PL) else if Y then let* PL := p3sat_h (Fin h) in Ok (Some PL) else Ok None) = Ok (Some (Fin (P3 h)))).
  { intros X Y HXY. rewrite p3sat_closed. destruct X, Y; cbn [bind]; try reflexivity. destruct HXY; discriminate. }
  cbn [ltb leb RNum lit cmp].
  rewrite (Rltb_false (D 5.210887825) s) by (undec; lra). cbn [andb].
  rewrite (Rleb_false s (D 3.77828134)) by (undec; lra). rewrite andb_false_r.
  rewrite PL. clear PL.
  2: { destruct (Rle_dec s 4.41202148223476).
       - left. rewrite Rltb_true, Rleb_true by (undec; lra). reflexivity.
       - right. rewrite Rltb_true, Rleb_true by (undec; lra). reflexivity. }
  cbn [bind local]. destruct fuel as [|n]; [lia|]. cbn [while bind fabs sub RNum lift1 lift2].
  set (p := (D 0.000611 + P3 h) / 2).
  assert (Hp : 22.06395 <= p) by (unfold p; undec; lra).
  rewrite (Rltb_true _ (Rabs (s - _))) by (rewrite Rabs_right; undec; lra).
  rewrite (Rltb_true _ (Rabs (P3 h - _))) by (rewrite Rabs_right; undec; lra). cbn [andb].
  cbn [add div RNum lift2]. rewrite xdiv_Fin by known. cbn [bind].
  replace ((D 0.000611 + P3 h) / D 2) with p by (unfold p; undec; lra).
  destruct (T4_big p ltac:(lra)) as [ET NT]. rewrite ET. cbn [bind].
  destruct (marker p Hp) as [EV EL]. unfold x4_ph. rewrite EV, EL. cbn [bind ltb RNum cmp]. rewrite Rltb_true by lra. cbn [bind].
  rewrite (Rltb_false p) by (undec; lra). cbn [bind].
  destruct (marker_vol p ltac:(lra)) as (v & E & Hv). rewrite E. cbn [bind]. rewrite xdiv_Fin by lra. cbn [bind].
  rewrite s3_negative; [reflexivity | | exact NT].
  unfold Rdiv. assert (/ v < 0) by now apply Rinv_lt_0_compat. undec; lra.
Qed.
Lemma H4b_floor s : 3.77828134 <= s <= 4.41202148223476 -> 1390 < H4b s.
Proof. intros H. unfold H4b. reals. interval with (i_bisect s, i_taylor s, i_depth 20). Qed.
Lemma H4c_floor s : 4.41202148223476 <= s <= 5.210887663 -> 1390 < H4c s.
Proof. intros H. unfold H4c. reals. interval with (i_bisect s, i_taylor s, i_depth 20). Qed.
Lemma wet_low h s : 3.77828134 < s <= 5.210887663 -> 273.155 * s <= h <= 1390 -> region_hs (Fin h) (Fin s) = Ok 4%Z.
Proof.
  intros H Hh. assert (Hm : hmin s <= h) by (unfold hmin; lra).
  unfold region_hs. cbn [div sub lit RNum lift2]. rewrite xdiv_Fin by (undec; lra). cbn [bind mul RNum lift2].
  replace ((D (-0.0415878) - D 2500.89262) / (D (-0.00015455) - D 9.155759) * s) with (hmin s) by (unfold hmin; undec; f_equal; f_equal; f_equal; lra).
  cbn [ltb leb RNum lit cmp]. rewrite (Rltb_false s) by (undec; lra). rewrite (Rltb_false h) by lra. rewrite andb_false_r.
  destruct (Rle_dec s 4.41202148223476) as [L|L].
  - decide_s. rewrite h4b_closed by lra. pose proof (H4b_floor s ltac:(lra)). cbn [bind ltb RNum cmp]. rewrite Rltb_true by lra. reflexivity.
  - destruct (Rle_dec 5.260578707 s); [lra|]. decide_s. rewrite h4c_closed by lra. pose proof (H4c_floor s ltac:(lra)).
    cbn [bind ltb RNum cmp]. rewrite Rltb_true by lra. reflexivity.
Qed.
Lemma wet_floor h s : 3.77828134 < s <= 5.210887663 -> region_hs (Fin h) (Fin s) = Ok 4%Z -> 1030 <= h.
Proof.
  intros H R. apply Rnot_lt_le. intros K. assert (Hm : h < hmin s) by (unfold hmin; lra). revert R.
  unfold region_hs. cbn [div sub lit RNum lift2]. rewrite xdiv_Fin by (undec; lra). cbn [bind mul RNum lift2].
  replace ((D (-0.0415878) - D 2500.89262) / (D (-0.00015455) - D 9.155759) * s) with (hmin s) by (unfold hmin; undec; f_equal; f_equal; f_equal; lra).
  cbn [ltb leb RNum lit cmp]. rewrite (Rltb_false s) by (undec; lra). rewrite (Rltb_true h) by lra. rewrite (Rltb_true s) by (undec; lra).
  cbn [andb]. discriminate.
Qed.
Lemma hs_fails us h s : (0 < fuel)%nat -> 3.77828134 < to_si us Qs s <= 5.210887663 -> to_si us Qh h <= 1390 ->
  region_hs (Fin (to_si us Qh h)) (Fin (to_si us Qs s)) = Ok 4%Z ->
  t_hs us (Fin h) (Fin s) = Err ValueError /\ p_hs us (Fin h) (Fin s) = Err ValueError /\ tc_hs us (Fin h) (Fin s) = Err ValueError.
Proof.
  intros HF Hs Hh R. pose proof (wet_floor _ _ Hs R) as Hf.
  assert (T : T4_hs (Fin (to_si us Qh h)) (Fin (to_si us Qs s)) = Err ValueError) by (apply T4_hs_fails; lra || lia).
  assert (P : p_hs us (Fin h) (Fin s) = Err ValueError).
  { unfold p_hs. rewrite to_h, to_s. cbn [bind si lift1]. rewrite R. cbn [bind Z.eqb Pos.eqb]. now rewrite T. }
  split; [|split; [exact P|]].
  - unfold t_hs. rewrite to_h, to_s. cbn [bind si lift1]. rewrite R. cbn [bind Z.eqb Pos.eqb]. now rewrite T.
  - unfold tc_hs. cbv zeta. rewrite P. reflexivity.
Qed.

(** ** Wet steam at 0.01 MPa *)
Lemma T001_in : 318.95 < T4R 0.01 < 318.97.
Proof. unfold T4R, Tb, de, qE, qF, qG. set (b := Rpower _ _). assert (B : 0.316227 < b < 0.316228) by (unfold b; split; interval). unfold b. split; interval. Qed.
Lemma low_001 : 0.000611657 < 0.01 < 16.529. Proof. lra. Qed.
Lemma sat_001 : 190 < hL 0.01 < 193 /\ 2580 < hV 0.01 < 2590 /\ 0.64 < sL 0.01 < 0.66 /\ 8.1 < sV 0.01 < 8.2.
Proof.
  unfold hL, hV, sL, sV. pose proof T001_in as H. set (T := T4R 0.01) in *. clearbody T.
  split; [|split; [|split]]; (split; reals; interval).
Qed.
Lemma wet_hs_fails : (0 < fuel)%nat -> exists p h s T, region_ph (Fin p) (Fin h) = Ok 4%Z /\ s_ph BARE (Fin p) (Fin h) = Ok (Fin s) /\
  t_ph BARE (Fin p) (Fin h) = Ok (Fin T) /\ region_hs (Fin h) (Fin s) = Ok 4%Z /\
  t_hs BARE (Fin h) (Fin s) = Err ValueError /\ p_hs BARE (Fin h) (Fin s) = Err ValueError.
Proof.
  intros HF. destruct sat_001 as (A & B & C & E).
  assert (W : hL 0.01 < 1260 < hV 0.01) by lra.
  destruct (wet_ph_low 0.01 low_001 1260 W) as (_ & E2 & _ & E4).
  destruct (quality_spec (hL 0.01) (hV 0.01) 1260) as (X01 & _ & _ & X & _ & _); [lra|]. specialize (X ltac:(lra)).
  set (x := quality (hL 0.01) (hV 0.01) 1260) in *. clearbody x.
  set (s := mix (sL 0.01) (sV 0.01) x) in *.
  assert (S : 3.8 < s < 4.2).
  { assert (X1 : 0.44 < x) by nra. assert (X2 : x < 0.4501) by nra. unfold s, mix. split; nra. }
  clearbody s.
  assert (R : region_hs (Fin 1260) (Fin s) = Ok 4%Z) by (apply wet_low; lra).
  assert (Eh : to_si BARE Qh 1260 = 1260) by (unfold to_si; cbn; lra). assert (Es : to_si BARE Qs s = s) by (unfold to_si; cbn; lra).
  pose proof (hs_fails BARE 1260 s HF) as Q. rewrite Eh, Es in Q. destruct Q as (F1 & F2 & _); [lra|lra|exact R|].
  exists 0.01, 1260, s, (T4R 0.01).
  split; [|repeat split; assumption]. apply (region_ph_wet 0.01 low_001 1260). exact W.
Qed.
Lemma some_wet : exists h s, 3.77828134 < s <= 5.210887663 /\ h <= 1390 /\ region_hs (Fin h) (Fin s) = Ok 4%Z.
Proof. exists 1260, 4. split; [lra|]. split; [lra|]. apply wet_low; lra. Qed.
End Raise.
