(** Melting and sublimation curves, surface tension, the region 2/3 border. *)
From Coq Require Import ZArith Reals Lra Lia List Bool.
From Coquelicot Require Import Coquelicot.
From Interval Require Import Tactic.
From Verif Require Import Py ExactReal ModState ModConstants ModUnits ModR14 ModTransport ModBorders ModXSteam
  SpecUnits SpecApi SpecIce ProofUnits ProofCovariance ProofSatApi ProofMono ProofMisc RealSum ProofEos.
Open Scope R_scope.

(** ** Closed forms *)
Definition thI (T : R) := T / 273.16.
Definition pIh (T : R) := (1 + (1195393.37 * (1 - Rpower (thI T) 3) + 80818.3159 * (1 - Rpower (thI T) 25.75)
  + 3338.2686 * (1 - Rpower (thI T) 103.75))) * 0.000611657.
Definition pIII (T : R) := (1 - 0.299948 * (1 - (T / 251.165) ^ 60)) * 208.566.
Definition pV (T : R) := (1 - 1.18721 * (1 - (T / 256.164) ^ 8)) * 350.1.
Definition pVI (T : R) := (1 - 1.07476 * (1 - Rpower (T / 273.31) 4.6)) * 632.4.
Definition eVII (T : R) := 1.73683 * (1 - / (T / 355)) - 0.0544606 * (1 - (T / 355) ^ 5)
  + 0.0000000806106 * (1 - (T / 355) ^ 22).
Definition pVII (T : R) := Rtrigo_def.exp (eVII T) * 2216.
Definition eS (T : R) := / (thI T) * (-21.2144006 * Rpower (thI T) 0.00333333333 +
  27.3203819 * Rpower (thI T) 1.20666667 + -6.1059813 * Rpower (thI T) 1.70333333).
Definition pS (T : R) := Rtrigo_def.exp (eS T) * 0.000611657.

Lemma xpowf_pos a b : 0 < a -> xpowf (Fin a) (Fin b) = Ok (Fin (Rpower a b)).
Proof. exact (powf_Fin a b). Qed.
Lemma xpowz_pos' a n : xpowz (Fin a) (Zpos n) = Ok (Fin (a ^ Pos.to_nat n)).
Proof. exact (powz_pos a n). Qed.
Lemma xpowz_m1 a : a <> 0 -> xpowz (Fin a) (-1) = Ok (Fin (/ a)).
Proof. intros H. rewrite xpowz_Fin by exact H. apply f_equal, f_equal. change (/ a ^ 1 = / a). now rewrite pow_1. Qed.
Ltac dec a b := replace (D a) with b by (undec; lra).
Ltac quot := apply Rdiv_lt_0_compat; undec; lra.
Ltac fine := cbn [bind add mul sub RNum lift2]; apply f_equal, f_equal.

Lemma Ih_closed T : 0 < T -> pmelt_T_iceIh (Fin T) = Ok (Fin (pIh T)).
Proof.
  intros H. unfold pmelt_T_iceIh. cbn [bind div RNum lit]. rewrite xdiv_Fin by known. cbn [bind].
  assert (P : 0 < T / D 273.16%dec) by quot.
  change (combine (slice 0 3 pmelt_T_iceIh_a) (slice 0 3 pmelt_T_iceIh_b)) with (combine pmelt_T_iceIh_a pmelt_T_iceIh_b).
  unfold pmelt_T_iceIh_a, pmelt_T_iceIh_b. cbn [combine for_each bind powf RNum lit].
  repeat (rewrite xpowf_pos by exact P; cbn [bind]). fine.
  unfold pIh, thI. dec 273.16%dec 273.16. dec 3.00000%dec 3. dec 25.7500%dec 25.75. dec 103.750%dec 103.75. undec; lra.
Qed.
Lemma III_closed T : pmelt_T_iceIII (Fin T) = Ok (Fin (pIII T)).
Proof.
  unfold pmelt_T_iceIII. cbn [bind div powz RNum lit]. rewrite xdiv_Fin by known. cbn [bind].
  rewrite xpowz_pos'. fine. unfold pIII. dec 251.165%dec 251.165.
  replace (Pos.to_nat 60) with 60%nat by reflexivity. undec; lra.
Qed.
Lemma V_closed T : pmelt_T_iceV (Fin T) = Ok (Fin (pV T)).
Proof.
  unfold pmelt_T_iceV. cbn [bind div powz RNum lit]. rewrite xdiv_Fin by known. cbn [bind].
  rewrite xpowz_pos'. fine. unfold pV. dec 256.164%dec 256.164.
  replace (Pos.to_nat 8) with 8%nat by reflexivity. undec; lra.
Qed.
Lemma VI_closed T : 0 < T -> pmelt_T_iceVI (Fin T) = Ok (Fin (pVI T)).
Proof.
  intros H. unfold pmelt_T_iceVI. cbn [bind div powf RNum lit]. rewrite xdiv_Fin by known. cbn [bind].
  rewrite xpowf_pos by quot. fine. unfold pVI. dec 273.31%dec 273.31. dec 4.6%dec 4.6. undec; lra.
Qed.
Lemma VII_closed T : 0 < T -> pmelt_T_iceVII (Fin T) = Ok (Fin (pVII T)).
Proof.
  intros H. unfold pmelt_T_iceVII. cbn [bind div powz RNum lit]. rewrite xdiv_Fin by known. cbn [bind].
  rewrite xpowz_m1 by (apply Rgt_not_eq; quot). cbn [bind]. rewrite !xpowz_pos'. cbn [bind].
  replace (Pos.to_nat 5) with 5%nat by reflexivity. replace (Pos.to_nat 22) with 22%nat by reflexivity.
  cbn [exp RNum add sub mul lift2]. unfold xexp. cbn [lift1]. fine.
  unfold pVII, eVII. dec 355.0%dec 355. apply f_equal2; [apply f_equal | ]; undec; lra.
Qed.
Lemma S_closed T : 0 < T -> psubl_T (Fin T) = Ok (Fin (pS T)).
Proof.
  intros H. unfold psubl_T. cbn [bind div RNum lit]. rewrite xdiv_Fin by known. cbn [bind].
  assert (P : 0 < T / D 273.16%dec) by quot.
  change (combine (slice 0 3 psubl_T_a) (slice 0 3 psubl_T_b)) with (combine psubl_T_a psubl_T_b).
  unfold psubl_T_a, psubl_T_b. cbn [combine for_each bind powf powz RNum lit].
  repeat (rewrite xpowf_pos by exact P; cbn [bind]).
  rewrite xpowz_m1 by lra. cbn [bind exp RNum add sub mul lift2]. unfold xexp. cbn [lift1]. fine.
  unfold pS, eS, thI. dec 273.16%dec 273.16. dec 0.333333333e-2%dec 0.00333333333. dec 0.120666667e1%dec 1.20666667.
  dec 0.170333333e1%dec 1.70333333. apply f_equal2; [apply f_equal; apply f_equal2; [reflexivity|]|]; undec; lra.
Qed.

(** ** Monotonicity *)
Lemma pow_incr_lt x y n : 0 <= x < y -> x ^ S n < y ^ S n.
Proof.
  intros H. induction n as [|n IH]; [rewrite !pow_1; lra|].
  change (x * x ^ S n < y * y ^ S n). apply Rmult_le_0_lt_compat; try lra. apply pow_le; lra.
Qed.
Lemma div_lt a b c : 0 < c -> a < b -> a / c < b / c.
Proof. intros. apply Rmult_lt_compat_r; [now apply Rinv_0_lt_compat | easy]. Qed.
Lemma Rpower_lt x y b : 0 < b -> 0 < x < y -> Rpower x b < Rpower y b.
Proof. intros Hb H. apply exp_increasing, Rmult_lt_compat_l; [easy|]. apply ln_increasing; lra. Qed.
Lemma Ih_falls a b : 0 < a < b -> pIh b < pIh a.
Proof.
  intros H. unfold pIh, thI.
  assert (Q : 0 < a / 273.16 < b / 273.16) by (split; [apply Rdiv_lt_0_compat | apply div_lt]; lra).
  pose proof (Rpower_lt _ _ 3 ltac:(lra) Q). pose proof (Rpower_lt _ _ 25.75 ltac:(lra) Q).
  pose proof (Rpower_lt _ _ 103.75 ltac:(lra) Q). lra.
Qed.
Lemma III_rises a b : 0 < a < b -> pIII a < pIII b.
Proof.
  intros H. unfold pIII. pose proof (div_lt a b 251.165 ltac:(lra) ltac:(lra)).
  assert (0 < a / 251.165) by (apply Rdiv_lt_0_compat; lra).
  pose proof (pow_incr_lt (a / 251.165) (b / 251.165) 59 ltac:(lra)). lra.
Qed.
Lemma V_rises a b : 0 < a < b -> pV a < pV b.
Proof.
  intros H. unfold pV. pose proof (div_lt a b 256.164 ltac:(lra) ltac:(lra)).
  assert (0 < a / 256.164) by (apply Rdiv_lt_0_compat; lra).
  pose proof (pow_incr_lt (a / 256.164) (b / 256.164) 7 ltac:(lra)). lra.
Qed.
Lemma VI_rises a b : 0 < a < b -> pVI a < pVI b.
Proof.
  intros H. unfold pVI. pose proof (div_lt a b 273.31 ltac:(lra) ltac:(lra)).
  assert (0 < a / 273.31) by (apply Rdiv_lt_0_compat; lra).
  pose proof (Rpower_lt (a / 273.31) (b / 273.31) 4.6 ltac:(lra) ltac:(lra)). lra.
Qed.
Definition gVII (x : R) := 1.73683 * (1 - / x) - 0.0544606 * (1 - x ^ 5) + 0.0000000806106 * (1 - x ^ 22).
Definition dVII (x : R) := 1.73683 / x ^ 2 + 0.0544606 * 5 * x ^ 4 - 0.0000000806106 * 22 * x ^ 21.
Lemma gVII_deriv x : 0 < x -> is_derive gVII x (dVII x).
Proof. intros H. unfold gVII, dVII. auto_derive; [lra|]. simpl. field. lra. Qed.
Lemma dVII_pos x : 1 <= x <= 2.0141 -> 0 < dVII x.
Proof. intros H. unfold dVII. interval with (i_bisect x). Qed.
Lemma VII_rises a b : 355 <= a < b -> b <= 715 -> pVII a < pVII b.
Proof.
  intros H Hb. unfold pVII. apply Rmult_lt_compat_r; [lra|]. apply exp_increasing.
  change (gVII (a / 355) < gVII (b / 355)).
  assert (1 <= a / 355) by (apply Rmult_le_reg_r with 355; [lra|]; field_simplify; lra).
  assert (b / 355 <= 2.0141) by (apply Rmult_le_reg_r with 355; [lra|]; field_simplify; lra).
  apply (rising gVII dVII); [apply div_lt; lra | |]; intros x Hx; [apply gVII_deriv | apply dVII_pos]; lra.
Qed.
Lemma VII_falls : pVII 751 < pVII 720 /\ pVII 750 < pVII 720.
Proof.
  unfold pVII, eVII. split; (apply Rmult_lt_compat_r; [lra|]; apply exp_increasing; interval).
Qed.
Definition gS (u : R) := -21.2144006 * Rtrigo_def.exp (-0.99666666667 * u)
  + 27.3203819 * Rtrigo_def.exp (0.20666667 * u) + -6.1059813 * Rtrigo_def.exp (0.70333333 * u).
Definition dS (u : R) := 21.2144006 * 0.99666666667 * Rtrigo_def.exp (-0.99666666667 * u)
  + 27.3203819 * 0.20666667 * Rtrigo_def.exp (0.20666667 * u) - 6.1059813 * 0.70333333 * Rtrigo_def.exp (0.70333333 * u).
Lemma gS_deriv u : is_derive gS u (dS u).
Proof. unfold gS, dS. auto_derive; [easy|]. lra. Qed.
Lemma dS_pos u : -2 <= u <= 0 -> 0 < dS u.
Proof. intros H. unfold dS. interval with (i_bisect u). Qed.
Lemma eS_u T : 0 < T -> eS T = gS (Rpower.ln (thI T)).
Proof.
  intros H. assert (P : 0 < thI T) by (unfold thI; apply Rdiv_lt_0_compat; lra).
  unfold eS, gS. set (x := thI T) in *. clearbody x.
  assert (E : forall b, / x * Rpower x b = Rtrigo_def.exp ((b - 1) * Rpower.ln x)).
  { intros b. replace (/ x) with (Rpower x (-1)) by (replace (-1) with (- (1)) by lra; rewrite Rpower_Ropp, Rpower_1; easy).
    rewrite <- Rpower_plus. unfold Rpower. f_equal. ring. }
  transitivity (-21.2144006 * (/ x * Rpower x 0.00333333333) + 27.3203819 * (/ x * Rpower x 1.20666667)
    + -6.1059813 * (/ x * Rpower x 1.70333333)); [ring|].
  rewrite !E. repeat f_equal; lra.
Qed.
Lemma ln_50 : -2 <= Rpower.ln (50 / 273.16).
Proof. interval. Qed.
Lemma rpower_1 b : Rpower 1 b = 1.
Proof. unfold Rpower. rewrite ln_1, Rmult_0_r. apply exp_0. Qed.
Lemma S_rises a b : 50 <= a < b -> b <= 273.16 -> pS a < pS b.
Proof.
  intros H Hb. unfold pS. apply Rmult_lt_compat_r; [lra|]. apply exp_increasing.
  rewrite !eS_u by lra.
  assert (Q : 50 / 273.16 <= thI a < thI b) by (unfold thI; split; [apply Rmult_le_compat_r; [apply Rlt_le, Rinv_0_lt_compat|] | apply div_lt]; lra).
  assert (thI b <= 1) by (unfold thI; apply Rmult_le_reg_r with 273.16; [lra|]; field_simplify; lra).
  assert (P0 : 0 < 50 / 273.16) by (apply Rdiv_lt_0_compat; lra).
  assert (B : -2 <= Rpower.ln (50 / 273.16)) by exact ln_50.
  assert (B1 : Rpower.ln (50 / 273.16) <= Rpower.ln (thI a)) by (apply ln_le; lra).
  assert (B2 : Rpower.ln (thI a) < Rpower.ln (thI b)) by (apply ln_increasing; lra).
  assert (B3 : Rpower.ln (thI b) <= 0) by (rewrite <- ln_1; apply ln_le; lra).
  apply (rising gS dS); [easy | |]; intros x Hx; [apply gS_deriv | apply dS_pos; lra].
Qed.
Lemma triple : pIh 273.16 = 0.000611657 /\ pS 273.16 = 0.000611657.
Proof.
  assert (E : thI 273.16 = 1) by (unfold thI; apply Rinv_r, Rgt_not_eq; lra).
  split.
  - unfold pIh. rewrite E, !rpower_1. lra.
  - unfold pS. rewrite eS_u by lra. rewrite E, ln_1. unfold gS. rewrite !Rmult_0_r, exp_0.
    replace (-21.2144006 * 1 + 27.3203819 * 1 + -6.1059813 * 1) with 0 by lra. rewrite exp_0. lra.
Qed.

(** ** The API *)
Definition curve (i : ice) (T : R) : R :=
  match i with Ih => pIh T | III => pIII T | V => pV T | VI => pVI T | VII => pVII T end.
Lemma curve_pos i T : ice_at i T -> 0 < curve i T.
Proof.
  unfold ice_at. destruct i; cbn [t_low t_high curve]; intros H.
  - pose proof (Ih_falls T 273.16 ltac:(lra)). rewrite (proj1 triple) in H0. lra.
  - unfold pIII. assert (0 <= (T / 251.165) ^ 60) by (apply pow_le; apply Rlt_le, Rdiv_lt_0_compat; lra). lra.
  - assert (pV 256.164 = 350.1) by (unfold pV; replace (256.164 / 256.164) with 1 by (symmetry; apply Rinv_r, Rgt_not_eq; lra); rewrite pow1; lra).
    destruct (Rle_lt_or_eq_dec 256.164 T ltac:(lra)) as [K| <-]; [pose proof (V_rises 256.164 T ltac:(lra))|]; lra.
  - assert (pVI 273.31 = 632.4) by (unfold pVI; replace (273.31 / 273.31) with 1 by (symmetry; apply Rinv_r, Rgt_not_eq; lra); rewrite rpower_1; lra).
    destruct (Rle_lt_or_eq_dec 273.31 T ltac:(lra)) as [K| <-]; [pose proof (VI_rises 273.31 T ltac:(lra))|]; lra.
  - unfold pVII. apply Rmult_lt_0_compat; [apply exp_pos | lra].
Qed.
Section Api.
Context {F : Fuel}.
Ltac closed := rewrite ?III_closed, ?V_closed; rewrite ?Ih_closed, ?VI_closed, ?VII_closed by lra.
Lemma melt_hint us i t : pmelt_t us (Fin t) (hint_of i) =
  Ok (if Rle_dec (t_low i) (to_si us QT t) then
        if Rlt_dec (to_si us QT t) (t_high i) then Fin (to_user us Qp (curve i (to_si us QT t))) else NaN
      else NaN).
Proof.
  unfold pmelt_t. rewrite to_T. cbn [bind si lift1]. set (T := to_si us QT t).
  destruct i; cbn [hint_of is_None is_int Z.eqb Pos.eqb TYPE_ICE_Ih TYPE_ICE_III TYPE_ICE_V TYPE_ICE_VI TYPE_ICE_VII t_low t_high];
    cbn [ltb leb RNum lit cmp]; undec;
    repeat match goal with |- context [Rle_dec ?a ?b] => destruct (Rle_dec a b) | |- context [Rlt_dec ?a ?b] => destruct (Rlt_dec a b) end;
    repeat cases1;
    try (exfalso; lra); cbn [andb bind]; try reflexivity;
    closed; cbn [bind]; rewrite from_p; reflexivity.
Qed.

Lemma user_pos us x : 0 < x -> 0 < to_user us Qp x.
Proof.
  intros H. replace (to_user us Qp x) with (x * factor us Qp) by (unfold to_user; destruct us; cbn [origin shift]; ring).
  apply Rmult_lt_0_compat; [easy | apply factor_pos].
Qed.
Lemma melt_range us i t :
  (ice_at i (to_si us QT t) -> exists p, pmelt_t us (Fin t) (hint_of i) = Ok (Fin p) /\ 0 < p) /\
  (~ ice_at i (to_si us QT t) -> pmelt_t us (Fin t) (hint_of i) = Ok NaN) /\
  pmelt_t us NaN (hint_of i) = Ok NaN.
Proof.
  rewrite melt_hint. unfold ice_at. split; [|split].
  - intros [H1 H2]. destruct (Rle_dec _ _); [|easy]. destruct (Rlt_dec _ _); [|easy].
    eexists. split; [reflexivity|]. now apply user_pos, curve_pos.
  - intros H. destruct (Rle_dec _ _); [|easy]. destruct (Rlt_dec _ _); [tauto | easy].
  - unfold pmelt_t. rewrite to_T. destruct i; reflexivity.
Qed.
Lemma melt_none us t :
  (forall i, i = V \/ i = VI \/ i = VII -> ice_at i (to_si us QT t) ->
     pmelt_t us (Fin t) PNone = pmelt_t us (Fin t) (hint_of i)) /\
  (~ 256.164 <= to_si us QT t < 751 -> pmelt_t us (Fin t) PNone = Ok NaN) /\
  pmelt_t us NaN PNone = Ok NaN.
Proof.
  split; [|split].
  - intros i Hi H. rewrite melt_hint. unfold pmelt_t. rewrite to_T. cbn [bind si lift1 is_None].
    unfold ice_at in H. set (T := to_si us QT t) in *.
    destruct (Rle_dec _ _); [|lra]. destruct (Rlt_dec _ _); [|lra].
    cbn [ltb leb RNum lit cmp]; undec.
    destruct Hi as [-> | [-> | ->]]; cbn [t_low t_high curve] in *;
      repeat cases1; try (exfalso; lra); closed; cbn [bind]; rewrite from_p; reflexivity.
  - intros H. unfold pmelt_t. rewrite to_T. cbn [bind si lift1 is_None]. set (T := to_si us QT t) in *.
    cbn [ltb leb RNum lit cmp]; undec. repeat cases1; try reflexivity; exfalso; lra.
  - unfold pmelt_t. rewrite to_T. reflexivity.
Qed.
Lemma melt_ambiguous : exists us t a b, ice_at Ih (to_si us QT t) /\ pmelt_t us (Fin t) PNone = Ok (Fin a) /\
  pmelt_t us (Fin t) (hint_of Ih) = Ok (Fin b) /\ a <> b.
Proof.
  exists BARE, 260.
  assert (E : to_si BARE QT 260 = 260) by (unfold to_si; cbn [origin shift factor]; lra).
  assert (A : ice_at Ih (to_si BARE QT 260)) by (rewrite E; unfold ice_at; cbn [t_low t_high]; lra).
  assert (B : ice_at V (to_si BARE QT 260)) by (rewrite E; unfold ice_at; cbn [t_low t_high]; lra).
  rewrite (proj1 (melt_none BARE 260) V (or_introl eq_refl) B), !melt_hint.
  destruct A as [A1 A2], B as [B1 B2].
  destruct (Rle_dec (t_low V) _); [|easy]. destruct (Rle_dec (t_low Ih) _); [|easy].
  destruct (Rlt_dec _ (t_high V)); [|easy]. destruct (Rlt_dec _ (t_high Ih)); [|easy].
  do 2 eexists. split; [easy|]. split; [reflexivity|]. split; [reflexivity|].
  rewrite E. apply Rgt_not_eq, Rlt_gt, to_user_lt. cbn [curve].
  apply Rlt_trans with 300; unfold pV, pIh, thI; interval.
Qed.
Lemma melt_unknown us t hint : hint <> PNone -> (forall i, hint <> hint_of i) ->
  pmelt_t us t hint = Err ValueError.
Proof.
  intros H K. unfold pmelt_t. rewrite to_T. cbn [bind].
  destruct hint as [|b|z|d|l]; try reflexivity; [easy|].
  cbn [is_None is_int]. unfold TYPE_ICE_Ih, TYPE_ICE_III, TYPE_ICE_V, TYPE_ICE_VI, TYPE_ICE_VII.
  destruct (Z.eqb_spec z 1); [now subst; destruct (K Ih)|].
  destruct (Z.eqb_spec z 3); [now subst; destruct (K III)|].
  destruct (Z.eqb_spec z 5); [now subst; destruct (K V)|].
  destruct (Z.eqb_spec z 6); [now subst; destruct (K VI)|].
  destruct (Z.eqb_spec z 7); [now subst; destruct (K VII)|]. reflexivity.
Qed.
Lemma subl_closed us t : psubl_t us (Fin t) =
  Ok (if Rle_dec 50 (to_si us QT t) then
        if Rlt_dec (to_si us QT t) 273.16 then Fin (to_user us Qp (pS (to_si us QT t))) else NaN
      else NaN).
Proof.
  unfold psubl_t. rewrite to_T. cbn [bind si lift1]. set (T := to_si us QT t).
  cbn [ltb leb RNum lit cmp]; undec.
  destruct (Rle_dec _ _); [destruct (Rlt_dec _ _)|]; repeat cases1; try (exfalso; lra); try reflexivity.
  rewrite S_closed by lra. cbn [bind]. rewrite from_p. reflexivity.
Qed.
Lemma subl_range us t :
  (50 <= to_si us QT t < 273.16 -> exists p, psubl_t us (Fin t) = Ok (Fin p) /\ 0 < p) /\
  (~ 50 <= to_si us QT t < 273.16 -> psubl_t us (Fin t) = Ok NaN) /\ psubl_t us NaN = Ok NaN.
Proof.
  rewrite subl_closed. split; [|split].
  - intros H. destruct (Rle_dec _ _); [|lra]. destruct (Rlt_dec _ _); [|lra].
    eexists. split; [reflexivity|]. apply user_pos. unfold pS. apply Rmult_lt_0_compat; [apply exp_pos | lra].
  - intros H. destruct (Rle_dec _ _); [|easy]. destruct (Rlt_dec _ _); [tauto | easy].
  - unfold psubl_t. rewrite to_T. reflexivity.
Qed.

(** ** Monotonicity through the API *)
Lemma si_lt us q x y : x < y <-> to_si us q x < to_si us q y.
Proof. rewrite (to_user_lt us q (to_si us q x)), !to_user_to_si. reflexivity. Qed.
Lemma melt_answers us i t p : pmelt_t us (Fin t) (hint_of i) = Ok (Fin p) ->
  ice_at i (to_si us QT t) /\ p = to_user us Qp (curve i (to_si us QT t)).
Proof.
  rewrite melt_hint. unfold ice_at. destruct (Rle_dec _ _); [|discriminate].
  destruct (Rlt_dec _ _); [|discriminate]. intros [= <-]. auto.
Qed.
Lemma melt_falls us t1 t2 p1 p2 : t1 < t2 -> pmelt_t us (Fin t1) (hint_of Ih) = Ok (Fin p1) ->
  pmelt_t us (Fin t2) (hint_of Ih) = Ok (Fin p2) -> p2 < p1.
Proof.
  intros H E1 E2. apply (si_lt us QT) in H. apply melt_answers in E1, E2.
  destruct E1 as [[L1 _] ->], E2 as [_ ->]. apply to_user_lt. cbn [t_low curve] in *. apply Ih_falls. lra.
Qed.
Lemma melt_rises us i t1 t2 p1 p2 : i <> Ih -> t1 < t2 -> to_si us QT t2 <= r14_high i ->
  pmelt_t us (Fin t1) (hint_of i) = Ok (Fin p1) -> pmelt_t us (Fin t2) (hint_of i) = Ok (Fin p2) -> p1 < p2.
Proof.
  intros Hi H R E1 E2. apply (si_lt us QT) in H. apply melt_answers in E1, E2.
  destruct E1 as [[L1 _] ->], E2 as [_ ->]. apply to_user_lt. destruct i; [easy| | | |]; cbn [t_low curve r14_high] in *.
  - apply III_rises; lra.
  - apply V_rises; lra.
  - apply VI_rises; lra.
  - apply VII_rises; lra.
Qed.
Lemma melt_VII_falls : exists us t1 t2 p1 p2, t1 < t2 /\ pmelt_t us (Fin t1) (hint_of VII) = Ok (Fin p1) /\
  pmelt_t us (Fin t2) (hint_of VII) = Ok (Fin p2) /\ p2 < p1.
Proof.
  assert (E : forall t, to_si BARE QT t = t) by (intros; unfold to_si; cbn [origin shift factor]; lra).
  exists BARE, 720, 750. rewrite !melt_hint, !E. cbn [t_low t_high].
  destruct (Rle_dec 355 720); [|lra]. destruct (Rle_dec 355 750); [|lra].
  destruct (Rlt_dec 720 751); [|lra]. destruct (Rlt_dec 750 751); [|lra].
  do 2 eexists. split; [lra|]. split; [reflexivity|]. split; [reflexivity|].
  apply to_user_lt. apply VII_falls.
Qed.
Lemma subl_rises us t1 t2 p1 p2 : t1 < t2 -> psubl_t us (Fin t1) = Ok (Fin p1) ->
  psubl_t us (Fin t2) = Ok (Fin p2) -> p1 < p2.
Proof.
  intros H. apply (si_lt us QT) in H. rewrite !subl_closed.
  destruct (Rle_dec _ (to_si us QT t1)); [|discriminate]. destruct (Rlt_dec (to_si us QT t1) _); [|discriminate].
  destruct (Rle_dec _ (to_si us QT t2)); [|discriminate]. destruct (Rlt_dec (to_si us QT t2) _); [|discriminate].
  intros [= <-] [= <-]. apply to_user_lt. apply S_rises; lra.
Qed.
Lemma triple_api : pmelt_T_iceIh (Fin 273.16) = Ok (Fin 0.000611657) /\ psubl_T (Fin 273.16) = Ok (Fin 0.000611657).
Proof. rewrite Ih_closed, S_closed, (proj1 triple), (proj2 triple) by lra. auto. Qed.
End Api.

(** ** Surface tension *)
Definition stau (T : R) := 1 - T / 647.096.
Definition stR (T : R) := 0.2358 * Rpower (stau T) 1.256 * (1 + -0.625 * stau T).
Lemma st_closed T : 0.01 <= T < 647.096 -> Surface_Tension_T (Fin T) = Ok (Fin (stR T)).
Proof.
  intros H. unfold Surface_Tension_T, CRITICAL_TEMPERATURE. cbn [ltb leb RNum lit cmp bind div].
  rewrite (Rltb_false T) by (undec; lra). rewrite Rltb_false by (undec; lra). cbn [orb].
  rewrite xdiv_Fin by known. cbn [bind sub powf RNum lift2].
  assert (P : 0 < stau T) by (unfold stau; assert (T / 647.096 < 1) by (apply Rmult_lt_reg_r with 647.096; [lra|]; field_simplify; lra); lra).
  dec 647.096%dec 647.096. replace (D 1%dec - T / 647.096) with (stau T) by (unfold stau; undec; lra).
  rewrite xpowf_pos by exact P. fine. unfold stR. dec 1.256%dec 1.256. undec. lra.
Qed.
Lemma st_zero : Surface_Tension_T (Fin 647.096) = Ok (Fin 0).
Proof.
  unfold Surface_Tension_T, CRITICAL_TEMPERATURE. cbn [ltb leb RNum lit cmp bind div].
  rewrite (Rltb_false 647.096) by (undec; lra). rewrite Rltb_false by (undec; lra). cbn [orb].
  rewrite xdiv_Fin by known. cbn [bind sub powf RNum lift2].
  replace (D 1%dec - 647.096 / D 647.096%dec) with 0 by (undec; lra).
  change (xpowf ?a ?b) with (xpowf a b). unfold xpowf.
  rewrite (Rltb_false 0 0) by lra. rewrite Reqb_false by (undec; apply Rgt_not_eq; lra).
  rewrite Reqb_true by reflexivity. rewrite Rltb_false by (undec; lra). fine. ring.
Qed.
Lemma st_nan : Surface_Tension_T NaN = Ok NaN.
Proof.
  unfold Surface_Tension_T, CRITICAL_TEMPERATURE. cbn [ltb leb RNum lit cmp orb div].
  replace (xdiv NaN (Fin (D 647.096%dec))) with (Ok NaN : res xr)
    by (unfold xdiv; rewrite Reqb_false by known; reflexivity).
  cbn [bind sub powf RNum lift2]. unfold xpowf. rewrite Reqb_false by known. reflexivity.
Qed.
Lemma st_off T : T < 0.01 \/ 647.096 < T -> Surface_Tension_T (Fin T) = Ok NaN.
Proof.
  intros H. unfold Surface_Tension_T, CRITICAL_TEMPERATURE. cbn [ltb leb RNum lit cmp bind div]. undec.
  repeat cases1; try reflexivity; exfalso; lra.
Qed.
Lemma st_pos T : 0.01 <= T < 647.096 -> 0 < stR T.
Proof.
  intros H. unfold stR.
  assert (P : 0 < stau T < 1).
  { unfold stau. assert (0 < T / 647.096 < 1); [|lra].
    split; apply Rmult_lt_reg_r with 647.096; try lra; field_simplify; lra. }
  apply Rmult_lt_0_compat; [apply Rmult_lt_0_compat; [lra | apply exp_pos] | lra].
Qed.
Definition gst (x : R) := Rtrigo_def.exp (1.256 * Rpower.ln x) * (1 + -0.625 * x).
Lemma gst_deriv x : 0 < x -> is_derive gst x (Rtrigo_def.exp (1.256 * Rpower.ln x) * (1.256 / x * (1 + -0.625 * x) - 0.625)).
Proof. intros H. unfold gst. auto_derive; [lra|]. replace (-0.625) with (- (0.625)) by lra. field. lra. Qed.
Lemma gst_rises a b : 0 < a < b -> b <= 0.6 -> gst a < gst b.
Proof.
  intros H Hb. eapply (rising gst); [lra | intros x Hx; apply gst_deriv; lra |].
  intros x Hx. cbv beta. apply Rmult_lt_0_compat; [apply exp_pos|].
  apply Rmult_lt_reg_r with x; [lra|]. field_simplify; [|lra]. lra.
Qed.
Lemma stau_lt a b : a < b -> stau b < stau a.
Proof. intros H. unfold stau. pose proof (div_lt a b 647.096 ltac:(lra) H). lra. Qed.
Lemma st_falls a b : 273.16 <= a < b -> b < 647.096 -> stR b < stR a.
Proof.
  intros H Hb.
  assert (P : 0 < stau b) by (unfold stau; assert (b / 647.096 < 1) by (apply Rmult_lt_reg_r with 647.096; [lra|]; field_simplify; lra); lra).
  assert (Q : stau a <= 0.6) by (unfold stau; assert (0.4 <= a / 647.096) by (apply Rmult_le_reg_r with 647.096; [lra|]; field_simplify; lra); lra).
  pose proof (stau_lt a b ltac:(lra)). pose proof (gst_rises (stau b) (stau a) ltac:(lra) Q) as K.
  unfold gst in K. unfold stR, Rpower. lra.
Qed.
Section ApiSt.
Context {F : Fuel}.
Lemma user_st us x : to_user us Qst x = x * factor us Qst.
Proof. unfold to_user; destruct us; cbn [origin shift]; ring. Qed.
Lemma st_api us t : let T := to_si us QT t in
  (0.01 <= T < 647.096 -> exists y, st_t us (Fin t) = Ok (Fin y) /\ 0 < y) /\
  (T = 647.096 -> st_t us (Fin t) = Ok (Fin 0)) /\
  (T < 0.01 \/ 647.096 < T -> st_t us (Fin t) = Ok NaN) /\ st_t us NaN = Ok NaN.
Proof.
  cbv zeta. unfold st_t. rewrite !to_T. cbn [bind si lift1]. set (T := to_si us QT t).
  split; [|split; [|split]]; [intros H|intros H|intros H|].
  - rewrite st_closed by exact H. cbn [bind]. rewrite from_st. cbn [user lift1]. eexists. split; [reflexivity|].
    rewrite user_st. apply Rmult_lt_0_compat; [now apply st_pos | apply factor_pos].
  - rewrite H, st_zero. cbn [bind]. rewrite from_st. cbn [user lift1]. rewrite user_st, Rmult_0_l. reflexivity.
  - rewrite st_off by exact H. cbn [bind]. now rewrite from_st.
  - rewrite st_nan. cbn [bind]. now rewrite from_st.
Qed.
Lemma st_api_falls us t1 t2 y1 y2 : 273.16 <= to_si us QT t1 -> t1 < t2 ->
  st_t us (Fin t1) = Ok (Fin y1) -> st_t us (Fin t2) = Ok (Fin y2) -> y2 < y1.
Proof.
  intros H1 H. apply (si_lt us QT) in H. unfold st_t. rewrite !to_T. cbn [bind si lift1].
  set (T1 := to_si us QT t1) in *. set (T2 := to_si us QT t2) in *.
  destruct (Rlt_dec 647.096 T2) as [K|K]; [rewrite (st_off T2) by lra; cbn [bind]; rewrite !from_st; discriminate|].
  rewrite (st_closed T1) by lra. cbn [bind]. rewrite !from_st. cbn [user lift1]. intros [= <-].
  destruct (Rlt_dec T2 647.096) as [L|L].
  - rewrite st_closed by lra. cbn [bind]. rewrite from_st. cbn [user lift1]. intros [= <-].
    apply to_user_lt, st_falls; lra.
  - replace T2 with 647.096 by lra. rewrite st_zero. cbn [bind]. rewrite from_st. cbn [user lift1]. intros [= <-].
    apply to_user_lt, st_pos; lra.
Qed.
End ApiSt.

(** ** The region 2/3 border *)
Definition n1 := 348.05185628969.
Definition n2 := 1.1671859879975.
Definition n3 := 0.0010192970039326.
Definition n4 := 572.54459862746.
Definition n5 := 13.91883977887.
Definition q23 (T : R) := n1 - n2 * T + n3 * (T * T).
Lemma B23p_closed T : B23p_T (Fin T) = Ok (Fin (q23 T)).
Proof.
  unfold B23p_T. cbn [powz RNum lit]. rewrite xpowz_pos'. fine. unfold q23, n1, n2, n3.
  change (Pos.to_nat 2) with 2%nat. replace (T ^ 2) with (T * T) by ring. undec. lra.
Qed.
Lemma sqrt_near a e : 50 < a -> Rabs e <= 0.00001 -> Rabs (R_sqrt.sqrt (a * a + e) - a) < 0.000001.
Proof.
  intros Ha He0. assert (He : - 0.00001 <= e <= 0.00001) by (revert He0; unfold Rabs; destruct (Rcase_abs e); lra).
  assert (L : 0 <= a * a + e) by (assert (2500 < a * a) by (replace 2500 with (50 * 50) by lra; apply Rmult_le_0_lt_compat; lra); lra).
  pose proof (sqrt_pos (a * a + e)) as S. pose proof (sqrt_sqrt _ L) as Q. set (s := R_sqrt.sqrt (a * a + e)) in *.
  assert (E : (s - a) * (s + a) = e) by lra.
  assert (M : s - a = e / (s + a)) by (rewrite <- E; field; lra).
  rewrite M. unfold Rdiv. rewrite Rabs_mult, (Rabs_pos_eq (/ (s + a))) by (apply Rlt_le, Rinv_0_lt_compat; lra).
  assert (/ (s + a) <= / 50) by (apply Rinv_le_contravar; lra).
  assert (0 < / (s + a)) by (apply Rinv_0_lt_compat; lra).
  apply Rle_lt_trans with (0.00001 * / 50); [apply Rmult_le_compat; try lra; apply Rabs_pos | lra].
Qed.
Lemma T23_of_p T : 623.15 <= T <= 863.15 -> Rabs (T23 (q23 T) - T) < 0.000001.
Proof.
  intros H. unfold T23.
  set (e := (n1 - n5 - n3 * n4 * n4) / n3 - (n2 - 2 * n3 * n4) / n3 * T).
  assert (E : (q23 T - 13.91883977887) / 0.0010192970039326 = (T - n4) * (T - n4) + e).
  { unfold e, q23. change 13.91883977887 with n5. change 0.0010192970039326 with n3. field.
    unfold n3. apply Rgt_not_eq; lra. }
  rewrite E.
  replace (572.54459862746 + R_sqrt.sqrt ((T - n4) * (T - n4) + e) - T) with (R_sqrt.sqrt ((T - n4) * (T - n4) + e) - (T - n4))
    by (unfold n4; lra).
  apply sqrt_near; [unfold n4; lra|]. unfold e, n1, n2, n3, n4, n5. interval.
Qed.
Lemma p23_of_T p : 16.529 <= p <= 100 -> Rabs (q23 (T23 p) - p) < 0.000001.
Proof.
  intros H. unfold T23. set (s := R_sqrt.sqrt ((p - 13.91883977887) / 0.0010192970039326)).
  assert (Q : 0 <= (p - 13.91883977887) / 0.0010192970039326 <= 85000).
  { split; apply Rmult_le_reg_r with 0.0010192970039326; try lra; field_simplify; lra. }
  assert (S : s * s = (p - 13.91883977887) / 0.0010192970039326) by (apply sqrt_sqrt; lra).
  assert (S0 : 0 <= s <= 300).
  { split; [apply sqrt_pos|]. destruct (Rle_dec s 300); [easy|].
    assert (300 * 300 < s * s) by (apply Rmult_le_0_lt_compat; lra). lra. }
  clearbody s.
  assert (E : q23 (572.54459862746 + s) - p = (n1 - n2 * n4 + n3 * n4 * n4 - n5) + s * (2 * n3 * n4 - n2)).
  { unfold q23. change 572.54459862746 with n4.
    replace (n3 * ((n4 + s) * (n4 + s))) with (n3 * n4 * n4 + 2 * n3 * n4 * s + n3 * (s * s)) by ring.
    rewrite S. change 0.0010192970039326 with n3. change 13.91883977887 with n5. field. unfold n3. apply Rgt_not_eq; lra. }
  rewrite E. unfold n1, n2, n3, n4, n5. clear E S Q. interval.
Qed.
Lemma q23_rises a b : 623.15 <= a < b -> q23 a < q23 b.
Proof.
  intros H. assert (E : q23 b - q23 a = (b - a) * (n3 * (a + b) - n2)) by (unfold q23; ring).
  assert (0 < (b - a) * (n3 * (a + b) - n2)) by (apply Rmult_lt_0_compat; unfold n3, n2; lra). lra.
Qed.
Lemma T23_rises a b : 16.529 <= a < b -> T23 a < T23 b.
Proof.
  intros H. unfold T23. apply Rplus_lt_compat_l. apply sqrt_lt_1_alt. split.
  - apply Rlt_le, Rdiv_lt_0_compat; lra.
  - apply div_lt; lra.
Qed.
Lemma psat_q : 16.529 <= q23 623.15.
Proof. unfold q23, n1, n2, n3; lra. Qed.
Lemma border_T T : 623.15 <= T <= 863.15 -> exists p T', B23p_T (Fin T) = Ok (Fin p) /\
  B23T_p (Fin p) = Ok (Fin T') /\ Rabs (T' - T) < 0.000001.
Proof.
  intros H. exists (q23 T), (T23 (q23 T)). split; [apply B23p_closed|]. split; [|now apply T23_of_p].
  apply B23T_closed. pose proof psat_q. destruct (Rle_lt_or_eq_dec 623.15 T ltac:(lra)) as [K| <-]; [|lra].
  pose proof (q23_rises 623.15 T ltac:(lra)). lra.
Qed.
Lemma border_p p : 16.529 <= p <= 100 -> exists T p', B23T_p (Fin p) = Ok (Fin T) /\
  B23p_T (Fin T) = Ok (Fin p') /\ Rabs (p' - p) < 0.000001.
Proof.
  intros H. exists (T23 p), (q23 (T23 p)). split; [apply B23T_closed; lra|]. split; [apply B23p_closed | now apply p23_of_T].
Qed.
Lemma border_rises :
  (forall a b pa pb, 623.15 <= a < b -> B23p_T (Fin a) = Ok (Fin pa) -> B23p_T (Fin b) = Ok (Fin pb) -> pa < pb) /\
  (forall a b Ta Tb, 16.529 <= a < b -> B23T_p (Fin a) = Ok (Fin Ta) -> B23T_p (Fin b) = Ok (Fin Tb) -> Ta < Tb).
Proof.
  split; intros a b x y H.
  - rewrite !B23p_closed. intros [= <-] [= <-]. now apply q23_rises.
  - rewrite !B23T_closed by lra. intros [= <-] [= <-]. now apply T23_rises.
Qed.

(** ** Examples *)
Section Ex.
Context {F : Fuel}.
Lemma at_MKS : to_si MKS QT (-10) = 263.15 /\ to_si MKS QT 20 = 293.15 /\ to_si MKS QT 60 = 333.15 /\
  to_si MKS QT (-18) = 255.15 /\ to_si MKS QT 100 = 373.15 /\ to_si MKS QT (-20) = 253.15 /\ to_si MKS QT 200 = 473.15.
Proof. unfold to_si; cbn [origin shift factor]; repeat split; lra. Qed.
Lemma ex_ice : ice_at Ih (to_si MKS QT (-10)) /\ ice_at III (to_si MKS QT (-18)) /\ ice_at V (to_si MKS QT (-10)) /\
  ice_at VI (to_si MKS QT 20) /\ ice_at VII (to_si MKS QT 100) /\ ~ ice_at VII (to_si MKS QT 20) /\
  (forall i, PInt 2 <> hint_of i) /\ (forall i, PBool true <> hint_of i).
Proof.
  destruct at_MKS as (-> & -> & _ & -> & -> & _). unfold ice_at; cbn [t_low t_high].
  repeat split; try lra; intros i; destruct i; discriminate.
Qed.
Lemma ex_curves : exists p1 p2 q1 q2 s1 s2, pmelt_t MKS (Fin (-20)) (hint_of Ih) = Ok (Fin p1) /\
  pmelt_t MKS (Fin (-10)) (hint_of Ih) = Ok (Fin p2) /\
  pmelt_t MKS (Fin 100) (hint_of VII) = Ok (Fin q1) /\ pmelt_t MKS (Fin 200) (hint_of VII) = Ok (Fin q2) /\
  to_si MKS QT 200 <= r14_high VII /\
  psubl_t MKS (Fin (-20)) = Ok (Fin s1) /\ psubl_t MKS (Fin (-10)) = Ok (Fin s2).
Proof.
  destruct at_MKS as (A & B & C & D & E & G & H).
  destruct (proj1 (melt_range MKS Ih (-20)) ltac:(rewrite G; unfold ice_at; cbn [t_low t_high]; lra)) as (p1 & E1 & _).
  destruct (proj1 (melt_range MKS Ih (-10)) ltac:(rewrite A; unfold ice_at; cbn [t_low t_high]; lra)) as (p2 & E2 & _).
  destruct (proj1 (melt_range MKS VII 100) ltac:(rewrite E; unfold ice_at; cbn [t_low t_high]; lra)) as (q1 & E3 & _).
  destruct (proj1 (melt_range MKS VII 200) ltac:(rewrite H; unfold ice_at; cbn [t_low t_high]; lra)) as (q2 & E4 & _).
  destruct (proj1 (subl_range MKS (-20)) ltac:(rewrite G; lra)) as (s1 & E5 & _).
  destruct (proj1 (subl_range MKS (-10)) ltac:(rewrite A; lra)) as (s2 & E6 & _).
  exists p1, p2, q1, q2, s1, s2. rewrite H. cbn [r14_high]. repeat (split; [assumption || lra|]). assumption.
Qed.
Lemma ex_st : exists y1 y2, st_t MKS (Fin 20) = Ok (Fin y1) /\ st_t MKS (Fin 200) = Ok (Fin y2) /\
  273.16 <= to_si MKS QT 20.
Proof.
  destruct at_MKS as (A & B & C & D & E & G & H).
  destruct (proj1 (st_api MKS 20) ltac:(rewrite B; lra)) as (y1 & E1 & _).
  destruct (proj1 (st_api MKS 200) ltac:(rewrite H; lra)) as (y2 & E2 & _).
  exists y1, y2. rewrite B. repeat split; auto; lra.
Qed.
End Ex.
