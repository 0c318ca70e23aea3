(** * Bisection in binary64: mid points settle.

    Whatever half is kept in each round, after finitely many rounds the mid point is the one
    of the round before. *)
From Coq Require Import ZArith Reals Bool SpecFloat Lia Lra.
From Flocq Require Import Core BinarySingleNaN Plus_error Mult_error.
From Verif Require Import Py Float64.
Open Scope R_scope.

Notation format := (generic_format radix2 fexp64).

Lemma fexp_FLT : forall e, fexp64 e = FLT_exp (-1074) 53 e.
Proof. reflexivity. Qed.

(** ** Spacing *)
Lemma gap_succ x y : format x -> format y -> x < y -> ulp radix2 fexp64 x / 2 <= y - x.
Proof.
  intros Fx Fy H. pose proof (succ_le_lt radix2 fexp64 x y Fx Fy H) as S.
  pose proof (ulp_ge_0 radix2 fexp64 x) as U.
  destruct (Rle_or_lt 0 x) as [P|P].
  - rewrite succ_eq_pos in S by exact P. lra.
  - unfold succ in S. rewrite Rle_bool_false in S by exact P.
    unfold pred_pos in S. rewrite ulp_opp in S.
    revert S. case Req_bool_spec; intros E S; [|lra].
    rewrite mag_opp in S. rewrite ulp_neq_0 by lra. unfold cexp.
    assert (H2 : bpow radix2 (fexp64 (mag radix2 x)) <= 2 * bpow radix2 (fexp64 (mag radix2 x - 1))).
    { change 2 with (bpow radix2 1). rewrite <- bpow_plus. apply bpow_le.
      unfold SpecFloat.fexp, SpecFloat.emin. lia. }
    lra.
Qed.

Lemma gap_pred x y : format x -> format y -> x < y -> ulp radix2 fexp64 y / 2 <= y - x.
Proof.
  intros Fx Fy H. rewrite <- ulp_opp.
  apply Rle_trans with (- x - - y); [|lra].
  apply gap_succ; try (apply generic_format_opp; assumption). lra.
Qed.

Lemma format_opp x : format x -> format (- x).
Proof. apply generic_format_opp. Qed.

(** ** The rounded mid point *)
Definition rmid (a b : R) : R := rnd (rnd (a + b) / 2).

Lemma format_rnd x : format (rnd x).
Proof. apply generic_format_round; [apply fexp_correct; reflexivity | apply valid_rnd_N]. Qed.

Lemma rnd_id x : format x -> rnd x = x.
Proof. intros H. apply round_generic; [apply valid_rnd_N | exact H]. Qed.
Lemma rnd_le x y : x <= y -> rnd x <= rnd y.
Proof. intros H. apply round_le; [apply fexp_correct; reflexivity | apply valid_rnd_N | exact H]. Qed.

(** Halving after rounding the sum is the same as rounding the exact mid point. *)
Lemma rmid_once a b : format a -> format b -> rmid a b = rnd ((a + b) / 2).
Proof.
  intros Fa Fb. unfold rmid.
  destruct (Rle_or_lt (Rabs (a + b)) (bpow radix2 (-1021))) as [S|S].
  - rewrite (rnd_id (a + b)); [reflexivity|].
    apply (FLT_format_plus_small radix2 (-1074) 53); assumption.
  - assert (E : rnd ((a + b) / 2) = rnd (a + b) / 2).
    { unfold rnd, round, F2R. cbn [Fnum Fexp].
      assert (M : (mag radix2 ((a + b) / 2) = mag radix2 (a + b) - 1 :> Z)%Z).
      { replace ((a + b) / 2) with ((a + b) * bpow radix2 (-1)).
        2:{ change (bpow radix2 (-1)) with (/ 2). lra. }
        apply mag_mult_bpow. intros Z. rewrite Z, Rabs_R0 in S.
        pose proof (bpow_gt_0 radix2 (-1021)). lra. }
      assert (G : (-1021 < mag radix2 (a + b))%Z).
      { apply mag_gt_bpow. lra. }
      assert (C : (cexp radix2 fexp64 ((a + b) / 2) = cexp radix2 fexp64 (a + b) - 1)%Z).
      { unfold cexp. rewrite M. unfold SpecFloat.fexp, SpecFloat.emin. lia. }
      assert (SM : scaled_mantissa radix2 fexp64 ((a + b) / 2) = scaled_mantissa radix2 fexp64 (a + b)).
      { unfold scaled_mantissa. rewrite C.
        replace (- (cexp radix2 fexp64 (a + b) - 1))%Z with (- cexp radix2 fexp64 (a + b) + 1)%Z by ring.
        rewrite bpow_plus. change (bpow radix2 1) with 2.
        generalize (bpow radix2 (- cexp radix2 fexp64 (a + b))). intros r. field. }
      rewrite SM, C. unfold Zminus. rewrite bpow_plus. change (bpow radix2 (-1)) with (/ 2). unfold Rdiv. symmetry. apply Rmult_assoc. }
    rewrite E. apply rnd_id. rewrite <- E. apply format_rnd.
Qed.

Lemma rmid_comm a b : rmid a b = rmid b a.
Proof. unfold rmid. now rewrite Rplus_comm. Qed.

Lemma rmid_between a b : format a -> format b -> a <= b -> a <= rmid a b <= b.
Proof.
  intros Fa Fb H. rewrite rmid_once by assumption.
  rewrite <- (rnd_id a) at 1 by exact Fa. rewrite <- (rnd_id b) at 3 by exact Fb.
  split; apply rnd_le; lra.
Qed.

Lemma rmid_contract a b : format a -> format b -> a < rmid a b < b ->
  rmid a b - a <= 3 / 4 * (b - a) /\ b - rmid a b <= 3 / 4 * (b - a).
Proof.
  intros Fa Fb [H1 H2]. assert (Fm : format (rmid a b)) by apply format_rnd.
  pose proof (gap_pred _ _ Fa Fm H1) as G1. pose proof (gap_succ _ _ Fm Fb H2) as G2.
  assert (E : Rabs (rmid a b - (a + b) / 2) <= / 2 * ulp radix2 fexp64 (rmid a b)).
  { rewrite rmid_once by assumption. apply error_le_half_ulp_round; try typeclasses eauto. }
  apply Rabs_le_inv in E. lra.
Qed.

(** ** Floats *)
Definition mid (lo hi : f64) : f64 := Bdiv mode_NE (Bplus mode_NE lo hi) (flit 2%dec).

Lemma mid_div lo hi : fdiv (Bplus mode_NE lo hi) (flit 2%dec) = Ok (mid lo hi).
Proof. reflexivity. Qed.

Lemma two_eq : B2R (flit 2%dec) = 2.
Proof. change (B2R (flit 2%dec)) with (F2R (Float radix2 4503599627370496 (-51))). unfold F2R; simpl. lra. Qed.

Lemma fmt (x : f64) : format (B2R x).
Proof. apply generic_format_B2R. Qed.

Lemma half_lt x : Rabs x < bpow radix2 1024 -> Rabs (rnd (x / 2)) < bpow radix2 1024.
Proof.
  intros H. apply Rle_lt_trans with (bpow radix2 1023).
  2:{ apply bpow_lt; lia. }
  apply abs_round_le_generic; [apply fexp_correct; reflexivity | apply valid_rnd_N | |].
  - apply generic_format_bpow. unfold SpecFloat.fexp, SpecFloat.emin. lia.
  - replace (bpow radix2 1023) with (bpow radix2 1024 / 2).
    + unfold Rdiv. rewrite Rabs_mult, (Rabs_pos_eq (/ 2)) by lra. lra.
    + change 1024%Z with (1023 + 1)%Z. rewrite bpow_plus. change (bpow radix2 1) with 2. field.
Qed.

Lemma mid_finite lo hi : is_finite lo = true -> is_finite hi = true ->
  is_finite (mid lo hi) = true -> B2R (mid lo hi) = rmid (B2R lo) (B2R hi).
Proof.
  intros Fl Fh Fm. unfold mid, rmid in *.
  pose proof (Bplus_correct prec emax Hprec Hmax mode_NE lo hi Fl Fh) as P.
  change (round radix2 fexp64 (round_mode mode_NE)) with rnd in P.
  revert P. case Rlt_bool_spec; intros S P.
  - destruct P as (P1 & P2 & _).
    pose proof (Bdiv_correct prec emax Hprec Hmax mode_NE (Bplus mode_NE lo hi) (flit 2%dec)) as Q.
    change (round radix2 fexp64 (round_mode mode_NE)) with rnd in Q.
    rewrite two_eq, P1 in Q. specialize (Q ltac:(lra)).
    rewrite Rlt_bool_true in Q by (apply half_lt; exact S). apply Q.
  - destruct P as [P _]. exfalso.
    destruct (Bplus mode_NE lo hi) as [s|s| |s m e Hb]; cbn in P; try discriminate P.
    cbn in Fm. discriminate Fm.
Qed.

(** ** Settling *)
Fixpoint settles (n : nat) (lo hi : f64) : Prop :=
  match n with
  | O => False
  | S k => let m := mid lo hi in
      (mid lo m = m \/ settles k lo m) /\ (mid m hi = m \/ settles k m hi)
  end.

Lemma settles_S n : forall lo hi, settles n lo hi -> settles (S n) lo hi.
Proof.
  induction n as [|n IH]; intros lo hi H; [easy|].
  destruct H as [[H1|H1] [H2|H2]]; split; auto.
Qed.
Lemma settles_mono n k lo hi : (n <= k)%nat -> settles n lo hi -> settles k lo hi.
Proof. induction 1; auto using settles_S. Qed.

(** Infinities and NaN stay. *)
Lemma settles_special lo hi : is_finite (mid lo hi) = false -> settles 1 lo hi.
Proof.
  intros H. cbn [settles]. set (m := mid lo hi) in *.
  assert (E : m = B754_nan \/ exists s, m = B754_infinity s).
  { destruct m; try discriminate H; eauto. }
  destruct E as [E|[s E]].
  - rewrite E. split; left.
    + destruct lo; reflexivity.
    + reflexivity.
  - assert (K : forall x y t, mid x y = B754_infinity t -> x <> B754_infinity (negb t) /\ x <> B754_nan).
    { intros x y t Hm. split; intros X; rewrite X in Hm; destruct y as [sy|sy| |sy my ey Hy]; try destruct sy; destruct t; cbn in Hm; discriminate Hm. }
    assert (C : mid lo hi = mid hi lo).
    { unfold mid. f_equal. destruct lo as [sl|sl| |sl ml el Hl], hi as [sh|sh| |sh mh eh Hh]; cbn; try reflexivity;
        try (destruct sl, sh; reflexivity).
      rewrite (Z.min_comm eh el). f_equal. apply Z.add_comm. }
    destruct (K lo hi s E) as [L1 L2]. destruct (K hi lo s (eq_trans (eq_sym C) E)) as [M1 M2].
    rewrite E. split; left.
    + destruct lo as [sl|sl| |sl ml el Hl]; try easy; destruct s; try reflexivity; destruct sl; try reflexivity; exfalso; now apply L1.
    + destruct hi as [sl|sl| |sl ml el Hl]; try easy; destruct s; try reflexivity; destruct sl; try reflexivity; exfalso; now apply M1.
Qed.

Lemma mid_comm lo hi : mid lo hi = mid hi lo.
Proof.
  unfold mid. f_equal. destruct lo as [sl|sl| |sl ml el Hl], hi as [sh|sh| |sh mh eh Hh]; cbn; try reflexivity;
    try (destruct sl, sh; reflexivity).
  rewrite (Z.min_comm eh el). f_equal. apply Z.add_comm.
Qed.
Lemma settles_comm n : forall lo hi, settles n lo hi -> settles n hi lo.
Proof.
  induction n as [|n IH]; intros lo hi H; [easy|]. cbn [settles] in *.
  rewrite (mid_comm hi lo). destruct H as [H1 H2].
  rewrite (mid_comm hi _), (mid_comm _ lo). split.
  - destruct H2 as [H2|H2]; auto.
  - destruct H1 as [H1|H1]; auto.
Qed.

(** Two zeros. *)
Lemma settles_zeros s t : settles 3 (B754_zero s) (B754_zero t).
Proof. destruct s, t; vm_compute; intuition. Qed.

(** The mid point is (as a real) one of the two ends. *)
Lemma settles_stuck lo hi : is_finite lo = true -> is_finite hi = true ->
  is_finite (mid lo hi) = true -> B2R (mid lo hi) = B2R lo -> settles 5 lo hi.
Proof.
  intros Fl Fh Fm E. change (settles 5 lo hi) with
    ((mid lo (mid lo hi) = mid lo hi \/ settles 4 lo (mid lo hi)) /\
     (mid (mid lo hi) hi = mid lo hi \/ settles 4 (mid lo hi) hi)).
  destruct (Req_dec (B2R lo) 0) as [Z|NZ].
  - assert (X : forall x : f64, is_finite x = true -> B2R x = 0 -> exists s, x = B754_zero s).
    { intros [s|s| |s m e Hb] G1 G2; try discriminate G1; [now exists s|].
      exfalso. cbn in G2. apply eq_0_F2R in G2. destruct s; discriminate G2. }
    destruct (X lo Fl Z) as [s Es]. destruct (X _ Fm ltac:(congruence)) as [t Et].
    rewrite Et, Es. split; [right; apply settles_S, settles_zeros|].
    destruct hi as [sh|sh| |sh mh eh Hh]; try discriminate Fh.
    + right. apply settles_S, settles_zeros.
    + left. transitivity (mid lo (B754_finite sh mh eh Hh)); [rewrite Es; reflexivity | exact Et].
  - assert (M : mid lo hi = lo).
    { apply B2R_inj; [| | exact E].
      - destruct (mid lo hi); try discriminate Fm; [|reflexivity]. cbn in E. congruence.
      - destruct lo; try discriminate Fl; [|reflexivity]. now elim NZ. }
    rewrite M. split; [|now left].
    destruct (is_finite (mid lo lo)) eqn:Fll.
    + left. apply B2R_inj.
      * destruct (mid lo lo) eqn:EM; try discriminate Fll; [|reflexivity].
        assert (B2R (mid lo lo) = 0) by now rewrite EM.
        rewrite mid_finite in H by (try rewrite EM; auto).
        pose proof (rmid_between _ _ (fmt lo) (fmt lo) (Rle_refl _)). exfalso. lra.
      * destruct lo; try discriminate Fl; [|reflexivity]. now elim NZ.
      * rewrite mid_finite by assumption.
        pose proof (rmid_between _ _ (fmt lo) (fmt lo) (Rle_refl _)). lra.
    + right. apply (settles_mono 1); [lia|]. now apply settles_special.
Qed.

(** All ends at least [L] have distance [d]. *)
Definition spaced (P : R -> Prop) (d : R) : Prop :=
  (forall x y, format x -> format y -> P x -> P y -> x < y -> d <= y - x) /\
  (forall x y z, P x -> P y -> x <= z <= y -> P z).

Lemma settles_gap P d : spaced P d -> forall n lo hi,
  is_finite lo = true -> is_finite hi = true -> P (B2R lo) -> P (B2R hi) ->
  Rabs (B2R hi - B2R lo) * (3 / 4) ^ n < d -> settles (n + 5) lo hi.
Proof.
  intros [Sp Cv]. induction n as [|n IH]; intros lo hi Fl Fh Pl Ph G.
  - assert (E : B2R lo = B2R hi).
    { rewrite pow_O, Rmult_1_r in G. destruct (Rtotal_order (B2R lo) (B2R hi)) as [H|[H|H]]; [|exact H|].
      - specialize (Sp _ _ (fmt lo) (fmt hi) Pl Ph H). rewrite Rabs_pos_eq in G by lra. lra.
      - specialize (Sp _ _ (fmt hi) (fmt lo) Ph Pl H). rewrite Rabs_left in G by lra. lra. }
    destruct (is_finite (mid lo hi)) eqn:Fm.
    + apply settles_stuck; auto. rewrite mid_finite by assumption.
      pose proof (rmid_between _ _ (fmt lo) (fmt hi) ltac:(lra)). lra.
    + apply (settles_mono 1); [lia|]. now apply settles_special.
  - (* by symmetry lo <= hi *)
    assert (W : forall lo hi : f64, is_finite lo = true -> is_finite hi = true -> P (B2R lo) -> P (B2R hi) ->
      Rabs (B2R hi - B2R lo) * (3 / 4) ^ S n < d -> B2R lo <= B2R hi -> settles (S n + 5) lo hi).
    { clear lo hi Fl Fh Pl Ph G. intros lo hi Fl Fh Pl Ph G O.
      destruct (is_finite (mid lo hi)) eqn:Fm.
      2:{ apply (settles_mono 1); [lia|]. now apply settles_special. }
      pose proof (mid_finite _ _ Fl Fh Fm) as E.
      pose proof (rmid_between _ _ (fmt lo) (fmt hi) O) as B. rewrite <- E in B.
      destruct (Req_dec (B2R (mid lo hi)) (B2R lo)) as [E1|N1].
      { apply (settles_mono 5); [lia|]. now apply settles_stuck. }
      destruct (Req_dec (B2R (mid lo hi)) (B2R hi)) as [E2|N2].
      { apply (settles_mono 5); [lia|]. apply settles_comm, settles_stuck; rewrite ?(mid_comm hi lo); auto. }
      assert (Pm : P (B2R (mid lo hi))) by now apply (Cv _ _ _ Pl Ph).
      destruct (rmid_contract _ _ (fmt lo) (fmt hi) ltac:(rewrite <- E; lra)) as [C1 C2].
      rewrite <- E in C1, C2. rewrite Rabs_pos_eq in G by lra.
      assert (Q : 0 < (3 / 4) ^ n) by (apply pow_lt; lra).
      rewrite <- tech_pow_Rmult in G.
      change (S n + 5)%nat with (S (n + 5)). cbn [settles]. split; right; apply IH; auto.
      - rewrite Rabs_pos_eq by lra. apply Rle_lt_trans with (2 := G).
        rewrite <- Rmult_assoc. apply Rmult_le_compat_r; lra.
      - rewrite Rabs_pos_eq by lra. apply Rle_lt_trans with (2 := G).
        rewrite <- Rmult_assoc. apply Rmult_le_compat_r; lra. }
    destruct (Rle_or_lt (B2R lo) (B2R hi)) as [O|O]; [now apply W|].
    apply settles_comm, W; auto; [|lra]. now rewrite Rabs_minus_sym.
Qed.

Lemma pow34 k : (3 / 4) ^ (5 * k) <= bpow radix2 (- (2 * Z.of_nat k)).
Proof.
  rewrite pow_mult. induction k as [|k IH].
  - simpl. lra.
  - rewrite <- tech_pow_Rmult.
    replace (- (2 * Z.of_nat (S k)))%Z with (-2 + - (2 * Z.of_nat k))%Z by lia.
    rewrite bpow_plus. apply Rmult_le_compat; try exact IH.
    + apply pow_le. lra.
    + apply pow_le, pow_le. lra.
    + change (bpow radix2 (-2)) with (/ 4). simpl. lra.
Qed.

(** Any two floats. *)
Lemma spaced_all : spaced (fun _ => True) (bpow radix2 (-1074)).
Proof.
  split; [|easy]. intros x y Fx Fy _ _ H.
  assert (M : forall z, format z -> exists k, z = IZR k * bpow radix2 (-1074)).
  { intros z Fz. apply generic_format_FIX_FLT in Fz. apply FIX_format_generic in Fz.
    destruct Fz as [[k e] E1 E2]. cbn in E2. exists k. rewrite E1. unfold F2R. cbn. now rewrite E2. }
  destruct (M x Fx) as [i ->]. destruct (M y Fy) as [j ->].
  pose proof (bpow_gt_0 radix2 (-1074)) as B.
  apply Rmult_lt_reg_r in H; [|exact B]. apply lt_IZR in H.
  assert (1 <= IZR j - IZR i). { rewrite <- minus_IZR. apply IZR_le. lia. }
  rewrite <- Rmult_minus_distr_r. rewrite <- (Rmult_1_l (bpow radix2 (-1074))) at 1.
  apply Rmult_le_compat_r; lra.
Qed.

Theorem settles_all k lo hi : Z.of_nat k = 1050%Z -> settles (5 * k + 5) lo hi.
Proof.
  intros Hk.
  destruct (is_finite (mid lo hi)) eqn:Fm.
  2:{ apply (settles_mono 1); [lia|]. now apply settles_special. }
  assert (FF : is_finite lo = true /\ is_finite hi = true).
  { destruct lo as [sl|sl| |sl ml el Hl], hi as [sh|sh| |sh mh eh Hh]; cbn in Fm |- *; auto;
      try discriminate Fm; try (destruct sl, sh; discriminate Fm). }
  destruct FF as [Fl Fh].
  apply (settles_gap _ _ spaced_all); auto.
  pose proof (abs_B2R_lt_emax _ _ lo) as A1. pose proof (abs_B2R_lt_emax _ _ hi) as A2.
  apply Rle_lt_trans with (Rabs (B2R hi - B2R lo) * bpow radix2 (-2100)).
  - apply Rmult_le_compat_l; [apply Rabs_pos|]. replace (-2100)%Z with (- (2 * Z.of_nat k))%Z by lia. apply pow34.
  - apply Rlt_le_trans with (bpow radix2 1025 * bpow radix2 (-2100)).
    + apply Rmult_lt_compat_r; [apply bpow_gt_0|].
      apply Rle_lt_trans with (Rabs (B2R hi) + Rabs (B2R lo)).
      * unfold Rminus. rewrite <- (Rabs_Ropp (B2R lo)). apply Rabs_triang.
      * change 1025%Z with (1024 + 1)%Z. rewrite bpow_plus. change (bpow radix2 1) with 2. lra.
    + rewrite <- bpow_plus. apply bpow_le. lia.
Qed.
