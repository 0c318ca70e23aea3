(** The API in binary64: NaN, ranges, exceptions of the converters. *)
From Coq Require Import ZArith Reals Lra Lia List Bool.
From Flocq Require Import Core Relative BinarySingleNaN.
From Verif Require Import Py ModState ModConstants ModUnits ModSelect ModRegion4 ModXSteam ExactReal
  Float64 SpecUnits SpecApi SpecRange ProofGeneric.
Import ListNotations.

(** *** NaN *)
Lemma nan_law_R : nan_law (N := RNum).
Proof.
  intros x y z H. destruct x as [x|].
  - cbn in H. rewrite Reqb_true in H; [discriminate | reflexivity].
  - destruct y, z; reflexivity.
Qed.

Section Float.
Variable L : libm.
#[local] Existing Instance FNum.
Notation FN := (FNum L).

Lemma Bltb_nan_l (x : f64) : Bltb B754_nan x = false. Proof. reflexivity. Qed.
Lemma Bltb_nan_r (x : f64) : Bltb x B754_nan = false. Proof. now destruct x as [[]|[]| |[]]. Qed.
Lemma Bleb_nan_l (x : f64) : Bleb B754_nan x = false. Proof. reflexivity. Qed.
Lemma Bleb_nan_r (x : f64) : Bleb x B754_nan = false. Proof. now destruct x as [[]|[]| |[]]. Qed.
Lemma Beqb_refl_nan (x : f64) : Beqb x x = false -> x = B754_nan.
Proof.
  intros H. destruct x as [[]|[]| |s m e B]; try reflexivity; try discriminate H.
  exfalso. rewrite Beqb_correct in H by reflexivity.
  now rewrite Raux.Req_bool_true in H.
Qed.
Lemma Bminus_nan_r (x : f64) : Bminus mode_NE x B754_nan = B754_nan.
Proof. now destruct x as [[]|[]| |[]]. Qed.

Lemma nan_law_F : nan_law (N := FN).
Proof.
  intros x y z H. apply Beqb_refl_nan in H. subst x.
  cbn [fabs sub ltb FNum]. rewrite Bminus_nan_r. apply Bltb_nan_r.
Qed.

(** *** The converters never raise *)
Lemma fdiv_ok (a b : f64) : Beqb b fzero = false -> fdiv a b = Ok (Bdiv mode_NE a b).
Proof. intros H. unfold fdiv. now rewrite H. Qed.

Ltac conv_unfold :=
  unfold code_to, code_from, toSIunit_p, toSIunit_T, toSIunit_h, toSIunit_v, toSIunit_s, toSIunit_u,
     toSIunit_Cp, toSIunit_Cv, toSIunit_w, toSIunit_tc, toSIunit_st, toSIunit_my,
     fromSIunit_p, fromSIunit_T, fromSIunit_h, fromSIunit_v, fromSIunit_s, fromSIunit_u,
     fromSIunit_Cp, fromSIunit_Cv, fromSIunit_w, fromSIunit_tc, fromSIunit_st, fromSIunit_my,
     ABSOLUTE_ZERO_CELSIUS.

Lemma code_to_ok q us x : exists y, code_to (N := FN) q us x = Ok y.
Proof.
  destruct us, q; conv_unfold; cbn [is_MKS is_FLS add sub mul div lit FNum];
  rewrite ?fdiv_ok by reflexivity; cbn [bind]; eauto.
Qed.
Lemma code_from_ok q us x : exists y, code_from (N := FN) q us x = Ok y.
Proof.
  destruct us, q; conv_unfold; cbn [is_MKS is_FLS add sub mul div lit FNum];
  rewrite ?fdiv_ok by reflexivity; cbn [bind]; eauto.
Qed.
Lemma Bmult_nan_r (x : f64) : Bmult mode_NE x B754_nan = B754_nan.
Proof. now destruct x as [[]|[]| |[]]. Qed.
Lemma Bdiv_nan_r (x : f64) : Bdiv mode_NE x B754_nan = B754_nan.
Proof. now destruct x as [[]|[]| |[]]. Qed.
Lemma code_to_nan q us : code_to (N := FN) q us B754_nan = Ok B754_nan.
Proof.
  destruct us, q; conv_unfold; cbn [is_MKS is_FLS add sub mul div lit FNum];
  rewrite ?fdiv_ok by reflexivity; cbn [bind]; try reflexivity;
  apply f_equal; rewrite ?Bmult_nan_r; try reflexivity.
Qed.
Lemma code_bare q x : code_to (N := FN) q BARE x = Ok x /\ code_from (N := FN) q BARE x = Ok x.
Proof. destruct q; split; reflexivity. Qed.

(** *** Round trips *)
Open Scope R_scope.

Lemma fexp_FLT : SpecFloat.fexp 53 1024 = FLT_exp (3 - 1024 - 53) 53.
Proof. reflexivity. Qed.
#[local] Instance valid64 : Valid_exp (SpecFloat.fexp 53 1024).
Proof. rewrite fexp_FLT. apply FLT_exp_valid. reflexivity. Qed.

Lemma rnd_rel x : bpow radix2 (-1022) <= Rabs x ->
  exists e, Rabs e <= u64 /\ rnd x = x * (1 + e).
Proof.
  intros H. unfold rnd. rewrite fexp_FLT.
  destruct (relative_error_N_FLT_ex radix2 (3 - 1024 - 53) 53 eq_refl (fun n => negb (Z.even n)) x H)
    as (e & He & E).
  exists e. split; [exact He | exact E].
Qed.
Lemma rnd_small x : Rabs x <= bpow radix2 1020 -> Rabs (rnd x) <= bpow radix2 1020.
Proof.
  intros H. unfold rnd. apply abs_round_le_generic; [apply valid64 | apply valid_rnd_N | | exact H].
  apply generic_format_bpow. cbn. lia.
Qed.
Lemma bpow_lt_1024 x : x <= bpow radix2 1020 -> x < bpow radix2 1024.
Proof. intros H. eapply Rle_lt_trans; [exact H|]. apply bpow_lt. lia. Qed.

Definition good (c : f64) : Prop :=
  is_finite c = true /\ bpow radix2 (-10) <= B2R c <= bpow radix2 13.

Lemma good_lit d : bpow radix2 (-10) <= D d <= bpow radix2 13 -> good (flit d).
Proof.
  intros [H1 H2].
  assert (P : 0 < bpow radix2 (-10)) by apply bpow_gt_0.
  assert (R1 : bpow radix2 (-10) <= rnd (D d)).
  { unfold rnd. apply round_ge_generic; [apply valid64 | apply valid_rnd_N | | easy].
    apply generic_format_bpow. cbn. lia. }
  assert (R2 : rnd (D d) <= bpow radix2 13).
  { unfold rnd. apply round_le_generic; [apply valid64 | apply valid_rnd_N | | easy].
    apply generic_format_bpow. cbn. lia. }
  destruct (flit_correct d) as [E F].
  { rewrite Rabs_pos_eq by lra. eapply Rle_lt_trans; [exact R2|]. apply bpow_lt. lia. }
  unfold good. rewrite E. auto.
Qed.

Section RT.
Variables (x c : f64).
Hypothesis Hx : is_finite x = true.
Hypothesis Rx : bpow radix2 (-1000) <= Rabs (B2R x) <= bpow radix2 1000.
Hypothesis Hc : good c.

Let X := B2R x.
Let C := B2R c.

Lemma C_pos : 0 < C.
Proof. destruct Hc as (_ & H & _). pose proof (bpow_gt_0 radix2 (-10)). unfold C. lra. Qed.
Lemma u64_small : u64 <= / 2.
Proof. unfold u64. change (bpow radix2 (-53 + 1)) with (/ 4503599627370496). lra. Qed.

Lemma bp_le k l : (k <= l)%Z -> bpow radix2 k <= bpow radix2 l.
Proof. apply bpow_le. Qed.

Lemma prod_bounds a b k1 k2 l1 l2 : bpow radix2 k1 <= a <= bpow radix2 l1 ->
  bpow radix2 k2 <= b <= bpow radix2 l2 ->
  bpow radix2 (k1 + k2) <= a * b <= bpow radix2 (l1 + l2).
Proof.
  intros [A1 A2] [B1 B2]. rewrite !bpow_plus.
  pose proof (bpow_gt_0 radix2 k1). pose proof (bpow_gt_0 radix2 k2).
  split; apply Rmult_le_compat; lra.
Qed.
Lemma inv_bounds b k l : bpow radix2 k <= b <= bpow radix2 l ->
  bpow radix2 (- l) <= / b <= bpow radix2 (- k).
Proof.
  intros [B1 B2]. rewrite !bpow_opp. pose proof (bpow_gt_0 radix2 k).
  split; apply Rinv_le; lra.
Qed.
Lemma one_e e : Rabs e <= u64 -> bpow radix2 (-1) <= 1 + e <= bpow radix2 1.
Proof.
  intros H. pose proof u64_small. apply Rabs_le_inv in H.
  change (bpow radix2 (-1)) with (/ 2). change (bpow radix2 1) with 2. lra.
Qed.

Lemma mul_ok (a b : f64) : is_finite a = true -> is_finite b = true ->
  bpow radix2 (-1022) <= Rabs (B2R a * B2R b) <= bpow radix2 1020 ->
  exists e, Rabs e <= u64 /\ is_finite (Bmult mode_NE a b) = true /\
    B2R (Bmult mode_NE a b) = B2R a * B2R b * (1 + e).
Proof.
  intros Fa Fb [H1 H2]. pose proof (Bmult_correct 53 1024 _ _ mode_NE a b) as K.
  change (round radix2 fexp64 (round_mode mode_NE)) with rnd in K.
  rewrite Rlt_bool_true in K by apply bpow_lt_1024, rnd_small, H2.
  destruct K as (K1 & K2 & _). rewrite Fa, Fb in K2.
  destruct (rnd_rel _ H1) as (e & He & E). exists e. rewrite K1, E. auto.
Qed.
Lemma div_ok (a b : f64) : is_finite a = true -> B2R b <> 0 ->
  bpow radix2 (-1022) <= Rabs (B2R a / B2R b) <= bpow radix2 1020 ->
  exists e, Rabs e <= u64 /\ is_finite (Bdiv mode_NE a b) = true /\
    B2R (Bdiv mode_NE a b) = B2R a / B2R b * (1 + e).
Proof.
  intros Fa Nb [H1 H2]. pose proof (Bdiv_correct 53 1024 _ _ mode_NE a b Nb) as K.
  change (round radix2 fexp64 (round_mode mode_NE)) with rnd in K.
  rewrite Rlt_bool_true in K by apply bpow_lt_1024, rnd_small, H2.
  destruct K as (K1 & K2 & _). rewrite Fa in K2.
  destruct (rnd_rel _ H1) as (e & He & E). exists e. rewrite K1, E. auto.
Qed.

Lemma close e1 e2 : Rabs e1 <= u64 -> Rabs e2 <= u64 ->
  Rabs (X * (1 + e1) * (1 + e2) - X) <= (2 * u64 + u64 * u64) * Rabs X.
Proof.
  intros H1 H2. replace (X * (1 + e1) * (1 + e2) - X) with ((e1 + e2 + e1 * e2) * X) by ring.
  rewrite Rabs_mult. apply Rmult_le_compat_r; [apply Rabs_pos|].
  pose proof (Rabs_pos e1). pose proof (Rabs_pos e2).
  eapply Rle_trans; [apply Rabs_triang|]. rewrite Rabs_mult.
  pose proof (Rabs_triang e1 e2).
  pose proof (Rmult_le_compat (Rabs e1) u64 (Rabs e2) u64). lra.
Qed.

Lemma mul_div : is_finite (Bdiv mode_NE (Bmult mode_NE x c) c) = true /\
  Rabs (B2R (Bdiv mode_NE (Bmult mode_NE x c) c) - X) <= (2 * u64 + u64 * u64) * Rabs X.
Proof.
  destruct Hc as (Fc & Bc). pose proof C_pos as P.
  assert (A : Rabs C = C) by (apply Rabs_pos_eq; lra).
  pose proof (prod_bounds _ _ _ _ _ _ Rx Bc) as M. cbn [Z.add Z.opp Z.pos_sub Pos.add] in M.
  fold C in M. rewrite <- A, <- Rabs_mult in M.
  destruct (mul_ok x c Hx Fc) as (e1 & H1 & F1 & E1).
  { fold X C. split; (eapply Rle_trans; [|apply M] || (eapply Rle_trans; [apply M|])); apply bp_le; lia. }
  pose proof (one_e e1 H1) as O1.
  assert (Q : B2R (Bmult mode_NE x c) / C = X * (1 + e1)) by (rewrite E1; fold X C; field; lra).
  destruct (div_ok (Bmult mode_NE x c) c F1) as (e2 & H2 & F2 & E2).
  { fold C. lra. }
  { fold C. rewrite Q, Rabs_mult.
    assert (A1 : Rabs (1 + e1) = 1 + e1).
    { apply Rabs_pos_eq. pose proof (bpow_gt_0 radix2 (-1)). lra. }
    rewrite A1. pose proof (prod_bounds _ _ _ _ _ _ Rx O1) as M1.
    split; (eapply Rle_trans; [|apply M1] || (eapply Rle_trans; [apply M1|])); apply bp_le; lia. }
  split; [exact F2|]. rewrite E2. fold C. rewrite Q. now apply close.
Qed.
Lemma div_mul : is_finite (Bmult mode_NE (Bdiv mode_NE x c) c) = true /\
  Rabs (B2R (Bmult mode_NE (Bdiv mode_NE x c) c) - X) <= (2 * u64 + u64 * u64) * Rabs X.
Proof.
  destruct Hc as (Fc & Bc). pose proof C_pos as P.
  assert (A : Rabs (/ C) = / C) by (apply Rabs_pos_eq, Rlt_le, Rinv_0_lt_compat; lra).
  pose proof (prod_bounds _ _ _ _ _ _ Rx (inv_bounds _ _ _ Bc)) as M.
  fold C in M. rewrite <- A, <- Rabs_mult in M.
  destruct (div_ok x c Hx) as (e1 & H1 & F1 & E1).
  { fold C. lra. }
  { fold X C. split; (eapply Rle_trans; [|apply M] || (eapply Rle_trans; [apply M|])); apply bp_le; lia. }
  pose proof (one_e e1 H1) as O1.
  assert (Q : B2R (Bdiv mode_NE x c) * C = X * (1 + e1)) by (rewrite E1; fold X C; field; lra).
  destruct (mul_ok (Bdiv mode_NE x c) c F1 Fc) as (e2 & H2 & F2 & E2).
  { fold C. rewrite Q, Rabs_mult.
    assert (A1 : Rabs (1 + e1) = 1 + e1).
    { apply Rabs_pos_eq. pose proof (bpow_gt_0 radix2 (-1)). lra. }
    rewrite A1. pose proof (prod_bounds _ _ _ _ _ _ Rx O1) as M1.
    split; (eapply Rle_trans; [|apply M1] || (eapply Rle_trans; [apply M1|])); apply bp_le; lia. }
  split; [exact F2|]. rewrite E2. fold C. rewrite Q. now apply close.
Qed.
Lemma no_op : is_finite x = true /\ Rabs (B2R x - X) <= (2 * u64 + u64 * u64) * Rabs X.
Proof.
  split; [exact Hx|]. unfold X. rewrite Rminus_diag_eq, Rabs_R0 by reflexivity.
  apply Rmult_le_pos; [|apply Rabs_pos]. pose proof u64_small.
  assert (0 <= u64) by (unfold u64; change (bpow radix2 (-53 + 1)) with (/ 4503599627370496); lra).
  pose proof (Rmult_le_pos u64 u64). lra.
Qed.
End RT.

Lemma Bmult_comm' (a b : f64) : Bmult mode_NE a b = Bmult mode_NE b a.
Proof.
  destruct a as [sa|sa| |sa ma ea Ha], b as [sb|sb| |sb mb eb Hb];
  [.. | apply B2SF_inj; unfold Bmult; rewrite !B2SF_SF2B; cbn [B2SF];
        now rewrite xorb_comm, Pos.mul_comm, Z.add_comm];
  first [reflexivity | cbn; now rewrite xorb_comm].
Qed.

Lemma float_round_trip q us x : multiplicative q = true -> is_finite x = true ->
  bpow radix2 (-1000) <= Rabs (B2R x) <= bpow radix2 1000 ->
  exists y z,
    (let* t := code_to (N := FN) q us x in code_from q us t) = Ok y /\
    (let* t := code_from (N := FN) q us x in code_to q us t) = Ok z /\
    is_finite y = true /\ Rabs (B2R y - B2R x) <= (2 * u64 + u64 * u64) * Rabs (B2R x) /\
    is_finite z = true /\ Rabs (B2R z - B2R x) <= (2 * u64 + u64 * u64) * Rabs (B2R x).
Proof.
  intros Hq Hx Rx.
  assert (G : forall d, bpow radix2 (-10) <= D d <= bpow radix2 13 -> good (flit d)) by exact good_lit.
  destruct us, q; try discriminate Hq; conv_unfold; cbn [is_MKS is_FLS add sub mul div lit FNum bind];
  rewrite ?fdiv_ok by reflexivity; cbn [bind]; rewrite ?fdiv_ok by reflexivity; cbn [bind];
  (do 2 eexists; split; [reflexivity|]; split; [reflexivity|]);
  rewrite ?(Bmult_comm' (flit 2.32600%dec));
  match goal with |- is_finite ?y = true /\ _ /\ is_finite ?z = true /\ _ =>
    enough (near_id x y /\ near_id x z) by (unfold near_id in *; tauto) end;
  split;
  lazymatch goal with
  | |- near_id x x => exact (no_op x Hx)
  | |- near_id x (Bdiv _ (Bmult _ x ?c) ?c) => apply (mul_div x c Hx Rx); apply G
  | |- near_id x (Bmult _ (Bdiv _ x ?c) ?c) => apply (div_mul x c Hx Rx); apply G
  end;
  change (bpow radix2 (-10)) with (/ 1024); change (bpow radix2 13) with 8192;
  unfold D; cbn [dec_e dec_m]; lra.
Qed.
End Float.
