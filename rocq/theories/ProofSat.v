(** The saturation line in exact arithmetic: closed forms, inverse, monotonicity. *)
From Coq Require Import ZArith Reals Lra Lia List Bool.
From Coquelicot Require Import Coquelicot.
From Interval Require Import Tactic.
From Verif Require Import Py ExactReal RealSum ModConstants ModBorders ModRegion4 ProofEos.
Import ListNotations.
Open Scope R_scope.
Local Notation sqrt := R_sqrt.sqrt.

(** ** The quadratic forms of IF97 equations 29 to 31 *)
Definition th T := T - 0.23855557567849 / (T - 650.17534844798).
Definition qA t := t ^ 2 + 1167.0521452767 * t - 724213.16703206.
Definition qB t := - (17.073846940092) * t ^ 2 + 12020.82470247 * t - 3232555.0322333.
Definition qC t := 14.91510861353 * t ^ 2 - 4823.2657361591 * t + 405113.40542057.
Definition be t := 2 * qC t / (- qB t + sqrt (qB t ^ 2 - 4 * qA t * qC t)).
Definition p4R T := be (th T) ^ 4.

Definition qE b := b ^ 2 - 17.073846940092 * b + 14.91510861353.
Definition qF b := 1167.0521452767 * b ^ 2 + 12020.82470247 * b - 4823.2657361591.
Definition qG b := - (724213.16703206) * b ^ 2 - 3232555.0322333 * b + 405113.40542057.
Definition de b := 2 * qG b / (- qF b - sqrt (qF b ^ 2 - 4 * qE b * qG b)).
Definition Tb b :=
  (650.17534844798 + de b
   - sqrt ((650.17534844798 + de b) ^ 2 - 4 * (- (0.23855557567849) + 650.17534844798 * de b))) / 2.
Definition T4R p := Tb (Rpower p (/ 4)).

(** Range of theta. *)
Lemma th_range T : 273 <= T <= 647.1 -> 273 <= th T <= 647.178.
Proof. intros H; unfold th; interval with (i_bisect T). Qed.

Lemma disc_B t : 273 <= t <= 647.178 -> 0 < qB t ^ 2 - 4 * qA t * qC t.
Proof. intros H; unfold qA, qB, qC. interval with (i_bisect t, i_depth 20). Qed.
Lemma qC_pos t : 273 <= t <= 647.178 -> 0 < qC t.
Proof. intros H; unfold qC. interval with (i_bisect t, i_depth 20). Qed.
Lemma qB_neg t : 273 <= t <= 647.178 -> qB t < 0.
Proof. intros H; unfold qB. interval with (i_bisect t, i_depth 20). Qed.

Lemma den_B t : 273 <= t <= 647.178 -> 0 < - qB t + sqrt (qB t ^ 2 - 4 * qA t * qC t).
Proof. intros H. pose proof (qB_neg t H). pose proof (sqrt_pos (qB t ^ 2 - 4 * qA t * qC t)). lra. Qed.

Lemma be_pos t : 273 <= t <= 647.178 -> 0 < be t.
Proof.
  intros H. unfold be. apply Rdiv_lt_0_compat; [|now apply den_B].
  pose proof (qC_pos t H); lra.
Qed.

(** beta(theta) is a root, on the branch where the beta-derivative is negative. *)
Lemma be_root t : 273 <= t <= 647.178 ->
  qA t * be t ^ 2 + qB t * be t + qC t = 0 /\
  2 * qA t * be t + qB t = - sqrt (qB t ^ 2 - 4 * qA t * qC t).
Proof.
  intros H. pose proof (disc_B t H) as HD. pose proof (den_B t H) as HN.
  assert (S : sqrt (qB t ^ 2 - 4 * qA t * qC t) ^ 2 = qB t ^ 2 - 4 * qA t * qC t)
    by (apply pow2_sqrt; lra).
  unfold be. set (s := sqrt _) in *.
  split.
  - apply Rmult_eq_reg_r with ((- qB t + s) ^ 2); [|apply pow_nonzero; lra].
    field_simplify; [|lra].
    replace (4 * qA t * qC t ^ 2 - qB t ^ 2 * qC t + qC t * s ^ 2)
      with (qC t * (4 * qA t * qC t - qB t ^ 2 + s ^ 2)) by ring.
    rewrite S; ring.
  - apply Rmult_eq_reg_r with (- qB t + s); [|lra].
    field_simplify; [|lra].
    replace (s ^ 2) with (qB t ^ 2 - 4 * qA t * qC t) by (symmetry; exact S). nra.
Qed.

Lemma Fth_pos t : 273 <= t <= 647.178 -> 0 < 2 * qE (be t) * t + qF (be t).
Proof. intros H; unfold qE, qF, be, qA, qB, qC. interval with (i_bisect t, i_depth 25). Qed.
Lemma FEth_pos t : 273 <= t <= 647.178 -> 0 < qE (be t) * t + qF (be t).
Proof. intros H; unfold qE, qF, be, qA, qB, qC. interval with (i_bisect t, i_depth 25). Qed.

(** ** theta(beta) *)
Definition brange b := 0.157 <= b <= 2.16733.
Lemma disc_F b : brange b -> 0 < qF b ^ 2 - 4 * qE b * qG b.
Proof. unfold brange; intros H; unfold qE, qF, qG. interval with (i_bisect b, i_depth 25). Qed.
Lemma den_F b : brange b -> - qF b - sqrt (qF b ^ 2 - 4 * qE b * qG b) < 0.
Proof. unfold brange; intros H; unfold qE, qF, qG. interval with (i_bisect b, i_depth 25). Qed.
Lemma de_range b : brange b -> 273 <= de b <= 647.1775.
Proof.
  unfold brange; intros H; unfold de, qE, qF, qG.
  split; interval with (i_bisect b, i_depth 25).
Qed.
Lemma Fbe_neg b : brange b -> 2 * qA (de b) * b + qB (de b) < 0.
Proof.
  unfold brange; intros H; unfold qA, qB, de, qE, qF, qG.
  interval with (i_bisect b, i_depth 25).
Qed.

Lemma de_root b : brange b ->
  qE b * de b ^ 2 + qF b * de b + qG b = 0 /\
  2 * qE b * de b + qF b = sqrt (qF b ^ 2 - 4 * qE b * qG b).
Proof.
  intros H. pose proof (disc_F b H) as HD. pose proof (den_F b H) as HN.
  assert (S : sqrt (qF b ^ 2 - 4 * qE b * qG b) ^ 2 = qF b ^ 2 - 4 * qE b * qG b)
    by (apply pow2_sqrt; lra).
  unfold de. set (s := sqrt _) in *.
  split.
  - apply Rmult_eq_reg_r with ((- qF b - s) ^ 2); [|apply pow_nonzero; lra].
    field_simplify; [|lra].
    replace (_ + _) with (qG b * (4 * qE b * qG b - qF b ^ 2 + s ^ 2)) by ring.
    rewrite S; ring.
  - apply Rmult_eq_reg_r with (- qF b - s); [|lra].
    field_simplify; [|lra].
    replace (s ^ 2) with (qF b ^ 2 - 4 * qE b * qG b) by (symmetry; exact S). nra.
Qed.

(** A root on the right branch is the root the code computes. *)
Lemma root_unique a b c x s : s ^ 2 = b ^ 2 - 4 * a * c -> a * x ^ 2 + b * x + c = 0 ->
  0 <= s -> 0 <= 2 * a * x + b -> 2 * a * x + b = s.
Proof.
  intros S E P Q. 
  assert (K : (2 * a * x + b) ^ 2 = s ^ 2).
  { rewrite S. replace ((2 * a * x + b) ^ 2) with (4 * a * (a * x ^ 2 + b * x + c) + b ^ 2 - 4 * a * c) by ring.
    rewrite E; ring. }
  nra.
Qed.

Lemma brange_be t : 273.14 <= t <= 647.1745 -> brange (be t).
Proof.
  intros H; unfold brange, be, qA, qB, qC.
  split; interval with (i_bisect t, i_depth 25).
Qed.

(** The two polynomials in (beta, theta) are the same one. *)
Lemma poly_same b t : qE b * t ^ 2 + qF b * t + qG b = qA t * b ^ 2 + qB t * b + qC t.
Proof. unfold qA, qB, qC, qE, qF, qG; ring. Qed.

Lemma de_be t : 273.14 <= t <= 647.1745 -> de (be t) = t.
Proof.
  intros H. assert (Ht : 273 <= t <= 647.178) by lra.
  pose proof (brange_be t H) as Hb.
  destruct (be_root t Ht) as [R1 _].
  pose proof (Fth_pos t Ht) as Pos. pose proof (FEth_pos t Ht) as Pos2.
  pose proof (disc_F _ Hb) as HD. pose proof (den_F _ Hb) as HN.
  unfold de. set (s := sqrt _) in *.
  assert (S : s ^ 2 = qF (be t) ^ 2 - 4 * qE (be t) * qG (be t)) by (apply pow2_sqrt; lra).
  assert (R2 : qE (be t) * t ^ 2 + qF (be t) * t + qG (be t) = 0) by (rewrite poly_same; exact R1).
  pose proof (root_unique _ _ _ t s S R2 (sqrt_pos _) (Rlt_le _ _ Pos)) as Q.
  apply Rmult_eq_reg_r with (- qF (be t) - s); [|lra].
  unfold Rdiv. rewrite Rmult_assoc, Rinv_l, Rmult_1_r by lra.
  rewrite <- Q. nra.
Qed.

Lemma be_de b : brange b -> be (de b) = b.
Proof.
  intros H. assert (Ht : 273 <= de b <= 647.178) by (pose proof (de_range b H); lra).
  destruct (de_root b H) as [R1 _]. rewrite poly_same in R1.
  pose proof (Fbe_neg b H) as Neg. pose proof (disc_B _ Ht) as HD. pose proof (den_B _ Ht) as HN.
  unfold be. set (s := sqrt _) in *. set (t := de b) in *.
  assert (S : s ^ 2 = (- qB t) ^ 2 - 4 * (- qA t) * (- qC t))
    by (unfold s; rewrite pow2_sqrt by lra; ring).
  assert (R2 : - qA t * b ^ 2 + - qB t * b + - qC t = 0) by lra.
  assert (Q : 2 * - qA t * b + - qB t = s).
  { apply (root_unique _ _ (- qC t)); [exact S | exact R2 | apply sqrt_pos | lra]. }
  apply Rmult_eq_reg_r with (- qB t + s); [|lra].
  unfold Rdiv. rewrite Rmult_assoc, Rinv_l, Rmult_1_r by lra.
  rewrite <- Q. nra.
Qed.

(** Back from theta to T. *)
Lemma Tb_th T b : T < 650.17534844798 -> de b = th T -> Tb b = T.
Proof.
  intros H E. unfold Tb. rewrite E. clear E.
  set (c := 650.17534844798) in *. set (n := 0.23855557567849) in *.
  assert (Pn : 0 < n) by (unfold n; lra).
  assert (K : (c + th T) ^ 2 - 4 * (- n + c * th T) = (c + th T - 2 * T) ^ 2).
  { unfold th; fold c n. field. lra. }
  rewrite K. rewrite sqrt_pow2; [field|].
  unfold th; fold c n.
  assert (0 < n / (c - T)) by (apply Rdiv_lt_0_compat; lra).
  replace (c + (T - n / (T - c)) - 2 * T) with (c - T + n / (c - T)) by (field; lra). lra.
Qed.

Lemma th_Tb b : brange b -> th (Tb b) = de b /\ Tb b <= 647.1 /\ 273 <= Tb b.
Proof.
  intros H. pose proof (de_range b H) as R.
  assert (P : 0 < (650.17534844798 + de b) ^ 2 - 4 * (- (0.23855557567849) + 650.17534844798 * de b)).
  { replace (_ - _) with ((650.17534844798 - de b) ^ 2 + 4 * 0.23855557567849) by ring.
    pose proof (pow2_ge_0 (650.17534844798 - de b)). lra. }
  assert (B1 : 273 <= Tb b).
  { unfold brange in H. unfold Tb, de, qE, qF, qG. interval with (i_bisect b, i_depth 25). }
  assert (B2 : Tb b <= 647.1).
  { unfold Tb. revert R. generalize (de b). intros d R.
    replace ((650.17534844798 + d) ^ 2 - 4 * (- (0.23855557567849) + 650.17534844798 * d))
      with ((650.17534844798 - d) ^ 2 + 4 * 0.23855557567849) by ring.
    interval with (i_bisect d, i_depth 25). }
  split; [|split; [exact B2|exact B1]].
  assert (K : (2 * Tb b - (650.17534844798 + de b)) ^ 2
     = (650.17534844798 + de b) ^ 2 - 4 * (- (0.23855557567849) + 650.17534844798 * de b)).
  { unfold Tb. set (X := _ - 4 * _) in *. rewrite <- (pow2_sqrt X) at 2 by lra. field. }
  unfold th. apply Rmult_eq_reg_r with (Tb b - 650.17534844798); [|lra].
  field_simplify; [|lra]. nra.
Qed.

(** ** The code *)
Lemma powerRZ2 x : powerRZ x 2 = x ^ 2. Proof. reflexivity. Qed.

Lemma p4_closed T : 273 <= T <= 647.1 -> p4_T (Fin T) = Ok (Fin (p4R T)).
Proof.
  intros H. pose proof (th_range T H) as Ht.
  pose proof (disc_B _ Ht) as HD. pose proof (den_B _ Ht) as HN.
  assert (Hn : T - D 650.17534844798%dec <> 0) by known.
  unfold p4_T. ev.
  change (T - D 0.23855557567849%dec / (T - D 650.17534844798%dec)) with (th T).
  rewrite ?powerRZ2.
  assert (EA : th T ^ 2 + D 1167.0521452767%dec * th T - D 724213.16703206%dec = qA (th T)) by reflexivity.
  assert (EB : D (-17.073846940092)%dec * th T ^ 2 + D 12020.82470247%dec * th T - D 3232555.0322333%dec
     = qB (th T)) by (unfold qB, D; cbn [dec_e dec_m]; lra).
  assert (EC : D 14.91510861353%dec * th T ^ 2 - D 4823.2657361591%dec * th T + D 405113.40542057%dec
     = qC (th T)) by reflexivity.
  rewrite EA, EB, EC.
  change (xpowf (Fin (qB (th T) ^ 2 - D 4%dec * qA (th T) * qC (th T))) (Fin (D 0.5%dec)))
    with (powf (Num:=RNum) (Fin (qB (th T) ^ 2 - 4 * qA (th T) * qC (th T))) (lit 0.5%dec)).
  rewrite powf_half by lra. red1.
  rewrite xdiv_Fin by lra. red1. rewrite xpowz_nn by lia. reflexivity.
Qed.

Lemma T4_closed p : 0 < p -> brange (Rpower p (/ 4)) -> T4_p (Fin p) = Ok (Fin (T4R p)).
Proof.
  intros Hp H. unfold T4_p, T4R.
  red1. unfold xpowf at 1. rewrite Rltb_true by easy. rewrite D_quarter.
  set (b := Rpower p (/ 4)) in *. red1. ev. rewrite ?powerRZ2.
  pose proof (disc_F _ H) as HD. pose proof (den_F _ H) as HN. pose proof (th_Tb _ H) as HT.
  assert (EE : b ^ 2 - D 17.073846940092%dec * b + D 14.91510861353%dec = qE b) by reflexivity.
  assert (EF : D 1167.0521452767%dec * b ^ 2 + D 12020.82470247%dec * b - D 4823.2657361591%dec = qF b)
    by reflexivity.
  assert (EG : D (-724213.16703206)%dec * b ^ 2 - D 3232555.0322333%dec * b + D 405113.40542057%dec = qG b)
    by (unfold qG, D; cbn [dec_e dec_m]; lra).
  rewrite EE, EF, EG.
  change (xpowf (Fin (qF b ^ 2 - D 4%dec * qE b * qG b)) (Fin (D 0.5%dec)))
    with (powf (Num:=RNum) (Fin (qF b ^ 2 - 4 * qE b * qG b)) (lit 0.5%dec)).
  rewrite powf_half by lra. red1.
  rewrite xdiv_Fin by lra. red1.
  change (D 2%dec * qG b / (- qF b - sqrt (qF b ^ 2 - 4 * qE b * qG b))) with (de b).
  ev. rewrite ?powerRZ2.
  match goal with |- context [xpowf ?x ?y] => assert (E2 : xpowf x y =
    Ok (Fin (sqrt ((650.17534844798 + de b) ^ 2 - 4 * (- (0.23855557567849) + 650.17534844798 * de b))))) end.
  { match goal with |- xpowf (Fin ?a) _ = _ => replace a with
      ((650.17534844798 + de b) ^ 2 - 4 * (- (0.23855557567849) + 650.17534844798 * de b)) end.
    - apply powf_half. 
      replace (_ - _) with ((650.17534844798 - de b) ^ 2 + 4 * 0.23855557567849) by ring.
      pose proof (pow2_ge_0 (650.17534844798 - de b)). lra.
    - unfold D; cbn [dec_e dec_m]; lra. }
  rewrite E2. red1. ev. reflexivity.
Qed.

Lemma Rpow_lt a b n : 0 <= a < b -> a ^ S n < b ^ S n.
Proof.
  intros H. induction n as [|n IH]; [cbn; lra|].
  change (a ^ S (S n)) with (a * a ^ S n). change (b ^ S (S n)) with (b * b ^ S n).
  apply Rmult_le_0_lt_compat; try easy. apply pow_le; lra.
Qed.

Lemma brange_p p : 0.0006076 <= p <= 22.0646 -> brange (Rpower p (/ 4)).
Proof.
  intros H. unfold brange.
  assert (K : Rpower p (/ 4) ^ 4 = p).
  { rewrite <- Rpower_pow by apply exp_pos. rewrite Rpower_mult. replace (/ 4 * INR 4) with 1 by (cbn; lra).
    apply Rpower_1; lra. }
  assert (P : 0 < Rpower p (/ 4)) by apply exp_pos.
  set (b := Rpower p (/ 4)) in *.
  split; apply Rnot_lt_le; intros L.
  - assert (b ^ 4 < 0.157 ^ 4) by (apply Rpow_lt; lra). lra.
  - assert (2.16733 ^ 4 < b ^ 4) by (apply Rpow_lt; lra). lra.
Qed.

(** ** Inverse *)
Lemma root4 b : 0 < b -> Rpower (b ^ 4) (/ 4) = b.
Proof.
  intros H. rewrite <- Rpower_pow by easy. rewrite Rpower_mult.
  replace (INR 4 * / 4) with 1 by (cbn; lra). now apply Rpower_1.
Qed.
Lemma pow_root4 p : 0 < p -> Rpower p (/ 4) ^ 4 = p.
Proof.
  intros H. rewrite <- Rpower_pow by apply exp_pos. rewrite Rpower_mult.
  replace (/ 4 * INR 4) with 1 by (cbn; lra). now apply Rpower_1.
Qed.

Lemma th_range2 T : 273.15 <= T <= 647.0965 -> 273.14 <= th T <= 647.1745.
Proof. intros H; unfold th; interval with (i_bisect T, i_depth 30). Qed.

Lemma T4_p4 T : 273.15 <= T <= 647.0965 ->
  T4R (p4R T) = T /\ T4_p (Fin (p4R T)) = Ok (Fin T).
Proof.
  intros H. pose proof (th_range2 T H) as Ht.
  assert (P : 0 < be (th T)) by (apply be_pos; lra).
  assert (E : T4R (p4R T) = T).
  { unfold T4R, p4R. rewrite root4 by easy. apply Tb_th; [lra|]. now apply de_be. }
  split; [exact E|]. rewrite T4_closed.
  - now rewrite E.
  - unfold p4R. now apply pow_lt.
  - unfold p4R. rewrite root4 by easy. now apply brange_be.
Qed.

Lemma p4_T4 p : 0.0006076 <= p <= 22.0646 ->
  T4_p (Fin p) = Ok (Fin (T4R p)) /\ 273 <= T4R p <= 647.1 /\ p4R (T4R p) = p.
Proof.
  intros H. pose proof (brange_p p H) as Hb. pose proof (th_Tb _ Hb) as (E & B1 & B2).
  split; [apply T4_closed; [lra|easy]|]. split; [unfold T4R; lra|].
  unfold p4R, T4R. rewrite E, be_de by easy. apply pow_root4; lra.
Qed.

(** ** Monotonicity *)
Lemma th_incr x y : x < y -> y < 650.17534844798 -> th x < th y.
Proof.
  intros H1 H2. unfold th. set (c := 650.17534844798) in *.
  assert (/ (c - x) < / (c - y)) by (apply Rinv_lt_contravar; [apply Rmult_lt_0_compat; lra | lra]).
  replace (0.23855557567849 / (x - c)) with (- (0.23855557567849 * / (c - x))) by (field; lra).
  replace (0.23855557567849 / (y - c)) with (- (0.23855557567849 * / (c - y))) by (field; lra).
  lra.
Qed.

Definition be' t :=
  let s := sqrt (qB t ^ 2 - 4 * qA t * qC t) in
  let A' := 2 * t + 1167.0521452767 in
  let B' := - (17.073846940092) * (2 * t) + 12020.82470247 in
  let C' := 14.91510861353 * (2 * t) - 4823.2657361591 in
  (2 * C' * (- qB t + s) - 2 * qC t * (- B' + (2 * qB t * B' - 4 * (A' * qC t + qA t * C')) / (2 * s)))
  / (- qB t + s) ^ 2.

Lemma be_derive t : 273 <= t <= 647.178 -> is_derive be t (be' t).
Proof.
  intros H. pose proof (disc_B t H) as HD. pose proof (den_B t H) as HN.
  assert (HS : 0 < sqrt (qB t ^ 2 - 4 * qA t * qC t)) by now apply sqrt_lt_R0.
  unfold be', be. unfold qA, qB, qC in *. cbv zeta.
  assert (HN' : - (- (17.073846940092) * t ^ 2 + 12020.82470247 * t - 3232555.0322333) +
     sqrt ((- (17.073846940092) * t ^ 2 + 12020.82470247 * t - 3232555.0322333) ^ 2 -
           4 * (t ^ 2 + 1167.0521452767 * t - 724213.16703206) *
           (14.91510861353 * t ^ 2 - 4823.2657361591 * t + 405113.40542057)) <> 0) by lra.
  eapply is_derive_eq.
  - der_with ltac:(fun _ => fail).
  - cbv beta. cbn [INR Nat.pred]. set (s := sqrt _) in *.
    field. split; lra.
Qed.

Lemma be'_pos t : 273 <= t <= 647.178 -> 0 < be' t.
Proof. intros H. unfold be', qA, qB, qC. interval with (i_bisect t, i_depth 25). Qed.

Lemma be_incr x y : 273 <= x -> x < y -> y <= 647.178 -> be x < be y.
Proof.
  intros H1 H2 H3.
  apply (incr_function_le be 273 647.178 be'); try assumption.
  - intros z A B. apply be_derive. split; assumption.
  - intros z A B. apply be'_pos. split; assumption.
Qed.

Lemma p4_incr x y : 273 <= x -> x < y -> y <= 647.1 -> p4R x < p4R y.
Proof.
  intros H1 H2 H3. unfold p4R.
  assert (Hx : 273 <= th x <= 647.178) by (apply th_range; lra).
  assert (Hy : 273 <= th y <= 647.178) by (apply th_range; lra).
  apply Rpow_lt. split; [apply Rlt_le, be_pos; lra|].
  apply be_incr; [lra | apply th_incr; lra | lra].
Qed.

Lemma p4_pos T : 273 <= T <= 647.1 -> 0 < p4R T.
Proof. intros H. unfold p4R. apply pow_lt, be_pos, th_range, H. Qed.

Lemma T4_incr x y : 0.00061122 <= x -> x < y -> y <= 22.0642 -> T4R x < T4R y.
Proof.
  intros H1 H2 H3.
  destruct (p4_T4 x ltac:(lra)) as (_ & Rx & Ex). destruct (p4_T4 y ltac:(lra)) as (_ & Ry & Ey).
  apply Rnot_le_lt. intros [L|E].
  - pose proof (p4_incr _ _ (proj1 Ry) L (proj2 Rx)). lra.
  - rewrite E in Ey. lra.
Qed.

(** ** Reference points *)
Lemma p4_ends : p4R 273.15 < 0.00061122 /\ 22.06399 < p4R 647.096 < 22.06401 /\
  0.0006089 < p4R 273.1 < 0.00060900 /\ 16.529 < p4R 623.15 < 16.5293 /\ 0.00061165 < p4R 273.16 < 0.000611659.
Proof. unfold p4R, be, qA, qB, qC, th. repeat split; interval. Qed.
