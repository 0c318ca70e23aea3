(** * The saturation pressure at the border of region 3, p3sat_h, as a function of the enthalpy. *)
From Coq Require Import ZArith Reals Ranalysis5 Lra Lia List Bool.
From Coquelicot Require Import Coquelicot.
From Interval Require Import Tactic.
From Verif Require Import Py ExactReal RealSum ModBorders ProofEos ProofSatApi ProofBack ProofMisc ProofMono SpecLoops.
Import ListNotations.
Open Scope R_scope.

Definition tab3s := combine p3sat_h_ni (combine p3sat_h_Ii p3sat_h_Ji).
Definition P3 (h : R) : R := 22 * S2 tab3s 0 0 (h / 2600 - 1.02) (h / 2600 - 0.608).
Definition dt (h : R) (x : dec * (Z * Z)) : R :=
  / 2600 * (tm 1 0 (h / 2600 - 1.02) (h / 2600 - 0.608) x + tm 0 1 (h / 2600 - 1.02) (h / 2600 - 0.608) x).
Definition P3' (h : R) : R := 22 * rsum (dt h) tab3s.

(** The model computes the equation of the release. *)
Lemma P3_spec h : P3 h = P3sat h.
Proof.
  unfold P3, P3sat, S2. f_equal.
  assert (A : Forall2 (fun (x : dec * (Z * Z)) (y : R * (nat * nat)) =>
     D (fst x) = fst y /\ fst (snd x) = Z.of_nat (fst (snd y)) /\ snd (snd x) = Z.of_nat (snd (snd y))) tab3s p3sat_table).
  { unfold tab3s, p3sat_table, p3sat_h_ni, p3sat_h_Ii, p3sat_h_Ji; cbn [combine].
    repeat (apply Forall2_cons; [cbn [fst snd]; split; [first [undec; lra | unfold D; cbn [dec_e dec_m]; match goal with |- IZR ?z = _ => let z' := eval vm_compute in z in change z with z' end; lra] | split; reflexivity]|]). apply Forall2_nil. }
  induction A as [|[d [i j]] [n [i' j']] l l' (A1 & A2 & A3) A IH]; [reflexivity|].
  cbn [rsum fold_right]. rewrite IH. f_equal. cbn [fst snd] in A1, A2, A3. unfold tm. cbn [fst snd].
  rewrite A1, A2, A3. cbn [ff Z.of_nat]. rewrite !Z.sub_0_r, <- !pow_powerRZ. ring.
Qed.
Lemma p3sat_closed h : p3sat_h (Fin h) = Ok (Fin (P3 h)).
Proof.
  unfold p3sat_h. red1. rewrite (xdiv_Fin h) by known. red1. tabs tab3s.
  erewrite (for_each_sumd (fine true true) _ (fun x => tm 0 0 (h / 2600 - 1.02) (h / 2600 - 0.608) x)).
  2: { apply fineb_ok. reflexivity. }
  2: { powers idtac idtac. change (D 2600%dec) with 2600. change (D 1.02%dec) with 1.02.
       change (D 0.608%dec) with 0.608. ring. }
  red1. fold (S2 tab3s 0 0 (h / 2600 - 1.02) (h / 2600 - 0.608)). change (D 0%dec) with 0. change (D 22%dec) with 22.
  unfold P3. rewrite Rplus_0_l, Rmult_comm. reflexivity.
Qed.

Lemma P3_up1 h : 1670 <= h <= 2080 -> 0 < P3' h.
Proof. intros H. unfold P3'. reals. interval with (i_bisect h, i_taylor h, i_degree 8, i_depth 15). Qed.
Lemma P3_up2 h : 2080 <= h <= 2086.95 -> 0 < P3' h.
Proof. intros H. unfold P3'. reals. interval with (i_bisect h, i_taylor h, i_degree 8, i_depth 15). Qed.
Lemma P3_dn1 h : 2087.59 <= h <= 2100 -> P3' h < 0.
Proof. intros H. unfold P3'. reals. interval with (i_bisect h, i_taylor h, i_degree 8, i_depth 15). Qed.
Lemma P3_dn2 h : 2100 <= h <= 2569 -> P3' h < 0.
Proof. intros H. unfold P3'. reals. interval with (i_bisect h, i_taylor h, i_degree 8, i_depth 15). Qed.
Lemma P3_slope h : 1670 <= h <= 2569 -> -0.0305 <= P3' h <= 0.0249.
Proof. intros H. unfold P3'. reals. interval with (i_bisect h, i_taylor h, i_degree 8, i_depth 15). Qed.
Lemma P3_at_1670 : P3 1670.858218 < 16.529.
Proof. unfold P3. reals. interval with (i_prec 80). Qed.
Lemma P3_at_2086 : 22.06395 <= P3 2086.65.
Proof. unfold P3. reals. interval with (i_prec 80). Qed.
Lemma P3_at_2087 : 22.06395 <= P3 2087.965.
Proof. unfold P3. reals. interval with (i_prec 80). Qed.
Lemma P3_at_2568 : P3 2568.592004 < 16.5.
Proof. unfold P3. reals. interval with (i_prec 80). Qed.
Lemma P3_pos h : 1670 <= h <= 2569 -> 0 < P3 h.
Proof. intros H. unfold P3. reals. interval with (i_bisect h, i_taylor h, i_degree 8, i_depth 15). Qed.

Lemma P3_derive h : 1670 <= h <= 2569 -> is_derive P3 h (P3' h).
Proof.
  intros H. unfold P3, P3'. apply is_derive_scal. unfold S2.
  apply (rsum_derive (fun h => tm 0 0 (h / 2600 - 1.02) (h / 2600 - 0.608)) dt). intros [d [i j]].
  assert (A : h / 2600 - 1.02 <> 0) by lra. assert (B : h / 2600 - 0.608 <> 0) by lra.
  assert (L : forall c, is_derive (fun h => h / 2600 - c) h (/ 2600)).
  { intros c. eapply is_derive_eq; [apply Dminus; [apply Ddiv; [apply Did | apply Dconst | lra] | apply Dconst] | cbv beta; field]. }
  apply is_derive_extR with (fun h => D d * (powerRZ (h / 2600 - 1.02) i * powerRZ (h / 2600 - 0.608) j)).
  { intros t. unfold tm. cbn [fst snd ff Z.of_nat]. rewrite !Z.sub_0_r. ring. }
  eapply is_derive_eq.
  - apply is_derive_scal. apply Dmult.
    + apply (comp_derive (fun y => powerRZ y i) (fun h => h / 2600 - 1.02)); [now apply is_derive_powerRZ | apply L].
    + apply (comp_derive (fun y => powerRZ y j) (fun h => h / 2600 - 0.608)); [now apply is_derive_powerRZ | apply L].
  - unfold dt, tm. cbn [fst snd ff Z.of_nat]. change (Pos.of_succ_nat 0) with 1%positive. rewrite !Z.sub_0_r. ring.
Qed.
Lemma P3_rise a b : 1670 <= a -> a < b -> b <= 2086.95 -> P3 a < P3 b.
Proof.
  intros. apply (rising P3 P3' a b); try lra; intros x X; [apply P3_derive; lra|].
  destruct (Rle_or_lt x 2080); [apply P3_up1 | apply P3_up2]; lra.
Qed.
Lemma P3_fall a b : 2087.59 <= a -> a < b -> b <= 2569 -> P3 b < P3 a.
Proof.
  intros. apply (falling P3 P3' a b); try lra; intros x X; [apply P3_derive; lra|].
  destruct (Rle_or_lt x 2100); [apply P3_dn1 | apply P3_dn2]; lra.
Qed.
Lemma P3_lipschitz a b : 1670 <= a <= 2569 -> 1670 <= b <= 2569 -> Rabs (P3 a - P3 b) <= 0.0305 * Rabs (b - a).
Proof.
  intros A B.
  destruct (MVT_gen P3 a b P3') as [c [Hc E]].
  - intros x X. apply P3_derive. revert X. unfold Rmin, Rmax. destruct (Rle_dec a b); lra.
  - intros x X. apply derivable_continuous_pt. exists (P3' x). apply is_derive_Reals, P3_derive.
    revert X. unfold Rmin, Rmax. destruct (Rle_dec a b); lra.
  - assert (Hc' : 1670 <= c <= 2569) by (revert Hc; unfold Rmin, Rmax; destruct (Rle_dec a b); lra).
    rewrite Rabs_minus_sym, E, Rabs_mult. apply Rmult_le_compat_r; [apply Rabs_pos|].
    pose proof (P3_slope c Hc'). apply Rabs_le. lra.
Qed.
Lemma P3_cont : forall x, 1670 <= x <= 2569 -> continuity_pt P3 x.
Proof.
  intros x X. apply derivable_continuous_pt. exists (P3' x). apply is_derive_Reals, P3_derive. exact X.
Qed.
(** Intermediate values. *)
Lemma root_up p : P3 1670.858218 < p <= P3 2086.65 -> exists r, 1670.858218 <= r <= 2086.65 /\ P3 r = p.
Proof.
  intros [A B]. destruct B as [B|B]; [|exists 2086.65; split; [lra|easy]].
  destruct (IVT_interv (fun x => P3 x - p) 1670.858218 2086.65) as [r [R1 R2]].
  - intros a Ha. apply continuity_pt_minus; [apply P3_cont; lra|]. apply derivable_continuous_pt, derivable_pt_const.
  - lra. - lra. - lra.
  - exists r. split; [exact R1 | lra].
Qed.
Lemma root_dn p : P3 2568.592004 < p <= P3 2087.965 -> exists r, 2087.965 <= r <= 2568.592004 /\ P3 r = p.
Proof.
  intros [A B]. destruct B as [B|B]; [|exists 2087.965; split; [lra|easy]].
  destruct (IVT_interv (fun x => p - P3 x) 2087.965 2568.592004) as [r [R1 R2]].
  - intros a Ha. apply continuity_pt_minus; [apply derivable_continuous_pt, derivable_pt_const | apply P3_cont; lra].
  - lra. - lra. - lra.
  - exists r. split; [exact R1 | lra].
Qed.
