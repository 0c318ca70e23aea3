(** Closed forms, in exact arithmetic, of the backward equations in (p,s) and (h,s). *)
From Coq Require Import ZArith Reals Lra Lia List Bool.
From Verif Require Import Py ExactReal RealSum ModConstants ModRegion1 ModRegion2 ModRegion3 ModBorders ProofEos ProofSatApi ProofBack ProofMisc SatS.
Import ListNotations.
Open Scope R_scope.

Definition tabT1s := combine T1_ps_n1 (combine T1_ps_I1 T1_ps_J1).
Definition tabp1hs := combine p1_hs_n1 (combine p1_hs_I1 p1_hs_J1).
Definition tabT2bs := combine T2_ps_ni_2 (combine T2_ps_Ii_2 T2_ps_Ji_2).
Definition tabT2cs := combine T2_ps_ni_3 (combine T2_ps_Ii_3 T2_ps_Ji_3).
Definition tabp2ahs := combine p2_hs_ni (combine p2_hs_Ii p2_hs_Ji).
Definition tabp2bhs := combine p2_hs_ni_2 (combine p2_hs_Ii_2 p2_hs_Ji_2).
Definition tabp2chs := combine p2_hs_ni_3 (combine p2_hs_Ii_3 p2_hs_Ji_3).
Definition tabT3as := combine T3_ps_ni (combine T3_ps_Ii T3_ps_Ji).
Definition tabT3bs := combine T3_ps_ni_2 (combine T3_ps_Ii_2 T3_ps_Ji_2).
Definition tabv3as := combine v3_ps_ni (combine v3_ps_Ii v3_ps_Ji).
Definition tabv3bs := combine v3_ps_ni_2 (combine v3_ps_Ii_2 v3_ps_Ji_2).
Definition tabp3ahs := combine p3_hs_ni (combine p3_hs_Ii p3_hs_Ji).
Definition tabp3bhs := combine p3_hs_ni_2 (combine p3_hs_Ii_2 p3_hs_Ji_2).
Definition tabB13 := combine hB13_s_ni (combine hB13_s_Ii hB13_s_Ji).
Definition tabB23 := combine TB23_hs_ni (combine TB23_hs_Ii TB23_hs_Ji).
Definition tabP3s := combine p3sat_s_ni (combine p3sat_s_Ii p3sat_s_Ji).


Section S.
Variables p h s : R.
Lemma T1_ps_closed : T1_ps (Fin p) (Fin s) = Ok (Fin (S2 tabT1s 0 0 p (s + 2))).
Proof.
  unfold T1_ps. red1. rewrite (xdiv_Fin p) by known. red1. rewrite (xdiv_Fin s) by known. red1.
  replace (p / D 1%dec) with p by (undec; lra). replace (s / D 1%dec) with s by (undec; lra).
  sumup tabT1s true true p (s + 2) idtac idtac; [reflexivity|]. change (D 2%dec) with 2. ring.
Qed.
Lemma p1_hs_closed : p1_hs (Fin h) (Fin s) = Ok (Fin (S2 tabp1hs 0 0 (h / 3400 + 0.05) (s / 7.6 + 0.05) * 100)).
Proof.
  unfold p1_hs. red1. rewrite (xdiv_Fin h) by known. red1. rewrite (xdiv_Fin s) by known. red1.
  sumup tabp1hs true true (h / 3400 + 0.05) (s / 7.6 + 0.05) idtac idtac; [reflexivity|].
  change (D 3400%dec) with 3400. change (D 7.6%dec) with 7.6. change (D 0.05%dec) with 0.05. ring.
Qed.
Lemma T2b_ps_closed : p <> 0 -> 4 <= p -> 5.85 <= s -> T2_ps (Fin p) (Fin s) = Ok (Fin (S2 tabT2bs 0 0 p (10 - s / 0.7853))).
Proof.
  intros N H H'. unfold T2_ps. decide_s. cbn [bind]. cbn [Z.eqb Pos.eqb]. red1. rewrite (xdiv_Fin s) by known. red1.
  sumup tabT2bs false true p (10 - s / 0.7853) ltac:(exact N) idtac; [reflexivity|].
  change (D 0.7853%dec) with 0.7853. change (D 10%dec) with 10. ring.
Qed.
Lemma T2c_ps_closed : p <> 0 -> 4 <= p -> s < 5.85 -> T2_ps (Fin p) (Fin s) = Ok (Fin (S2 tabT2cs 0 0 p (2 - s / 2.9251))).
Proof.
  intros N H H'. unfold T2_ps. decide_s. cbn [bind]. cbn [Z.eqb Pos.eqb]. red1. rewrite (xdiv_Fin s) by known. red1.
  sumup tabT2cs false true p (2 - s / 2.9251) ltac:(exact N) idtac; [reflexivity|].
  change (D 2.9251%dec) with 2.9251. change (D 2%dec) with 2. ring.
Qed.
Lemma T3a_ps_closed : 0 <= p -> s <= 4.41202148223476 -> T3_ps (Fin p) (Fin s) = Ok (Fin (S2 tabT3as 0 0 (p / 100 + 0.24) (s / 4.4 - 0.703) * 760)).
Proof.
  intros H H'. unfold T3_ps. decide_s. cbn [bind]. red1. rewrite (xdiv_Fin s) by known. red1. rewrite (xdiv_Fin p) by known. red1.
  sumup tabT3as false true (p / 100 + 0.24) (s / 4.4 - 0.703) ltac:(known) idtac; [reflexivity|].
  change (D 100%dec) with 100. change (D 4.4%dec) with 4.4. change (D 0.24%dec) with 0.24. change (D 0.703%dec) with 0.703. ring.
Qed.
Lemma T3b_ps_closed : 0 <= p -> 4.41202148223476 < s -> T3_ps (Fin p) (Fin s) = Ok (Fin (S2 tabT3bs 0 0 (p / 100 + 0.76) (s / 5.3 - 0.818) * 860)).
Proof.
  intros H H'. unfold T3_ps. decide_s. cbn [bind]. red1. rewrite (xdiv_Fin s) by known. red1. rewrite (xdiv_Fin p) by known. red1.
  sumup tabT3bs false true (p / 100 + 0.76) (s / 5.3 - 0.818) ltac:(known) idtac; [reflexivity|].
  change (D 100%dec) with 100. change (D 5.3%dec) with 5.3. change (D 0.76%dec) with 0.76. change (D 0.818%dec) with 0.818. ring.
Qed.
Lemma v3a_ps_closed : 0 <= p -> s <= 4.41202148223476 -> v3_ps (Fin p) (Fin s) = Ok (Fin (S2 tabv3as 0 0 (p / 100 + 0.187) (s / 4.4 - 0.755) * 0.0028)).
Proof.
  intros H H'. unfold v3_ps. decide_s. cbn [bind]. red1. rewrite (xdiv_Fin p) by known. red1. rewrite (xdiv_Fin s) by known. red1.
  sumup tabv3as false true (p / 100 + 0.187) (s / 4.4 - 0.755) ltac:(known) idtac; [reflexivity|].
  change (D 100%dec) with 100. change (D 4.4%dec) with 4.4. change (D 0.187%dec) with 0.187. change (D 0.755%dec) with 0.755. ring.
Qed.
Lemma v3b_ps_closed : 0 <= p -> 4.41202148223476 < s -> v3_ps (Fin p) (Fin s) = Ok (Fin (S2 tabv3bs 0 0 (p / 100 + 0.298) (s / 5.3 - 0.816) * 0.0088)).
Proof.
  intros H H'. unfold v3_ps. decide_s. cbn [bind]. red1. rewrite (xdiv_Fin p) by known. red1. rewrite (xdiv_Fin s) by known. red1.
  sumup tabv3bs false true (p / 100 + 0.298) (s / 5.3 - 0.816) ltac:(known) idtac; [reflexivity|].
  change (D 100%dec) with 100. change (D 5.3%dec) with 5.3. change (D 0.298%dec) with 0.298. change (D 0.816%dec) with 0.816. ring.
Qed.
Lemma p3a_hs_closed : s < 4.41202148223476 ->
  p3_hs (Fin h) (Fin s) = Ok (Fin (S2 tabp3ahs 0 0 (h / 2300 - 1.01) (s / 4.4 - 0.75) * 99)).
Proof.
  intros H'. unfold p3_hs. decide_s. cbn [bind]. red1. rewrite (xdiv_Fin s) by known. red1. rewrite (xdiv_Fin h) by known. red1.
  sumup tabp3ahs true true (h / 2300 - 1.01) (s / 4.4 - 0.75) idtac idtac; [reflexivity|].
  change (D 2300%dec) with 2300. change (D 4.4%dec) with 4.4. change (D 1.01%dec) with 1.01. change (D 0.75%dec) with 0.75. ring.
Qed.
Lemma p2_b2ab : add (Num := RNum) (sub (Num := RNum) (add (Num := RNum) (lit (-3498.98083432139)%dec) (mul (Num := RNum) (lit 2575.60716905876%dec) (Fin s)))
    (mul (Num := RNum) (lit 421.073558227969%dec) (Fin (powerRZ s 2)))) (mul (Num := RNum) (lit 27.6349063799944%dec) (Fin (powerRZ s 3)))
  = Fin (-3498.98083432139 + 2575.60716905876 * s - 421.073558227969 * s ^ 2 + 27.6349063799944 * s ^ 3).
Proof. reflexivity. Qed.
Definition b2ab := -3498.98083432139 + 2575.60716905876 * s - 421.073558227969 * s ^ 2 + 27.6349063799944 * s ^ 3.
Ltac p2 tab a b :=
  unfold p2_hs; cbn [powz RNum]; rewrite !xpowz_nn by lia; cbn [bind]; rewrite p2_b2ab; fold b2ab; decide_s; cbn [bind];
  try (cbn [ltb RNum cmp]; first [rewrite Rltb_true by lra | rewrite Rltb_false by lra]); decide_s; cbn [bind];
  cbn [Z.eqb Pos.eqb]; red1; rewrite (xdiv_Fin h) by known; red1; rewrite (xdiv_Fin s) by known; red1;
  sumup tab true true a b idtac idtac; [rewrite xpowz_nn by lia; cbn [bind]; do 2 f_equal|].
Lemma p2a_hs_closed : h < b2ab -> p2_hs (Fin h) (Fin s) = Ok (Fin (S2 tabp2ahs 0 0 (h / 4200 - 0.5) (s / 12 - 1.2) ^ 4 * 4)).
Proof. intros H. p2 tabp2ahs (h / 4200 - 0.5) (s / 12 - 1.2).
  change (D 4200%dec) with 4200. change (D 12%dec) with 12. change (D 0.5%dec) with 0.5. change (D 1.2%dec) with 1.2. ring. Qed.
Lemma p2b_hs_closed : b2ab <= h -> 5.85 <= s -> p2_hs (Fin h) (Fin s) = Ok (Fin (S2 tabp2bhs 0 0 (h / 4100 - 0.6) (s / 7.9 - 1.01) ^ 4 * 100)).
Proof. intros H H'. p2 tabp2bhs (h / 4100 - 0.6) (s / 7.9 - 1.01).
  change (D 4100%dec) with 4100. change (D 7.9%dec) with 7.9. change (D 0.6%dec) with 0.6. change (D 1.01%dec) with 1.01. ring. Qed.
Lemma p2c_hs_closed : b2ab <= h -> s < 5.85 -> p2_hs (Fin h) (Fin s) = Ok (Fin (S2 tabp2chs 0 0 (h / 3500 - 0.7) (s / 5.9 - 1.1) ^ 4 * 100)).
Proof. intros H H'. p2 tabp2chs (h / 3500 - 0.7) (s / 5.9 - 1.1).
  change (D 3500%dec) with 3500. change (D 5.9%dec) with 5.9. change (D 0.7%dec) with 0.7. change (D 1.1%dec) with 1.1. ring. Qed.
Lemma hB13_closed : 3.39 < s -> hB13_s (Fin s) = Ok (Fin (S2 tabB13 0 0 (s / 3.8 - 0.884) (s / 3.8 - 0.864) * 1700)).
Proof.
  intros H. unfold hB13_s. red1. rewrite (xdiv_Fin s) by known. red1.
  sumup tabB13 true false (s / 3.8 - 0.884) (s / 3.8 - 0.864) idtac ltac:(change (D 3.8%dec) with 3.8; change (D 0.864%dec) with 0.864; lra); [reflexivity|].
  change (D 3.8%dec) with 3.8. change (D 0.884%dec) with 0.884. change (D 0.864%dec) with 0.864. ring.
Qed.
Lemma p3b_hs_closed : 4.41202148223476 <= s -> h <> 1906.8 ->
  S2 tabp3bhs 0 0 (h / 2800 - 0.681) (s / 5.3 - 0.792) <> 0 ->
  p3_hs (Fin h) (Fin s) = Ok (Fin (16.6 / S2 tabp3bhs 0 0 (h / 2800 - 0.681) (s / 5.3 - 0.792))).
Proof.
  intros H' Nh Ns. unfold p3_hs. decide_s. cbn [bind]. red1. rewrite (xdiv_Fin s) by known. red1. rewrite (xdiv_Fin h) by known. red1.
  sumup tabp3bhs false false (h / 2800 - 0.681) (s / 5.3 - 0.792) ltac:(change (D 2800%dec) with 2800; change (D 0.681%dec) with 0.681; lra) ltac:(change (D 5.3%dec) with 5.3; change (D 0.792%dec) with 0.792; lra).
  - rewrite xdiv_Fin by exact Ns. reflexivity.
  - change (D 2800%dec) with 2800. change (D 0.681%dec) with 0.681. change (D 5.3%dec) with 5.3. change (D 0.792%dec) with 0.792. ring.
Qed.
Lemma TB23_closed : h <> 2181 -> s <> 4.5792 -> TB23_hs (Fin h) (Fin s) = Ok (Fin (S2 tabB23 0 0 (h / 3000 - 0.727) (s / 5.3 - 0.864) * 900)).
Proof.
  intros Nh Ns. unfold TB23_hs. red1. rewrite (xdiv_Fin s) by known. red1. rewrite (xdiv_Fin h) by known. red1.
  sumup tabB23 false false (h / 3000 - 0.727) (s / 5.3 - 0.864) ltac:(change (D 3000%dec) with 3000; change (D 0.727%dec) with 0.727; lra) ltac:(change (D 5.3%dec) with 5.3; change (D 0.864%dec) with 0.864; lra); [reflexivity|].
  change (D 3000%dec) with 3000. change (D 0.727%dec) with 0.727. change (D 5.3%dec) with 5.3. change (D 0.864%dec) with 0.864. ring.
Qed.
(** Region 2a: the pressure enters with fractional powers *)
Definition tabT2as := combine T2_ps_ni (combine T2_ps_Ii T2_ps_Ji).
Definition T2as : R := rsum (fun x : dec * (dec * Z) => D (fst x) * Rpower p (D (fst (snd x))) * powerRZ (s / 2 - 2) (snd (snd x))) tabT2as.
Lemma T2a_ps_closed : 0 < p < 4 -> s <> 4 -> T2_ps (Fin p) (Fin s) = Ok (Fin T2as).
Proof.
  intros H N. unfold T2_ps. decide_s. cbn [bind]. cbn [Z.eqb Pos.eqb]. red1. rewrite (xdiv_Fin s) by known. red1.
  change (combine (slice 0 46 T2_ps_ni) (combine (slice 0 46 T2_ps_Ii) (slice 0 46 T2_ps_Ji))) with tabT2as.
  erewrite (for_each_sumd (fun _ => True) _ (fun x : dec * (dec * Z) => D (fst x) * Rpower p (D (fst (snd x))) * powerRZ (s / 2 - 2) (snd (snd x)))).
  2: { apply Forall_forall. trivial. }
  2: { intros a0 [d [i j]] _. cbn [bind add sub mul neg lit div powz powf RNum lift1 lift2 fst snd].
       unfold xpowf. rewrite Rltb_true by lra. cbn [bind]. rewrite xpowz_Fin by (change (D 2%dec) with 2; lra). cbn [bind].
       apply f_equal, f_equal. change (D 2%dec) with 2. ring. }
  red1. fold T2as. change (D 0%dec) with 0. now rewrite Rplus_0_l.
Qed.
End S.
