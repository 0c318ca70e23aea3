(** Closed forms, in exact arithmetic, of the backward equations in (p,h). *)
From Coq Require Import ZArith Reals Lra Lia List Bool.
From Verif Require Import Py ExactReal RealSum ModConstants ModRegion1 ModRegion2 ModRegion3 ProofEos ProofSatApi.
Import ListNotations.
Open Scope R_scope.

Lemma for_each_sumd {X} (ok : X -> Prop) (body : xr -> X -> res xr) (g : X -> R) l a : Forall ok l ->
  (forall a x, ok x -> body (Fin a) x = Ok (Fin (a + g x))) ->
  for_each l (Fin a) body = Ok (Fin (a + rsum g l)).
Proof.
  intros A H; revert a; induction A as [|x l Hx A IH]; intros a; cbn [for_each rsum].
  - now rewrite Rplus_0_r.
  - rewrite H by exact Hx; cbn [bind]. rewrite IH. do 2 f_equal. ring.
Qed.
(** Terms n a^I b^J: exponents not negative where the base may be 0 *)
Definition fine (pa pb : bool) (x : dec * (Z * Z)) : Prop :=
  (pa = true -> 0 <= fst (snd x))%Z /\ (pb = true -> 0 <= snd (snd x))%Z.
Definition fineb (pa pb : bool) (x : dec * (Z * Z)) : bool :=
  ((if pa then 0 <=? fst (snd x) else true) && (if pb then 0 <=? snd (snd x) else true))%Z.
Lemma fineb_ok pa pb l : forallb (fineb pa pb) l = true -> Forall (fine pa pb) l.
Proof.
  intros H. apply Forall_forall. intros x Hx. rewrite forallb_forall in H. specialize (H x Hx).
  unfold fineb in H. apply andb_true_iff in H. destruct H as [A B].
  split; intros ->; apply Z.leb_le; assumption.
Qed.

Definition tabT1h := combine T1_ph_n1 (combine T1_ph_I1 T1_ph_J1).
Definition tabT2ah := combine T2_ph_ni (combine T2_ph_Ii T2_ph_Ji).
Definition tabT2bh := combine T2_ph_ni_2 (combine T2_ph_Ii_2 T2_ph_Ji_2).
Definition tabT2ch := combine T2_ph_ni_3 (combine T2_ph_Ii_3 T2_ph_Ji_3).
Definition tabT3ah := combine T3_ph_ni (combine T3_ph_Ii T3_ph_Ji).
Definition tabT3bh := combine T3_ph_ni_2 (combine T3_ph_Ii_2 T3_ph_Ji_2).
Definition tabv3ah := combine v3_ph_ni (combine v3_ph_Ii v3_ph_Ji).
Definition tabv3bh := combine v3_ph_ni_2 (combine v3_ph_Ii_2 v3_ph_Ji_2).

(** One pass of such a loop: the two powers, then the sum *)
Ltac powers pa pb :=
  intros a0 [d [i j]] [Hi Hj]; cbn [fst snd] in Hi, Hj; unfold int;
  cbn [bind add sub mul neg lit div powz RNum lift1 lift2];
  match goal with |- context [xpowz (Fin ?a) i] =>
    first [rewrite (xpowz_nn a i) by (apply Hi; reflexivity) | rewrite (xpowz_Fin a i) by pa] end;
  cbn [bind];
  match goal with |- context [xpowz (Fin ?b) j] =>
    first [rewrite (xpowz_nn b j) by (apply Hj; reflexivity) | rewrite (xpowz_Fin b j) by pb] end;
  cbn [bind]; unfold tm; cbn [fst snd ff Z.of_nat]; rewrite ?Z.sub_0_r;
  apply f_equal, f_equal.

Section Back.
Variables p h : R.
Lemma T1_ph_closed : T1_ph (Fin p) (Fin h) = Ok (Fin (S2 tabT1h 0 0 p (h / 2500 + 1))).
Proof.
  unfold T1_ph. red1. rewrite (xdiv_Fin p) by known. red1. rewrite (xdiv_Fin h) by known. red1.
  tabs tabT1h.
  erewrite (for_each_sumd (fine true true) _ (fun x => tm 0 0 p (h / 2500 + 1) x)).
  2: { apply fineb_ok. reflexivity. }
  2: { powers idtac idtac. replace (p / D 1%dec) with p by (undec; lra).
       change (D 2500%dec) with 2500. change (D 1%dec) with 1. ring. }
  red1. fold (S2 tabT1h 0 0 p (h / 2500 + 1)). change (D 0%dec) with 0. now rewrite Rplus_0_l.
Qed.

Ltac sumup tab pa pb a b t1 t2 :=
  tabs tab;
  erewrite (for_each_sumd (fine pa pb) _ (fun x => tm 0 0 a b x));
  [ | apply fineb_ok; reflexivity | powers t1 t2 ];
  [ red1; fold (S2 tab 0 0 a b); change (D 0%dec) with 0; rewrite Rplus_0_l | ].
Lemma T2a_ph_closed : p < 4 ->
  T2_ph (Fin p) (Fin h) = Ok (Fin (S2 tabT2ah 0 0 p (h / 2000 - 2.1))).
Proof.
  intros H. unfold T2_ph. cbn [ltb RNum lit cmp]. rewrite Rltb_true by known. cbn [bind Z.eqb Pos.eqb]. red1.
  rewrite (xdiv_Fin h) by known. red1.
  sumup tabT2ah true true p (h / 2000 - 2.1) idtac idtac; [reflexivity|].
  change (D 2000%dec) with 2000. change (D 2.1%dec) with 2.1. ring.
Qed.
Definition bc (h : R) := 905.84278514723 - 0.67955786399241 * h + 1.2809002730136e-04 * (h * h).
Lemma bc_val : add (Num := RNum) (sub (Num := RNum) (lit 905.84278514723%dec) (mul (Num := RNum) (lit 0.67955786399241%dec) (Fin h)))
    (mul (Num := RNum) (lit 1.2809002730136e-04%dec) (Fin (powerRZ h 2))) = Fin (bc h).
Proof. red1. f_equal. unfold bc. cbn [powerRZ]. change (Pos.to_nat 2) with 2%nat. undec. lra. Qed.
Lemma T2b_ph_closed : 4 <= p < bc h ->
  T2_ph (Fin p) (Fin h) = Ok (Fin (S2 tabT2bh 0 0 (p - 2) (h / 2000 - 2.6))).
Proof.
  intros H. unfold T2_ph. cbn [powz RNum]. rewrite xpowz_nn by lia. cbn [bind]. rewrite bc_val.
  cbn [ltb RNum lit cmp]. rewrite Rltb_false by known. rewrite Rltb_true by lra. cbn [bind Z.eqb Pos.eqb]. red1.
  rewrite (xdiv_Fin h) by known. red1.
  sumup tabT2bh true true (p - 2) (h / 2000 - 2.6) idtac idtac; [reflexivity|].
  change (D 2000%dec) with 2000. change (D 2%dec) with 2. change (D 2.6%dec) with 2.6. ring.
Qed.
Lemma T2c_ph_closed : 4 <= p -> bc h <= p ->
  T2_ph (Fin p) (Fin h) = Ok (Fin (S2 tabT2ch 0 0 (p + 25) (h / 2000 - 1.8))).
Proof.
  intros H H'. unfold T2_ph. cbn [powz RNum]. rewrite xpowz_nn by lia. cbn [bind]. rewrite bc_val.
  cbn [ltb RNum lit cmp]. rewrite Rltb_false by known. rewrite Rltb_false by lra. cbn [bind Z.eqb Pos.eqb]. red1.
  rewrite (xdiv_Fin h) by known. red1.
  sumup tabT2ch false true (p + 25) (h / 2000 - 1.8) ltac:(known) idtac; [reflexivity|].
  change (D 2000%dec) with 2000. change (D 25%dec) with 25. change (D 1.8%dec) with 1.8. ring.
Qed.
Definition ab (p : R) := 2014.64004206875 + 3.74696550136983 * p - 2.19921901054187e-02 * p ^ 2 + 8.7513168600995e-05 * p ^ 3.
Lemma ab_val : add (Num := RNum) (sub (Num := RNum) (add (Num := RNum) (lit 2014.64004206875%dec) (mul (Num := RNum) (lit 3.74696550136983%dec) (Fin p)))
    (mul (Num := RNum) (lit 2.19921901054187e-02%dec) (Fin (powerRZ p 2)))) (mul (Num := RNum) (lit 8.7513168600995e-05%dec) (Fin (powerRZ p 3))) = Fin (ab p).
Proof. red1. f_equal. unfold ab. cbn [powerRZ]. change (Pos.to_nat 2) with 2%nat. change (Pos.to_nat 3) with 3%nat. undec. lra. Qed.
Lemma T3a_ph_closed : 0 <= p -> h < ab p ->
  T3_ph (Fin p) (Fin h) = Ok (Fin (S2 tabT3ah 0 0 (p / 100 + 0.24) (h / 2300 - 0.615) * 760)).
Proof.
  intros H H'. unfold T3_ph. cbn [powz RNum]. rewrite !xpowz_nn by lia. cbn [bind]. rewrite ab_val.
  cbn [ltb RNum lit cmp]. rewrite Rltb_true by lra. cbn [bind]. red1.
  rewrite (xdiv_Fin p) by known. rewrite (xdiv_Fin h) by known. red1.
  sumup tabT3ah false true (p / 100 + 0.24) (h / 2300 - 0.615) ltac:(known) idtac.
  - reflexivity.
  - change (D 2300%dec) with 2300. change (D 100%dec) with 100. change (D 0.24%dec) with 0.24. change (D 0.615%dec) with 0.615. ring.
Qed.
Lemma T3b_ph_closed : 0 <= p -> ab p <= h ->
  T3_ph (Fin p) (Fin h) = Ok (Fin (S2 tabT3bh 0 0 (p / 100 + 0.298) (h / 2800 - 0.72) * 860)).
Proof.
  intros H H'. unfold T3_ph. cbn [powz RNum]. rewrite !xpowz_nn by lia. cbn [bind]. rewrite ab_val.
  cbn [ltb RNum lit cmp]. rewrite Rltb_false by lra. cbn [bind]. red1.
  rewrite (xdiv_Fin p) by known. rewrite (xdiv_Fin h) by known. red1.
  sumup tabT3bh false true (p / 100 + 0.298) (h / 2800 - 0.72) ltac:(known) idtac.
  - reflexivity.
  - change (D 2800%dec) with 2800. change (D 100%dec) with 100. change (D 0.298%dec) with 0.298. change (D 0.72%dec) with 0.72. ring.
Qed.
Lemma v3a_ph_closed : 0 <= p -> h < ab p ->
  v3_ph (Fin p) (Fin h) = Ok (Fin (S2 tabv3ah 0 0 (p / 100 + 0.128) (h / 2100 - 0.727) * 0.0028)).
Proof.
  intros H H'. unfold v3_ph. cbn [powz RNum]. rewrite !xpowz_nn by lia. cbn [bind]. rewrite ab_val.
  cbn [ltb RNum lit cmp]. rewrite Rltb_true by lra. cbn [bind]. red1.
  rewrite (xdiv_Fin p) by known. rewrite (xdiv_Fin h) by known. red1.
  sumup tabv3ah false true (p / 100 + 0.128) (h / 2100 - 0.727) ltac:(known) idtac.
  - reflexivity.
  - change (D 2100%dec) with 2100. change (D 100%dec) with 100. change (D 0.128%dec) with 0.128. change (D 0.727%dec) with 0.727. ring.
Qed.
Lemma v3b_ph_closed : 0 <= p -> ab p <= h ->
  v3_ph (Fin p) (Fin h) = Ok (Fin (S2 tabv3bh 0 0 (p / 100 + 0.0661) (h / 2800 - 0.72) * 0.0088)).
Proof.
  intros H H'. unfold v3_ph. cbn [powz RNum]. rewrite !xpowz_nn by lia. cbn [bind]. rewrite ab_val.
  cbn [ltb RNum lit cmp]. rewrite Rltb_false by lra. cbn [bind]. red1.
  rewrite (xdiv_Fin p) by known. rewrite (xdiv_Fin h) by known. red1.
  sumup tabv3bh false true (p / 100 + 0.0661) (h / 2800 - 0.72) ltac:(known) idtac.
  - reflexivity.
  - change (D 2800%dec) with 2800. change (D 100%dec) with 100. change (D 0.0661%dec) with 0.0661. change (D 0.72%dec) with 0.72. ring.
Qed.
End Back.
