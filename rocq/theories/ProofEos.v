(** Closed forms, in exact arithmetic, of the equations of state of regions 1, 2, 3 and 5. *)
From Coq Require Import ZArith Reals Lra Lia List Bool.
From Verif Require Import Py ExactReal RealSum ModConstants ModRegion1 ModRegion2 ModRegion3 ModRegion5.
Import ListNotations.
Open Scope R_scope.

Lemma xdiv_Fin a b : b <> 0 -> xdiv (Fin a) (Fin b) = Ok (Fin (a / b)).
Proof. exact (div_Fin a b). Qed.
Lemma xpowz_Fin a n : a <> 0 -> xpowz (Fin a) n = Ok (Fin (powerRZ a n)).
Proof. intros H; apply (powz_Fin a n); now left. Qed.
Lemma xpowz_nn a n : (0 <= n)%Z -> xpowz (Fin a) n = Ok (Fin (powerRZ a n)).
Proof. intros H; apply (powz_Fin a n); now right. Qed.
Lemma xlog_Fin a : 0 < a -> xlog (Fin a) = Ok (Fin (ln a)).
Proof. exact (log_Fin a). Qed.

Lemma xdiv_inv a b c : xdiv (Fin a) (Fin b) = Ok c -> b <> 0 /\ c = Fin (a / b).
Proof.
  unfold xdiv. destruct (Reqb_spec b 0); [discriminate|]. cbn. intros [= <-]. now split.
Qed.
Lemma xpow_half_inv a c : xpowf (Fin a) (Fin (D 0.5%dec)) = Ok c ->
  0 <= a /\ c = Fin (R_sqrt.sqrt a).
Proof.
  intros H. destruct (Rle_lt_dec 0 a) as [L|L].
  - split; [easy|]. pose proof (powf_half a L) as E. cbn [powf RNum lit] in E.
    rewrite E in H. now injection H.
  - exfalso. revert H. unfold xpowf. rewrite Rltb_false by lra.
    rewrite (Reqb_false (D 0.5%dec) 0) by (rewrite D_half; lra).
    rewrite Reqb_false by lra.
    rewrite Reqb_false; [discriminate|].
    rewrite D_half.
    intros E. assert (H2 : 2 * IZR (Int_part (/ 2)) = 1) by (rewrite <- E; lra).
    rewrite <- mult_IZR in H2. apply eq_IZR in H2. lia.
Qed.

(** Constants *)
Notation Rw := 0.461526 (only parsing).

Ltac known := first [assumption | unfold D; cbn [dec_e dec_m]; lra].
Ltac ev1 :=
  match goal with
  | |- context [item ?l 0] =>
      let v := eval vm_compute in (item l 0) in change (item l 0) with v
  | |- context [xdiv (Fin ?a) (Fin ?b)] => rewrite (xdiv_Fin a b) by known
  | |- context [xpowz (Fin ?a) 2] => rewrite (xpowz_nn a 2) by lia
  | |- context [xpowz (Fin ?a) ?n] => rewrite (xpowz_Fin a n) by known
  | |- context [xlog (Fin ?a)] => rewrite (xlog_Fin a) by known
  end.
Ltac red1 :=
  cbn [bind add sub mul neg lit int div powz powf log RNum lift1 lift2
       SPECIFIC_GAS_CONSTANT CRITICAL_TEMPERATURE].
Ltac ev := red1; repeat (ev1; red1).

Lemma D_int z : D (mkdec z 0) = IZR z.
Proof. reflexivity. Qed.

Ltac split_eq :=
  repeat match goal with
  | |- Ok _ = Ok _ => apply f_equal
  | |- (_, _) = (_, _) => apply f_equal2
  | |- Fin _ = Fin _ => apply f_equal
  end.

(** The body of a summation loop, once bases are known to be non-zero. *)
Ltac body folds :=
  intros;
  repeat match goal with x : (_ * _)%type |- _ => destruct x end;
  unfold int; ev; folds tt;
  unfold tm, tm1; cbn [fst snd ff Z.of_nat Pos.of_succ_nat Pos.succ]; rewrite ?Z.sub_0_r, ?D_int;
  split_eq; ring.

Ltac tabs t :=
  match goal with
  | |- context [for_each ?l _ _] => change l with t
  end.

(** ** Region 1 *)
Definition tab1 := combine v1_pT_n1 (combine v1_pT_I1 v1_pT_J1).
Definition a1 (p : R) := 7.1 - p / 16.53.
Definition b1 (T : R) := 1386 / T - 1.222.
Definition g1 (i j : nat) (p T : R) := S2 tab1 i j (a1 p) (b1 T).

Section R1.
Variables (p T : R).
Hypotheses (Hp : p <> 0) (HT : T <> 0) (Ha : a1 p <> 0) (Hb : b1 T <> 0).
Ltac folds1 _ :=
  change (D 7.1%dec - p / D 16.53%dec) with (a1 p);
  change (D 1386%dec / T - D 1.222%dec) with (b1 T).

Lemma v1_closed :
  v1_pT (Fin p) (Fin T) = Ok (Fin (Rw * T / p * (p / 16.53) * (0 + - g1 1 0 p T) / 1000)).
Proof.
  unfold v1_pT. ev. tabs tab1.
  erewrite (for_each_sum1 _ (fun x => - tm 1 0 (a1 p) (b1 T) x)) by body folds1.
  rewrite rsum_opp. ev. reflexivity.
Qed.
Lemma h1_closed :
  h1_pT (Fin p) (Fin T) = Ok (Fin (Rw * T * (1386 / T) * (0 + g1 0 1 p T))).
Proof.
  unfold h1_pT. ev. tabs tab1.
  erewrite (for_each_sum1 _ (fun x => tm 0 1 (a1 p) (b1 T) x)) by body folds1.
  ev. reflexivity.
Qed.
Lemma u1_closed :
  u1_pT (Fin p) (Fin T)
  = Ok (Fin (Rw * T * (1386 / T * (0 + g1 0 1 p T) - p / 16.53 * (0 + - g1 1 0 p T)))).
Proof.
  unfold u1_pT. ev. tabs tab1.
  erewrite (for_each_sum2 _ (fun x => - tm 1 0 (a1 p) (b1 T) x) (fun x => tm 0 1 (a1 p) (b1 T) x))
    by body folds1.
  rewrite rsum_opp. ev. reflexivity.
Qed.
Lemma s1_closed :
  s1_pT (Fin p) (Fin T)
  = Ok (Fin (Rw * (1386 / T) * (0 + g1 0 1 p T) - Rw * (0 + g1 0 0 p T))).
Proof.
  unfold s1_pT. ev. tabs tab1.
  erewrite (for_each_sum2 _ (fun x => tm 0 1 (a1 p) (b1 T) x) (fun x => tm 0 0 (a1 p) (b1 T) x))
    by body folds1.
  ev. reflexivity.
Qed.
Lemma Cp1_closed :
  Cp1_pT (Fin p) (Fin T) = Ok (Fin (- Rw * powerRZ (1386 / T) 2 * (0 + g1 0 2 p T))).
Proof.
  unfold Cp1_pT. ev. tabs tab1.
  erewrite (for_each_sum1 _ (fun x => tm 0 2 (a1 p) (b1 T) x)) by body folds1.
  ev. reflexivity.
Qed.
(** Cv and w divide by a derivative of the sum, so they may raise. *)
Lemma Cv1_closed c :
  Cv1_pT (Fin p) (Fin T) = Ok c ->
  (0 + g1 2 0 p T) <> 0 /\
  c = Fin (Rw * (- powerRZ (1386 / T) 2 * (0 + g1 0 2 p T)
           + powerRZ ((0 + - g1 1 0 p T) - 1386 / T * (0 + - g1 1 1 p T)) 2 / (0 + g1 2 0 p T))).
Proof.
  unfold Cv1_pT. ev. tabs tab1.
  erewrite (for_each_sum4 _ (fun x => - tm 1 0 (a1 p) (b1 T) x) (fun x => tm 2 0 (a1 p) (b1 T) x)
     (fun x => - tm 1 1 (a1 p) (b1 T) x) (fun x => tm 0 2 (a1 p) (b1 T) x)) by body folds1.
  rewrite !rsum_opp. ev.
  match goal with |- context [xdiv ?a ?b] => destruct (xdiv a b) eqn:E end; [|discriminate].
  apply xdiv_inv in E. destruct E as [E1 ->]. red1. intros [= <-]. split; [exact E1 | reflexivity].
Qed.
Lemma Cv1_total :
  (0 + g1 2 0 p T) <> 0 -> exists c, Cv1_pT (Fin p) (Fin T) = Ok (Fin c).
Proof.
  unfold Cv1_pT. ev. tabs tab1.
  erewrite (for_each_sum4 _ (fun x => - tm 1 0 (a1 p) (b1 T) x) (fun x => tm 2 0 (a1 p) (b1 T) x)
     (fun x => - tm 1 1 (a1 p) (b1 T) x) (fun x => tm 0 2 (a1 p) (b1 T) x)) by body folds1.
  rewrite !rsum_opp. ev.
  intros K0. rewrite (xdiv_Fin _ _ K0). red1. eauto.
Qed.
Lemma w1_closed c :
  w1_pT (Fin p) (Fin T) = Ok c ->
  let gp := 0 + - g1 1 0 p T in
  let d1 := powerRZ (1386 / T) 2 * (0 + g1 0 2 p T) in
  let d2 := powerRZ (gp - 1386 / T * (0 + - g1 1 1 p T)) 2 / d1 - (0 + g1 2 0 p T) in
  let q := 1000 * Rw * T * powerRZ gp 2 / d2 in
  d1 <> 0 /\ d2 <> 0 /\ 0 <= q /\ c = Fin (R_sqrt.sqrt q).
Proof.
  unfold w1_pT. ev. tabs tab1.
  erewrite (for_each_sum4 _ (fun x => - tm 1 0 (a1 p) (b1 T) x) (fun x => tm 2 0 (a1 p) (b1 T) x)
     (fun x => - tm 1 1 (a1 p) (b1 T) x) (fun x => tm 0 2 (a1 p) (b1 T) x)) by body folds1.
  rewrite !rsum_opp. ev.
  match goal with |- context [xdiv ?a ?b] => destruct (xdiv a b) eqn:E end; [|discriminate].
  apply xdiv_inv in E. destruct E as [E1 ->]. red1.
  match goal with |- context [xdiv ?a ?b] => destruct (xdiv a b) eqn:E end; [|discriminate].
  apply xdiv_inv in E. destruct E as [E2 ->]. red1. intros E3. apply xpow_half_inv in E3.
  destruct E3 as [E3 ->].
  repeat split; assumption.
Qed.
Lemma w1_total :
  let gp := 0 + - g1 1 0 p T in
  let d1 := powerRZ (1386 / T) 2 * (0 + g1 0 2 p T) in
  let d2 := powerRZ (gp - 1386 / T * (0 + - g1 1 1 p T)) 2 / d1 - (0 + g1 2 0 p T) in
  let q := 1000 * Rw * T * powerRZ gp 2 / d2 in
  d1 <> 0 -> d2 <> 0 -> 0 <= q -> exists c, w1_pT (Fin p) (Fin T) = Ok (Fin c).
Proof. cbv zeta.
  unfold w1_pT. ev. tabs tab1.
  erewrite (for_each_sum4 _ (fun x => - tm 1 0 (a1 p) (b1 T) x) (fun x => tm 2 0 (a1 p) (b1 T) x)
     (fun x => - tm 1 1 (a1 p) (b1 T) x) (fun x => tm 0 2 (a1 p) (b1 T) x)) by body folds1.
  rewrite !rsum_opp. ev.
  intros K0 K1 K2.
  rewrite (xdiv_Fin _ _ K0). red1.
  rewrite (xdiv_Fin _ _ K1). red1.
  match goal with |- context [xpowf (Fin ?a) _] => pose proof (powf_half a K2) as E end.
  cbn [powf RNum lit] in E. rewrite E. red1. eauto.
Qed.
End R1.

(** ** Region 2 *)
Definition tab2 := combine h2_pT_nr (combine h2_pT_Ir h2_pT_Jr).
Definition tab2o := combine h2_pT_n0 h2_pT_J0.
Definition b2 (T : R) := 540 / T - 0.5.
Definition g2 (i j : nat) (p T : R) := S2 tab2 i j p (b2 T).
Definition o2 (j : nat) (T : R) := S1 tab2o j (540 / T).

Section R2.
Variables (p T : R).
Hypotheses (Hp : p <> 0) (HT : T <> 0) (Htau : 540 / T <> 0) (Hb : b2 T <> 0).
Ltac folds2 _ := change (D 540%dec / T - D 0.5%dec) with (b2 T); change (D 540%dec / T) with (540 / T).

Lemma v2_closed :
  v2_pT (Fin p) (Fin T) = Ok (Fin (Rw * T / p * p * (1 / p + (0 + g2 1 0 p T)) / 1000)).
Proof.
  unfold v2_pT. ev. tabs tab2.
  erewrite (for_each_sum1 _ (fun x => tm 1 0 p (b2 T) x)) by body folds2.
  ev. reflexivity.
Qed.
Lemma h2_closed :
  h2_pT (Fin p) (Fin T) = Ok (Fin (Rw * T * (540 / T) * ((0 + o2 1 T) + (0 + g2 0 1 p T)))).
Proof.
  unfold h2_pT. ev. tabs tab2o.
  erewrite (for_each_sum1 _ (fun x => tm1 1 (540 / T) x)) by body folds2.
  ev. tabs tab2.
  erewrite (for_each_sum1 _ (fun x => tm 0 1 p (b2 T) x)) by body folds2.
  ev. reflexivity.
Qed.
Lemma u2_closed :
  u2_pT (Fin p) (Fin T)
  = Ok (Fin (Rw * T * (540 / T * ((0 + o2 1 T) + (0 + g2 0 1 p T)) - p * (1 / p + (0 + g2 1 0 p T))))).
Proof.
  unfold u2_pT. ev. tabs tab2o.
  erewrite (for_each_sum1 _ (fun x => tm1 1 (540 / T) x)) by body folds2.
  ev. tabs tab2.
  erewrite (for_each_sum2 _ (fun x => tm 1 0 p (b2 T) x) (fun x => tm 0 1 p (b2 T) x)) by body folds2.
  ev. reflexivity.
Qed.
Lemma s2_closed : 0 < p ->
  s2_pT (Fin p) (Fin T)
  = Ok (Fin (Rw * (540 / T * ((0 + o2 1 T) + (0 + g2 0 1 p T)) - ((ln p + o2 0 T) + (0 + g2 0 0 p T))))).
Proof.
  intros Hpp. unfold s2_pT. ev. tabs tab2o.
  erewrite (for_each_sum2 _ (fun x => tm1 0 (540 / T) x) (fun x => tm1 1 (540 / T) x)) by body folds2.
  ev. tabs tab2.
  erewrite (for_each_sum2 _ (fun x => tm 0 0 p (b2 T) x) (fun x => tm 0 1 p (b2 T) x)) by body folds2.
  ev. reflexivity.
Qed.
Lemma Cp2_closed :
  Cp2_pT (Fin p) (Fin T)
  = Ok (Fin (- Rw * powerRZ (540 / T) 2 * ((0 + o2 2 T) + (0 + g2 0 2 p T)))).
Proof.
  unfold Cp2_pT. ev. tabs tab2o.
  erewrite (for_each_sum1 _ (fun x => tm1 2 (540 / T) x)) by body folds2.
  ev. tabs tab2.
  erewrite (for_each_sum1 _ (fun x => tm 0 2 p (b2 T) x)) by body folds2.
  ev. reflexivity.
Qed.
Lemma Cv2_closed c :
  Cv2_pT (Fin p) (Fin T) = Ok c ->
  let d := 1 - powerRZ p 2 * (0 + g2 2 0 p T) in
  d <> 0 /\
  c = Fin (Rw * (- powerRZ (540 / T) 2 * ((0 + o2 2 T) + (0 + g2 0 2 p T))
           - powerRZ (1 + p * (0 + g2 1 0 p T) - 540 / T * p * (0 + g2 1 1 p T)) 2 / d)).
Proof.
  unfold Cv2_pT. ev. tabs tab2o.
  erewrite (for_each_sum1 _ (fun x => tm1 2 (540 / T) x)) by body folds2.
  ev. tabs tab2.
  erewrite (for_each_sum4 _ (fun x => tm 1 0 p (b2 T) x) (fun x => tm 2 0 p (b2 T) x)
     (fun x => tm 1 1 p (b2 T) x) (fun x => tm 0 2 p (b2 T) x)) by body folds2.
  ev.
  match goal with |- context [xdiv ?a ?b] => destruct (xdiv a b) eqn:E end; [|discriminate].
  apply xdiv_inv in E. destruct E as [E1 ->]. red1. intros [= <-]. split; [exact E1 | reflexivity].
Qed.
Lemma Cv2_total :
  let d := 1 - powerRZ p 2 * (0 + g2 2 0 p T) in
  d <> 0 -> exists c, Cv2_pT (Fin p) (Fin T) = Ok (Fin c).
Proof.
  unfold Cv2_pT. ev. tabs tab2o.
  erewrite (for_each_sum1 _ (fun x => tm1 2 (540 / T) x)) by body folds2.
  ev. tabs tab2.
  erewrite (for_each_sum4 _ (fun x => tm 1 0 p (b2 T) x) (fun x => tm 2 0 p (b2 T) x)
     (fun x => tm 1 1 p (b2 T) x) (fun x => tm 0 2 p (b2 T) x)) by body folds2.
  ev.
  intros K0. rewrite (xdiv_Fin _ _ K0). red1. eauto.
Qed.
Lemma w2_closed c :
  w2_pT (Fin p) (Fin T) = Ok c ->
  let gp := 0 + g2 1 0 p T in
  let d1 := powerRZ (540 / T) 2 * ((0 + o2 2 T) + (0 + g2 0 2 p T)) in
  let d2 := 1 - powerRZ p 2 * (0 + g2 2 0 p T)
            + powerRZ (1 + p * gp - 540 / T * p * (0 + g2 1 1 p T)) 2 / d1 in
  let q := 1000 * Rw * T * (1 + 2 * p * gp + powerRZ p 2 * powerRZ gp 2) / d2 in
  d1 <> 0 /\ d2 <> 0 /\ 0 <= q /\ c = Fin (R_sqrt.sqrt q).
Proof.
  unfold w2_pT. ev. tabs tab2o.
  erewrite (for_each_sum1 _ (fun x => tm1 2 (540 / T) x)) by body folds2.
  ev. tabs tab2.
  erewrite (for_each_sum4 _ (fun x => tm 1 0 p (b2 T) x) (fun x => tm 2 0 p (b2 T) x)
     (fun x => tm 1 1 p (b2 T) x) (fun x => tm 0 2 p (b2 T) x)) by body folds2.
  ev.
  match goal with |- context [xdiv ?a ?b] => destruct (xdiv a b) eqn:E end; [|discriminate].
  apply xdiv_inv in E. destruct E as [E1 ->]. red1.
  match goal with |- context [xdiv ?a ?b] => destruct (xdiv a b) eqn:E end; [|discriminate].
  apply xdiv_inv in E. destruct E as [E2 ->]. red1. intros E3. apply xpow_half_inv in E3.
  destruct E3 as [E3 ->].
  repeat split; assumption.
Qed.
Lemma w2_total :
  let gp := 0 + g2 1 0 p T in
  let d1 := powerRZ (540 / T) 2 * ((0 + o2 2 T) + (0 + g2 0 2 p T)) in
  let d2 := 1 - powerRZ p 2 * (0 + g2 2 0 p T)
            + powerRZ (1 + p * gp - 540 / T * p * (0 + g2 1 1 p T)) 2 / d1 in
  let q := 1000 * Rw * T * (1 + 2 * p * gp + powerRZ p 2 * powerRZ gp 2) / d2 in
  d1 <> 0 -> d2 <> 0 -> 0 <= q -> exists c, w2_pT (Fin p) (Fin T) = Ok (Fin c).
Proof. cbv zeta.
  unfold w2_pT. ev. tabs tab2o.
  erewrite (for_each_sum1 _ (fun x => tm1 2 (540 / T) x)) by body folds2.
  ev. tabs tab2.
  erewrite (for_each_sum4 _ (fun x => tm 1 0 p (b2 T) x) (fun x => tm 2 0 p (b2 T) x)
     (fun x => tm 1 1 p (b2 T) x) (fun x => tm 0 2 p (b2 T) x)) by body folds2.
  ev.
  intros K0 K1 K2.
  rewrite (xdiv_Fin _ _ K0). red1.
  rewrite (xdiv_Fin _ _ K1). red1.
  match goal with |- context [xpowf (Fin ?a) _] => pose proof (powf_half a K2) as E end.
  cbn [powf RNum lit] in E. rewrite E. red1. eauto.
Qed.
End R2.

(** ** Region 3 *)
Definition tab3 := combine (slice 1 40 p3_rhoT_ni) (combine (slice 1 40 p3_rhoT_Ii) (slice 1 40 p3_rhoT_Ji)).
Definition n3 := 1.0658070028513.
Definition dl (rho : R) := rho / 322.0.
Definition ta (T : R) := 647.096 / T.
(** the residual sum, and the whole dimensionless Helmholtz energy's delta derivatives *)
Definition f3 (i j : nat) (rho T : R) := S2 tab3 i j (dl rho) (ta T).
Definition fd (rho T : R) := 0 + f3 1 0 rho T + n3 / dl rho.
Definition fdd (rho T : R) := 0 + f3 2 0 rho T - n3 / powerRZ (dl rho) 2.

Section R3.
Variables (rho T : R).
Hypotheses (Hrho : dl rho <> 0) (HT : T <> 0) (Htau : ta T <> 0).
Ltac folds3 _ := change (rho / D 322.0%dec) with (dl rho); change (D 647.096%dec / T) with (ta T).

Lemma dl2_nz : powerRZ (dl rho) 2 <> 0.
Proof. now apply powerRZ_NOR. Qed.

Lemma p3_closed :
  p3_rhoT (Fin rho) (Fin T) = Ok (Fin (rho * Rw * T * dl rho * fd rho T / 1000.0)).
Proof.
  unfold p3_rhoT. ev. tabs tab3.
  erewrite (for_each_sum1 _ (fun x => tm 1 0 (dl rho) (ta T) x)) by body folds3.
  ev. reflexivity.
Qed.
Lemma u3_closed :
  u3_rhoT (Fin rho) (Fin T) = Ok (Fin (Rw * T * (ta T * (0 + f3 0 1 rho T)))).
Proof.
  unfold u3_rhoT. ev. tabs tab3.
  erewrite (for_each_sum1 _ (fun x => tm 0 1 (dl rho) (ta T) x)) by body folds3.
  ev. reflexivity.
Qed.
Lemma h3_closed :
  h3_rhoT (Fin rho) (Fin T) = Ok (Fin (Rw * T * (ta T * (0 + f3 0 1 rho T) + dl rho * fd rho T))).
Proof.
  unfold h3_rhoT. ev. tabs tab3.
  erewrite (for_each_sum2 _ (fun x => tm 1 0 (dl rho) (ta T) x) (fun x => tm 0 1 (dl rho) (ta T) x)) by body folds3.
  ev. reflexivity.
Qed.
Lemma s3_closed : 0 < dl rho ->
  s3_rhoT (Fin rho) (Fin T)
  = Ok (Fin (Rw * (ta T * (0 + f3 0 1 rho T) - (0 + f3 0 0 rho T + n3 * ln (dl rho))))).
Proof.
  intros Hpos. unfold s3_rhoT. ev. tabs tab3.
  erewrite (for_each_sum2 _ (fun x => tm 0 0 (dl rho) (ta T) x) (fun x => tm 0 1 (dl rho) (ta T) x)) by body folds3.
  ev. reflexivity.
Qed.
Lemma Cv3_closed :
  Cv3_rhoT (Fin rho) (Fin T) = Ok (Fin (Rw * - (ta T * ta T * (0 + f3 0 2 rho T)))).
Proof.
  unfold Cv3_rhoT. ev. tabs tab3.
  erewrite (for_each_sum1 _ (fun x => tm 0 2 (dl rho) (ta T) x)) by body folds3.
  ev. reflexivity.
Qed.
Lemma Cp3_closed c :
  Cp3_rhoT (Fin rho) (Fin T) = Ok c ->
  let d := 2 * dl rho * fd rho T + powerRZ (dl rho) 2 * fdd rho T in
  d <> 0 /\
  c = Fin (Rw * (- powerRZ (ta T) 2 * (0 + f3 0 2 rho T)
           + powerRZ (dl rho * fd rho T - dl rho * ta T * (0 + f3 1 1 rho T)) 2 / d)).
Proof.
  pose proof dl2_nz. unfold Cp3_rhoT. ev. tabs tab3.
  erewrite (for_each_sum4 _ (fun x => tm 0 2 (dl rho) (ta T) x) (fun x => tm 1 0 (dl rho) (ta T) x)
     (fun x => tm 1 1 (dl rho) (ta T) x) (fun x => tm 2 0 (dl rho) (ta T) x)) by body folds3.
  ev.
  match goal with |- context [xdiv ?a ?b] => destruct (xdiv a b) eqn:E end; [|discriminate].
  apply xdiv_inv in E. destruct E as [E1 ->]. red1. intros [= <-]. split; [exact E1 | reflexivity].
Qed.
Lemma Cp3_total :
  let d := 2 * dl rho * fd rho T + powerRZ (dl rho) 2 * fdd rho T in
  d <> 0 -> exists c, Cp3_rhoT (Fin rho) (Fin T) = Ok (Fin c).
Proof.
  pose proof dl2_nz. unfold Cp3_rhoT. ev. tabs tab3.
  erewrite (for_each_sum4 _ (fun x => tm 0 2 (dl rho) (ta T) x) (fun x => tm 1 0 (dl rho) (ta T) x)
     (fun x => tm 1 1 (dl rho) (ta T) x) (fun x => tm 2 0 (dl rho) (ta T) x)) by body folds3.
  ev.
  intros K0. rewrite (xdiv_Fin _ _ K0). red1. eauto.
Qed.
Lemma w3_closed c :
  w3_rhoT (Fin rho) (Fin T) = Ok c ->
  let d1 := powerRZ (ta T) 2 * (0 + f3 0 2 rho T) in
  let q := 1000 * Rw * T * (2 * dl rho * fd rho T + powerRZ (dl rho) 2 * fdd rho T
            - powerRZ (dl rho * fd rho T - dl rho * ta T * (0 + f3 1 1 rho T)) 2 / d1) in
  d1 <> 0 /\ 0 <= q /\ c = Fin (R_sqrt.sqrt q).
Proof.
  pose proof dl2_nz. unfold w3_rhoT. ev. tabs tab3.
  erewrite (for_each_sum4 _ (fun x => tm 0 2 (dl rho) (ta T) x) (fun x => tm 1 0 (dl rho) (ta T) x)
     (fun x => tm 1 1 (dl rho) (ta T) x) (fun x => tm 2 0 (dl rho) (ta T) x)) by body folds3.
  ev.
  match goal with |- context [xdiv ?a ?b] => destruct (xdiv a b) eqn:E end; [|discriminate].
  apply xdiv_inv in E. destruct E as [E1 ->]. red1.
  intros E3. apply xpow_half_inv in E3. destruct E3 as [E3 ->].
  repeat split; assumption.
Qed.
Lemma w3_total :
  let d1 := powerRZ (ta T) 2 * (0 + f3 0 2 rho T) in
  let q := 1000 * Rw * T * (2 * dl rho * fd rho T + powerRZ (dl rho) 2 * fdd rho T
            - powerRZ (dl rho * fd rho T - dl rho * ta T * (0 + f3 1 1 rho T)) 2 / d1) in
  d1 <> 0 -> 0 <= q -> exists c, w3_rhoT (Fin rho) (Fin T) = Ok (Fin c).
Proof. cbv zeta.
  pose proof dl2_nz. unfold w3_rhoT. ev. tabs tab3.
  erewrite (for_each_sum4 _ (fun x => tm 0 2 (dl rho) (ta T) x) (fun x => tm 1 0 (dl rho) (ta T) x)
     (fun x => tm 1 1 (dl rho) (ta T) x) (fun x => tm 2 0 (dl rho) (ta T) x)) by body folds3.
  ev.
  intros K0 K1.
  rewrite (xdiv_Fin _ _ K0). red1.
  match goal with |- context [xpowf (Fin ?a) _] => pose proof (powf_half a K1) as E end.
  cbn [powf RNum lit] in E. rewrite E. red1. eauto.
Qed.
End R3.

(** ** Region 5 *)
Definition tab5 := combine h5_pT_nir (combine h5_pT_Iir h5_pT_Jir).
Definition tab5o := combine h5_pT_ni0 h5_pT_Ji0.
Definition b5 (T : R) := 1000 / T.
Definition g5 (i j : nat) (p T : R) := S2 tab5 i j p (b5 T).
Definition o5 (j : nat) (T : R) := S1 tab5o j (1000 / T).

Section R5.
Variables (p T : R).
Hypotheses (Hp : p <> 0) (HT : T <> 0) (Htau : 1000 / T <> 0) (Hb : b5 T <> 0).
Ltac folds5 _ := change (D 1000%dec / T) with (1000 / T); change (b5 T) with (1000 / T).

Lemma v5_closed :
  v5_pT (Fin p) (Fin T) = Ok (Fin (Rw * T / p * p * (1 / p + (0 + g5 1 0 p T)) / 1000)).
Proof.
  unfold v5_pT. ev. tabs tab5.
  erewrite (for_each_sum1 _ (fun x => tm 1 0 p (b5 T) x)) by body folds5.
  ev. reflexivity.
Qed.
Lemma h5_closed :
  h5_pT (Fin p) (Fin T) = Ok (Fin (Rw * T * (1000 / T) * ((0 + o5 1 T) + (0 + g5 0 1 p T)))).
Proof.
  unfold h5_pT. ev. tabs tab5o.
  erewrite (for_each_sum1 _ (fun x => tm1 1 (1000 / T) x)) by body folds5.
  ev. tabs tab5.
  erewrite (for_each_sum1 _ (fun x => tm 0 1 p (b5 T) x)) by body folds5.
  ev. reflexivity.
Qed.
Lemma u5_closed :
  u5_pT (Fin p) (Fin T)
  = Ok (Fin (Rw * T * (1000 / T * ((0 + o5 1 T) + (0 + g5 0 1 p T)) - p * (1 / p + (0 + g5 1 0 p T))))).
Proof.
  unfold u5_pT. ev. tabs tab5o.
  erewrite (for_each_sum1 _ (fun x => tm1 1 (1000 / T) x)) by body folds5.
  ev. tabs tab5.
  erewrite (for_each_sum2 _ (fun x => tm 1 0 p (b5 T) x) (fun x => tm 0 1 p (b5 T) x)) by body folds5.
  ev. reflexivity.
Qed.
Lemma s5_closed : 0 < p ->
  s5_pT (Fin p) (Fin T)
  = Ok (Fin (Rw * (1000 / T * ((0 + o5 1 T) + (0 + g5 0 1 p T)) - ((ln p + o5 0 T) + (0 + g5 0 0 p T))))).
Proof.
  intros Hpp. unfold s5_pT. ev. tabs tab5o.
  erewrite (for_each_sum2 _ (fun x => tm1 1 (1000 / T) x) (fun x => tm1 0 (1000 / T) x)) by body folds5.
  ev. tabs tab5.
  erewrite (for_each_sum2 _ (fun x => tm 0 0 p (b5 T) x) (fun x => tm 0 1 p (b5 T) x)) by body folds5.
  ev. reflexivity.
Qed.
Lemma Cp5_closed :
  Cp5_pT (Fin p) (Fin T)
  = Ok (Fin (- Rw * powerRZ (1000 / T) 2 * ((0 + o5 2 T) + (0 + g5 0 2 p T)))).
Proof.
  unfold Cp5_pT. ev. tabs tab5o.
  erewrite (for_each_sum1 _ (fun x => tm1 2 (1000 / T) x)) by body folds5.
  ev. tabs tab5.
  erewrite (for_each_sum1 _ (fun x => tm 0 2 p (b5 T) x)) by body folds5.
  ev. reflexivity.
Qed.
Lemma Cv5_closed c :
  Cv5_pT (Fin p) (Fin T) = Ok c ->
  let d := 1 - powerRZ p 2 * (0 + g5 2 0 p T) in
  d <> 0 /\
  c = Fin (Rw * (- (powerRZ (1000 / T) 2 * ((0 + o5 2 T) + (0 + g5 0 2 p T)))
           - powerRZ (1 + p * (0 + g5 1 0 p T) - 1000 / T * p * (0 + g5 1 1 p T)) 2 / d)).
Proof.
  unfold Cv5_pT. ev. tabs tab5o.
  erewrite (for_each_sum1 _ (fun x => tm1 2 (1000 / T) x)) by body folds5.
  ev. tabs tab5.
  erewrite (for_each_sum4 _ (fun x => tm 1 0 p (b5 T) x) (fun x => tm 1 1 p (b5 T) x)
     (fun x => tm 2 0 p (b5 T) x) (fun x => tm 0 2 p (b5 T) x)) by body folds5.
  ev.
  match goal with |- context [xdiv ?a ?b] => destruct (xdiv a b) eqn:E end; [|discriminate].
  apply xdiv_inv in E. destruct E as [E1 ->]. red1. intros [= <-]. split; [exact E1 | reflexivity].
Qed.
Lemma Cv5_total :
  let d := 1 - powerRZ p 2 * (0 + g5 2 0 p T) in
  d <> 0 -> exists c, Cv5_pT (Fin p) (Fin T) = Ok (Fin c).
Proof.
  unfold Cv5_pT. ev. tabs tab5o.
  erewrite (for_each_sum1 _ (fun x => tm1 2 (1000 / T) x)) by body folds5.
  ev. tabs tab5.
  erewrite (for_each_sum4 _ (fun x => tm 1 0 p (b5 T) x) (fun x => tm 1 1 p (b5 T) x)
     (fun x => tm 2 0 p (b5 T) x) (fun x => tm 0 2 p (b5 T) x)) by body folds5.
  ev.
  intros K0. rewrite (xdiv_Fin _ _ K0). red1. eauto.
Qed.
Lemma w5_closed c :
  w5_pT (Fin p) (Fin T) = Ok c ->
  let gp := 0 + g5 1 0 p T in
  let d1 := powerRZ (1000 / T) 2 * ((0 + o5 2 T) + (0 + g5 0 2 p T)) in
  let d2 := 1 - powerRZ p 2 * (0 + g5 2 0 p T)
            + powerRZ (1 + p * gp - 1000 / T * p * (0 + g5 1 1 p T)) 2 / d1 in
  let q := 1000 * Rw * T * (1 + 2 * p * gp + powerRZ p 2 * powerRZ gp 2) / d2 in
  d1 <> 0 /\ d2 <> 0 /\ 0 <= q /\ c = Fin (R_sqrt.sqrt q).
Proof.
  unfold w5_pT. ev. tabs tab5o.
  erewrite (for_each_sum1 _ (fun x => tm1 2 (1000 / T) x)) by body folds5.
  ev. tabs tab5.
  erewrite (for_each_sum4 _ (fun x => tm 1 0 p (b5 T) x) (fun x => tm 1 1 p (b5 T) x)
     (fun x => tm 2 0 p (b5 T) x) (fun x => tm 0 2 p (b5 T) x)) by body folds5.
  ev.
  match goal with |- context [xdiv ?a ?b] => destruct (xdiv a b) eqn:E end; [|discriminate].
  apply xdiv_inv in E. destruct E as [E1 ->]. red1.
  match goal with |- context [xdiv ?a ?b] => destruct (xdiv a b) eqn:E end; [|discriminate].
  apply xdiv_inv in E. destruct E as [E2 ->]. red1. intros E3. apply xpow_half_inv in E3.
  destruct E3 as [E3 ->].
  repeat split; assumption.
Qed.
Lemma w5_total :
  let gp := 0 + g5 1 0 p T in
  let d1 := powerRZ (1000 / T) 2 * ((0 + o5 2 T) + (0 + g5 0 2 p T)) in
  let d2 := 1 - powerRZ p 2 * (0 + g5 2 0 p T)
            + powerRZ (1 + p * gp - 1000 / T * p * (0 + g5 1 1 p T)) 2 / d1 in
  let q := 1000 * Rw * T * (1 + 2 * p * gp + powerRZ p 2 * powerRZ gp 2) / d2 in
  d1 <> 0 -> d2 <> 0 -> 0 <= q -> exists c, w5_pT (Fin p) (Fin T) = Ok (Fin c).
Proof. cbv zeta.
  unfold w5_pT. ev. tabs tab5o.
  erewrite (for_each_sum1 _ (fun x => tm1 2 (1000 / T) x)) by body folds5.
  ev. tabs tab5.
  erewrite (for_each_sum4 _ (fun x => tm 1 0 p (b5 T) x) (fun x => tm 1 1 p (b5 T) x)
     (fun x => tm 2 0 p (b5 T) x) (fun x => tm 0 2 p (b5 T) x)) by body folds5.
  ev.
  intros K0 K1 K2.
  rewrite (xdiv_Fin _ _ K0). red1.
  rewrite (xdiv_Fin _ _ K1). red1.
  match goal with |- context [xpowf (Fin ?a) _] => pose proof (powf_half a K2) as E end.
  cbn [powf RNum lit] in E. rewrite E. red1. eauto.
Qed.
End R5.
