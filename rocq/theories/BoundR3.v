(** Region 3: T3_ph and v3_ph solve the fundamental equation, by enclosure of the composition. *)
From Coq Require Import PrimFloat ZArith QArith Reals Lra Lia List Bool.
From Interval Require Import Tactic.
From Verif Require Import Py ModRegion3 ExactReal RealSum ProofEos ProofThermo ProofSat Bound BoundEos BoundSat BoundF BoundT BoundC BoundU BoundS BoundV ProofBack ProofMisc Bound2 BoundR1 BoundX.
From Verif Require Sat3 ProofTph.
Import ListNotations.
Open Scope R_scope.

(** ** Pressure and enthalpy as one table sum each *)
Definition dmul (k : Z) (d : dec) : dec := {| dec_m := k * dec_m d; dec_e := dec_e d |}.
Lemma D_mul k d : D (dmul k d) = IZR k * D d.
Proof. unfold D, dmul. cbn [dec_m dec_e]. destruct (dec_e d); rewrite ?mult_IZR; unfold Rdiv; ring. Qed.
Definition tabp : etab := map (fun y => (dmul (fst (snd y)) (fst y), snd y)) tab3.
Definition tabh : etab := map (fun y => (dmul (fst (snd y) + snd (snd y)) (fst y), snd y)) tab3.
Definition inv1 : etab := [({| dec_m := 1; dec_e := 0 |}, (-1, 0)%Z)].
Lemma pred_pow x e : x <> 0 -> powerRZ x e = x * powerRZ x (e - 1).
Proof. intros H. replace e with (1 + (e - 1))%Z at 1 by lia. rewrite powerRZ_add by exact H. cbn [powerRZ]. change (Pos.to_nat 1) with 1%nat. ring. Qed.
Lemma tabp_ok a b : a <> 0 -> S2 tabp 0 0 a b = a * S2 tab3 1 0 a b.
Proof.
  intros H. unfold tabp, S2. induction tab3 as [|[d [i j]] t IH]; cbn [map rsum]; [ring|]. rewrite IH. unfold tm. cbn [fst snd ff Z.of_nat].
  change (Z.pos (Pos.of_succ_nat 0)) with 1%Z. rewrite !Z.sub_0_r, D_mul, (pred_pow a i) by exact H. ring.
Qed.
Lemma tabh_ok a b : a <> 0 -> b <> 0 -> S2 tabh 0 0 a b = a * S2 tab3 1 0 a b + b * S2 tab3 0 1 a b.
Proof.
  intros H K. unfold tabh, S2. induction tab3 as [|[d [i j]] t IH]; cbn [map rsum]; [ring|]. rewrite IH. unfold tm. cbn [fst snd ff Z.of_nat].
  change (Z.pos (Pos.of_succ_nat 0)) with 1%Z. rewrite !Z.sub_0_r, D_mul, plus_IZR, (pred_pow a i), (pred_pow b j) by assumption. ring.
Qed.
Lemma inv1_ok a b : S2 inv1 0 0 a b = / a.
Proof.
  unfold inv1, S2. cbn [rsum]. unfold tm. cbn [fst snd ff Z.of_nat]. rewrite !Z.sub_0_r. unfold D. cbn [dec_m dec_e powerRZ].
  change (Pos.to_nat 1) with 1%nat. rewrite pow_1. ring_simplify. destruct (Req_dec a 0) as [->|N]; [|field; exact N]. rewrite Rinv_0. ring.
Qed.
Lemma p3_sums rho T : rho <> 0 -> p3R rho T = 0.001 * (0.461526 * T * rho * (n3 + S2 tabp 0 0 (dl rho) (ta T))).
Proof. intros H. assert (dl rho <> 0) by (unfold dl; lra). rewrite tabp_ok by assumption. replace 0.001 with (/ 1000) by lra. unfold p3R, fd, f3. field. assumption. Qed.
Lemma h3_sums rho T : rho <> 0 -> T <> 0 -> h3R rho T = 0.461526 * T * (n3 + S2 tabh 0 0 (dl rho) (ta T)).
Proof.
  intros H K. assert (dl rho <> 0) by (unfold dl; lra). assert (ta T <> 0).
  { unfold ta, Rdiv. apply Rmult_integral_contrapositive_currified; [lra | now apply Rinv_neq_0_compat]. }
  rewrite tabh_ok by assumption. unfold h3R, fd, f3. field. assumption.
Qed.

(** ** The residuals over a box *)
Definition sum2 (U V : itv) (n : nat) (f : gtab) (X Y : poly2) : poly2 := compose U V n f (qbound U V X) (qbound U V Y) X Y.
Lemma sum2_ok U V u v n tab X Y x y : inc U u -> inc V v -> pol2 u v X x -> pol2 u v Y y ->
  pol2 u v (sum2 U V n (grp (prep false false tab)) X Y) (S2 tab 0 0 x y).
Proof.
  intros HU HV HX HY. unfold sum2. rewrite <- (prep_ok false false). cbn [sg].
  apply compose_ok; try assumption; now apply qbound_ok with u v.
Qed.
Definition half (U V : itv) (n : nat) (f : gtab) (c : Q) (a : Q) (m b : Q) (p h : poly2) : poly2 :=
  qscal (iQ c) (sum2 U V n f (lin (iQ a) (iQ 0.01) p) (lin (iQ b) (iQ m) h)).
Lemma half_ok U V u v n tab c a m b p h P H : inc U u -> inc V v -> pol2 u v P p -> pol2 u v H h ->
  pol2 u v (half U V n (grp (prep false false tab)) c a m b P H) (Q2R c * S2 tab 0 0 (Q2R a + Q2R 0.01 * p) (Q2R b + Q2R m * h)).
Proof.
  intros HU HV HP HH. unfold half. apply qscal_ok; [apply inc_Q|]. apply sum2_ok; try assumption; (apply lin_ok; [apply inc_Q | apply inc_Q | assumption]).
Qed.
Definition v3aR p h := S2 tabv3ah 0 0 (p / 100 + 0.128) (h / 2100 - 0.727) * 0.0028.
Definition v3bR p h := S2 tabv3bh 0 0 (p / 100 + 0.0661) (h / 2800 - 0.72) * 0.0088.
Definition T3 (k : bool) p h := if k then T3aR p h else T3bR p h.
Definition v3 (k : bool) p h := if k then v3aR p h else v3bR p h.
Definition T3P U V n (k : bool) f P H := if k then half U V n f 760 0.24 (Qmake 1 2300) (-0.615) P H else half U V n f 860 0.298 (Qmake 1 2800) (-0.72) P H.
Definition v3P U V n (k : bool) f P H := if k then half U V n f 0.0028 0.128 (Qmake 1 2100) (-0.727) P H else half U V n f 0.0088 0.0661 (Qmake 1 2800) (-0.72) P H.
Lemma T3P_ok U V u v n k P H p h : inc U u -> inc V v -> pol2 u v P p -> pol2 u v H h ->
  pol2 u v (T3P U V n k (grp (prep false false (if k then tabT3ah else tabT3bh))) P H) (T3 k p h).
Proof.
  intros HU HV HP HH. destruct k; cbn [T3P T3]; (eapply pol2_eq; [apply half_ok; eassumption|]); unfold T3aR, T3bR;
  rewrite (Rmult_comm (S2 _ _ _ _ _)); (apply (f_equal2 Rmult); [unfold Q2R; cbn [Qnum Qden]; lra|]); apply (f_equal2 (S2 _ 0 0)); unfold Q2R; cbn [Qnum Qden]; lra.
Qed.
Lemma v3P_ok U V u v n k P H p h : inc U u -> inc V v -> pol2 u v P p -> pol2 u v H h ->
  pol2 u v (v3P U V n k (grp (prep false false (if k then tabv3ah else tabv3bh))) P H) (v3 k p h).
Proof.
  intros HU HV HP HH. destruct k; cbn [v3P v3]; (eapply pol2_eq; [apply half_ok; eassumption|]); unfold v3aR, v3bR;
  rewrite (Rmult_comm (S2 _ _ _ _ _)); (apply (f_equal2 Rmult); [unfold Q2R; cbn [Qnum Qden]; lra|]); apply (f_equal2 (S2 _ 0 0)); unfold Q2R; cbn [Qnum Qden]; lra.
Qed.
Record out3 := { oT : itv; ov : itv; oh : itv; op : itv }.
Definition err3 (n : nat) (k : bool) : itv -> itv -> out3 :=
  let fT := grp (prep false false (if k then tabT3ah else tabT3bh)) in
  let fv := grp (prep false false (if k then tabv3ah else tabv3bh)) in
  let fp := grp (prep false false tabp) in let fh := grp (prep false false tabh) in let fi := grp (prep false false inv1) in
  fun P H =>
  let x := mk P H in
  if good x then
    let U := Ux x in let V := Vx x in let b := qbound U V in
    let p := [[bA0 x]; [iZ 1]] in let h := [[bB0 x; iZ 1]] in
    let T := T3P U V n k fT p h in let v := v3P U V n k fv p h in
    let r := sum2 U V n fi v [[iZ 1]] in let w := sum2 U V n fi T [[iZ 1]] in
    let del := qscal (iQ (Qmake 1 322)) r in let tau := qscal (iQ 647.096) w in
    let RT := qscal (iQ 0.461526) T in
    let c := iQ 1.0658070028513 in
    {| oT := b T; ov := b v;
       oh := b (qadd (qmul U V n RT (qadd [[c]] (sum2 U V n fh del tau))) (qscal (iZ (-1)) h));
       op := b (qadd (qscal (iQ 0.001) (qmul U V n (qmul U V n RT r) (qadd [[c]] (sum2 U V n fp del tau)))) (qscal (iZ (-1)) p)) |}
  else {| oT := I.nai; ov := I.nai; oh := I.nai; op := I.nai |}.
Lemma err3_ok n k P H p h : inc P p -> inc H h ->
  inc (oT (err3 n k P H)) (T3 k p h) /\ inc (ov (err3 n k P H)) (v3 k p h) /\
  (v3 k p h <> 0 -> T3 k p h <> 0 -> inc (oh (err3 n k P H)) (h3R (1 / v3 k p h) (T3 k p h) - h) /\ inc (op (err3 n k P H)) (p3R (1 / v3 k p h) (T3 k p h) - p)).
Proof.
  intros HP HH. unfold err3. cbv zeta. destruct (good (mk P H)) eqn:G; cbn [oT ov oh op]; [|split; [|split; [|split]]; apply inc_nai].
  destruct (good_boxed _ _ _ _ G HP HH) as (a0 & b0 & B). set (x := mk P H) in *.
  assert (HU : inc (Ux x) (p - a0)) by (apply inc_sub; [exact (in_A _ _ _ _ _ B) | exact (in_A0 _ _ _ _ _ B)]).
  assert (HV : inc (Vx x) (h - b0)) by (apply inc_sub; [exact (in_B _ _ _ _ _ B) | exact (in_B0 _ _ _ _ _ B)]).
  assert (Kp : pol2 (p - a0) (h - b0) [[bA0 x]; [iZ 1]] p).
  { eapply pol2_eq; [constructor; [apply pol_const; exact (in_A0 _ _ _ _ _ B) | apply pol2_const, pol_const, inc_Z]|]. ring. }
  assert (Kh : pol2 (p - a0) (h - b0) [[bB0 x; iZ 1]] h).
  { apply pol2_const. eapply pol_eq; [constructor; [exact (in_B0 _ _ _ _ _ B) | apply pol_const, inc_Z]|]. ring. }
  assert (KT := T3P_ok _ _ _ _ n k _ _ _ _ HU HV Kp Kh). assert (Kv := v3P_ok _ _ _ _ n k _ _ _ _ HU HV Kp Kh).
  revert KT Kv. generalize (T3P (Ux x) (Vx x) n k (grp (prep false false (if k then tabT3ah else tabT3bh))) [[bA0 x]; [iZ 1]] [[bB0 x; iZ 1]]) as TP.
  generalize (v3P (Ux x) (Vx x) n k (grp (prep false false (if k then tabv3ah else tabv3bh))) [[bA0 x]; [iZ 1]] [[bB0 x; iZ 1]]) as vP.
  generalize (T3 k p h) (v3 k p h). intros T v vP TP KT Kv.
  split; [now apply qbound_ok with (p - a0) (h - b0)|]. split; [now apply qbound_ok with (p - a0) (h - b0)|]. intros Nv NT.
  assert (K1 : pol2 (p - a0) (h - b0) [[iZ 1]] 1) by (apply pol2_const, pol_const, inc_Z).
  assert (Kr := sum2_ok _ _ _ _ n inv1 _ _ _ _ HU HV Kv K1). assert (Kw := sum2_ok _ _ _ _ n inv1 _ _ _ _ HU HV KT K1).
  rewrite inv1_ok in Kr, Kw. revert Kr Kw. set (rP := sum2 (Ux x) (Vx x) n _ vP _). set (wP := sum2 (Ux x) (Vx x) n _ TP _). clearbody rP wP. intros Kr Kw.
  assert (Kd : pol2 (p - a0) (h - b0) (qscal (iQ (Qmake 1 322)) rP) (dl (1 / v))).
  { eapply pol2_eq; [apply qscal_ok; [apply inc_Q | exact Kr]|]. unfold dl, Q2R; cbn [Qnum Qden]. field. exact Nv. }
  assert (Kt : pol2 (p - a0) (h - b0) (qscal (iQ 647.096) wP) (ta T)).
  { eapply pol2_eq; [apply qscal_ok; [apply inc_Q | exact Kw]|]. unfold ta, Rdiv. f_equal. }
  assert (Kn : pol2 (p - a0) (h - b0) [[iQ 1.0658070028513]] n3).
  { apply pol2_const, pol_const. replace n3 with (Q2R 1.0658070028513) by (unfold n3, Q2R; cbn; lra). apply inc_Q. }
  assert (KR : pol2 (p - a0) (h - b0) (qscal (iQ 0.461526) TP) (0.461526 * T)).
  { eapply pol2_eq; [apply qscal_ok; [apply inc_Q | exact KT]|]. unfold Q2R; cbn [Qnum Qden]. lra. }
  assert (Nr : 1 / v <> 0) by (unfold Rdiv; rewrite Rmult_1_l; now apply Rinv_neq_0_compat).
  rewrite p3_sums, h3_sums by assumption.
  split; (apply qbound_ok with (p - a0) (h - b0); [exact HU | exact HV|]); unfold Rminus at 3.
  - apply qadd_ok.
    + apply qmul_ok; [exact HU | exact HV | exact KR|]. apply qadd_ok; [exact Kn | now apply sum2_ok].
    + eapply pol2_eq; [apply qscal_ok; [apply inc_Z | exact Kh] | ring].
  - apply qadd_ok.
    + replace 0.001 with (Q2R 0.001) by (unfold Q2R; cbn; lra). apply qscal_ok; [apply inc_Q|].
      apply qmul_ok; [exact HU | exact HV | |].
      * apply qmul_ok; [exact HU | exact HV | exact KR|]. eapply pol2_eq; [exact Kr | unfold Rdiv; ring].
      * apply qadd_ok; [exact Kn | now apply sum2_ok].
    + eapply pol2_eq; [apply qscal_ok; [apply inc_Z | exact Kp] | ring].
Qed.

(** ** Borders of region 3 in the plane of pressure and enthalpy *)
Definition edge (k : Q) := over (fun V T => let P := p23U V 5 T in ubound V (padd (h2U V 5 (padd P [iv (-2) 2]) T) (pscal (iQ k) P))).
Lemma edge_in k e l u t : Rabs e < 0.000001 -> gr l <= t <= gr u -> inc (edge k l u) (h2R (p23R t + e) t + Q2R k * p23R t).
Proof.
  intros He H. apply (over_ok _ (fun t => h2R (p23R t + e) t + Q2R k * p23R t)); [exact H|]. intros V v T HV HT. cbv zeta.
  assert (HP : pol v (p23U V 5 T) (p23R t)) by now apply p23U_ok. apply ubound_ok with v; [exact HV|]. apply padd_ok; [|apply pscal_ok; [apply inc_Q | exact HP]].
  apply h2U_ok; [exact HV | | exact HT]. apply padd_ok; [exact HP|]. apply pol_const, inc_iv. unfold gr, G.
  revert He. unfold Rabs. destruct (Rcase_abs e); lra.
Qed.
Definition side (k : Q) := over (fun V P => ubound V (padd (h1U V 5 P [iQ 623.15]) (pscal (iQ k) P))).
Lemma side_in k l u p : gr l <= p <= gr u -> inc (side k l u) (h1R p 623.15 + Q2R k * p).
Proof.
  intros H. apply (over_ok _ (fun p => h1R p 623.15 + Q2R k * p)); [exact H|]. intros V v P HV HP. apply ubound_ok with v; [exact HV|].
  apply padd_ok; [|apply pscal_ok; [apply inc_Q | exact HP]].
  apply h1U_ok; [exact HV | exact HP|]. apply pol_const. replace 623.15 with (Q2R 623.15) by (unfold Q2R; cbn; lra). apply inc_Q.
Qed.
Ltac qends K y E := cbn beta in K; set (y := E) in *; clearbody y; unfold Q2R in K; cbn [Qnum Qden] in K.
Lemma edge_0 e t : Rabs e < 0.000001 -> 623.1 <= t <= 757 -> h2R (p23R t + e) t < 2632.
Proof.
  intros He H. assert (K : ends 2540 2632 (fun t => h2R (p23R t + e) t + Q2R 0 * p23R t) 623.1 757).
  { assert (X := fun l u t => edge_in 0 e l u t He). seg X (edge 0) 2540%Q 2632%Q 653367705%Z 793772032%Z. }
  specialize (K t H). qends K y (h2R (p23R t + e) t). lra.
Qed.
Lemma edge_1 e t : Rabs e < 0.000001 -> 755 <= t <= 863.2 -> h2R (p23R t + e) t < 2632 + 3.577 * (p23R t - 48) - 0.0001.
Proof.
  intros He H. assert (K : ends 2440 2460.303 (fun t => h2R (p23R t + e) t + Q2R (-3.577) * p23R t) 755 863.2).
  { assert (X := fun l u t => edge_in (-3.577) e l u t He). seg X (edge (-3.577)) 2440%Q 2460.303%Q 791674880%Z 905130804%Z. }
  specialize (K t H). cbn beta in K. revert K. generalize (h2R (p23R t + e) t) (p23R t). intros y z K. unfold Q2R in K; cbn [Qnum Qden] in K. lra.
Qed.
Lemma edge_2 e t : Rabs e < 0.000001 -> 623.1 <= t <= 863.2 -> h2R (p23R t + e) t < 2567 + 42 * (p23R t - 16.5) - 0.0001.
Proof.
  intros He H. assert (K : ends (-1500) 1873.999 (fun t => h2R (p23R t + e) t + Q2R (-42) * p23R t) 623.1 863.2).
  { assert (X := fun l u t => edge_in (-42) e l u t He). seg X (edge (-42)) (-1500)%Q 1873.999%Q 653367705%Z 905130804%Z. }
  specialize (K t H). cbn beta in K. revert K. generalize (h2R (p23R t + e) t) (p23R t). intros y z K. unfold Q2R in K; cbn [Qnum Qden] in K. lra.
Qed.
Lemma edges p : 16.5292 <= p <= 100 -> h2R p (T23 p) < 2567 + 42 * (p - 16.5) /\ (h2R p (T23 p) < 2632 \/ h2R p (T23 p) < 2632 + 3.577 * (p - 48)).
Proof.
  intros H. assert (A := ProofIce.p23_of_T p ltac:(lra)). assert (B := ProofTph.T23_in p ltac:(lra)).
  assert (Q : ProofIce.q23 (T23 p) = p23R (T23 p)).
  { unfold ProofIce.q23, p23R, ProofIce.n1, ProofIce.n2, ProofIce.n3. cbn [pow]. rewrite Rmult_1_r. generalize (T23 p * T23 p) (T23 p). intros; lra. }
  rewrite Q in A. set (e := p - p23R (T23 p)). assert (E : Rabs e < 0.000001) by (unfold e; rewrite Rabs_minus_sym; exact A).
  assert (S : forall t, h2R (p23R (T23 p) + e) t = h2R p t) by (intros t; f_equal; unfold e; ring).
  assert (U : - 0.000001 < e < 0.000001) by (revert E; unfold Rabs; destruct (Rcase_abs e); lra).
  assert (K2 := edge_2 e (T23 p) E B). rewrite S in K2. split; [unfold e in U; lra|].
  destruct (Rle_or_lt (T23 p) 756) as [L|L].
  - left. assert (K0 := edge_0 e (T23 p) E ltac:(lra)). now rewrite S in K0.
  - right. assert (K1 := edge_1 e (T23 p) E ltac:(lra)). rewrite S in K1. unfold e in U. lra.
Qed.
Lemma sides3 p : 16.5 <= p <= 100 -> 1553 < h1R p 623.15 /\ 1668 - 8 * (p - 16.5) < h1R p 623.15 /\ 1620 - 3 * (p - 25) < h1R p 623.15 /\
  1593 - 1.7 * (p - 37) < h1R p 623.15 /\ 1573 - 0.8 * (p - 52) < h1R p 623.15.
Proof.
  intros H.
  assert (K0 : ends 1553 3000 (fun p => h1R p 623.15 + Q2R 0 * p) 16.5 100) by (assert (X := fun l u t => side_in 0 l u t); seg X (side 0) 1553%Q 3000%Q 17301504%Z 104857600%Z).
  assert (K1 : ends 1800 3000 (fun p => h1R p 623.15 + Q2R 8 * p) 16.5 100) by (assert (X := fun l u t => side_in 8 l u t); seg X (side 8) 1800%Q 3000%Q 17301504%Z 104857600%Z).
  assert (K2 : ends 1695 3000 (fun p => h1R p 623.15 + Q2R 3 * p) 16.5 100) by (assert (X := fun l u t => side_in 3 l u t); seg X (side 3) 1695%Q 3000%Q 17301504%Z 104857600%Z).
  assert (K3 : ends 1655.9 3000 (fun p => h1R p 623.15 + Q2R 1.7 * p) 16.5 100) by (assert (X := fun l u t => side_in 1.7 l u t); seg X (side 1.7) 1655.9%Q 3000%Q 17301504%Z 104857600%Z).
  assert (K4 : ends 1614.6 3000 (fun p => h1R p 623.15 + Q2R 0.8 * p) 16.5 100) by (assert (X := fun l u t => side_in 0.8 l u t); seg X (side 0.8) 1614.6%Q 3000%Q 17301504%Z 104857600%Z).
  specialize (K0 p H). specialize (K1 p H). specialize (K2 p H). specialize (K3 p H). specialize (K4 p H). cbn beta in *.
  set (y := h1R p 623.15) in *. clearbody y. unfold Q2R in *; cbn [Qnum Qden] in *. repeat split; lra.
Qed.

(** ** Boxes with nothing to check *)
Definition P3z : Z -> itv := let g := grp (prep true false Sat3.tab3s) in
  fun z => let H := imul (iQ (Qmake 1 2600)) (iv z z) in imul (iZ 22) (enc 1 g (isub H (iQ 0.608)) (isub (iQ 1.02) H)).
Lemma P3z_ok z : inc (P3z z) (Sat3.P3 (gr z)).
Proof.
  unfold P3z, Sat3.P3. cbv zeta. rewrite <- (prep_ok true false). cbn [sg].
  assert (H : inc (imul (iQ (Qmake 1 2600)) (iv z z)) (gr z / 2600)).
  { replace (gr z / 2600) with (Q2R (Qmake 1 2600) * gr z) by (unfold Q2R; cbn [Qnum Qden]; field). apply inc_mul; [apply inc_Q|]. apply inc_iv. lra. }
  apply inc_mul; [apply inc_Z|]. apply enc_ok; [apply inc_sub; [exact H | apply inc_Q]|].
  replace (- (gr z / 2600 - 1.02)) with (Q2R 1.02 - gr z / 2600) by (unfold Q2R at 1; cbn [Qnum Qden]; lra).
  apply inc_sub; [apply inc_Q | exact H].
Qed.
Definition top (P : itv) (l' u' : Z) : bool := if (u' <=? 2188325683)%Z then true else if (2188996772 <=? l')%Z then true else ineg (isub P (iQ 22.063)).
Definition wet (P : itv) (l' u' : Z) : bool :=
  if (1751973888 <=? l')%Z then if (u' <=? 2693371126)%Z then if top P l' u' then
    if ipos (isub (P3z l') P) then ipos (isub (P3z u') P) else false
  else false else false else false.
Lemma gr_lt a b : gr a < gr b -> (a < b)%Z.
Proof. intros H. apply Z.nle_gt. intros K. apply IZR_le in K. unfold gr in H. revert H. unfold G. lra. Qed.
Lemma P3_peak h : 2086.9 <= h <= 2087.6 -> 22.0631 < Sat3.P3 h.
Proof. intros H. unfold Sat3.P3. reals. interval with (i_prec 80, i_bisect h, i_taylor h, i_degree 6). Qed.
Lemma wet_ok P l' u' p h : wet P l' u' = true -> inc P p -> gr l' <= h <= gr u' -> p < Sat3.P3 h.
Proof.
  intros W HP Hh. unfold wet in W.
  destruct (1751973888 <=? l')%Z eqn:L; [|discriminate]. destruct (u' <=? 2693371126)%Z eqn:U; [|discriminate].
  destruct (top P l' u') eqn:O; [|discriminate]. destruct (ipos (isub (P3z l') P)) eqn:A; [|discriminate].
  apply gr_le in L, U. change (gr 1751973888) with (IZR 1751973888 / IZR G) in L. change (gr 2693371126) with (IZR 2693371126 / IZR G) in U.
  unfold G in L, U.
  assert (K1 := ipos_ok _ _ A (inc_sub _ _ _ _ (P3z_ok l') HP)). assert (K2 := ipos_ok _ _ W (inc_sub _ _ _ _ (P3z_ok u') HP)).
  destruct (Rle_or_lt h 2086.95) as [C|C].
  { destruct (proj1 Hh) as [X|X]; [|rewrite <- X; lra]. assert (Y := Sat3.P3_rise (gr l') h ltac:(lra) X C). lra. }
  destruct (Rle_or_lt 2087.59 h) as [C'|C'].
  { destruct (proj2 Hh) as [X|X]; [|rewrite X; lra]. assert (Y := Sat3.P3_fall h (gr u') C' X ltac:(lra)). lra. }
  unfold top in O. destruct (u' <=? 2188325683)%Z eqn:U1.
  { apply gr_le in U1. change (gr 2188325683) with (IZR 2188325683 / IZR G) in U1. unfold G in U1. lra. }
  destruct (2188996772 <=? l')%Z eqn:L1.
  { apply gr_le in L1. change (gr 2188996772) with (IZR 2188996772 / IZR G) in L1. unfold G in L1. lra. }
  assert (K3 := ineg_ok _ _ O (inc_sub _ _ _ _ HP (inc_Q 22.063))). replace (Q2R 22.063) with 22.063 in K3 by (unfold Q2R; cbn; lra).
  pose proof (P3_peak h ltac:(lra)). lra.
Qed.
Definition above (P H : itv) (a k c : Q) : itv := isub H (iadd (iQ a) (imul (iQ k) (isub P (iQ c)))).
Lemma above_ok P H a k c p h : inc P p -> inc H h -> inc (above P H a k c) (h - (Q2R a + Q2R k * (p - Q2R c))).
Proof. intros HP HH. apply inc_sub; [exact HH|]. apply inc_add; [apply inc_Q|]. apply inc_mul; [apply inc_Q|]. apply inc_sub; [exact HP | apply inc_Q]. Qed.
Definition hiI (P H : itv) : bool :=
  if ipos (above P H 2567 42 16.5) then true else if ipos (above P H 2632 0 0) then ipos (above P H 2632 3.577 48) else false.
Definition loI (P H : itv) : bool :=
  if ineg (above P H 1553 0 0) then true else if ineg (above P H 1668 (-8) 16.5) then true else if ineg (above P H 1620 (-3) 25) then true else
  if ineg (above P H 1593 (-1.7) 37) then true else ineg (above P H 1573 (-0.8) 52).
Definition in3 (p h : R) : Prop := 16.5292 <= p <= 100 /\ h1R p 623.15 <= h < h2R p (T23 p) /\ Sat3.P3 h <= p.
Lemma hiI_ok P H p h : hiI P H = true -> inc P p -> inc H h -> in3 p h -> False.
Proof.
  intros E HP HH (Hp & Hh & _). destruct (edges p Hp) as [A B]. unfold hiI in E.
  destruct (ipos (above P H 2567 42 16.5)) eqn:E1.
  { assert (K := ipos_ok _ _ E1 (above_ok _ _ _ _ _ _ _ HP HH)). unfold Q2R in K; cbn [Qnum Qden] in K. lra. }
  destruct (ipos (above P H 2632 0 0)) eqn:E2; [|discriminate].
  assert (K := ipos_ok _ _ E2 (above_ok _ _ _ _ _ _ _ HP HH)). assert (K' := ipos_ok _ _ E (above_ok _ _ _ _ _ _ _ HP HH)).
  unfold Q2R in K, K'; cbn [Qnum Qden] in K, K'. lra.
Qed.
Lemma loI_ok P H p h : loI P H = true -> inc P p -> inc H h -> in3 p h -> False.
Proof.
  intros E HP HH (Hp & Hh & _). destruct (sides3 p ltac:(lra)) as (A & B & C & D & F). unfold loI in E.
  assert (Q := fun a k c X => ineg_ok _ _ X (above_ok P H a k c p h HP HH)).
  repeat match type of E with (if ineg (above P H ?a ?k ?c) then _ else _) = _ => let E1 := fresh "E" in destruct (ineg (above P H a k c)) eqn:E1;
    [assert (K := Q _ _ _ E1); unfold Q2R in K; cbn [Qnum Qden] in K; lra|] end.
  assert (K := Q _ _ _ E). unfold Q2R in K; cbn [Qnum Qden] in K. lra.
Qed.
Definition abV (P : itv) : itv := iadd (iQ 2014.64004206875) (imul P (iadd (iQ 3.74696550136983) (imul P (iadd (iQ (-0.0219921901054187)) (imul P (iQ 0.000087513168600995)))))).
Lemma abV_ok P p : inc P p -> inc (abV P) (ab p).
Proof.
  intros A. replace (ab p) with (Q2R 2014.64004206875 + p * (Q2R 3.74696550136983 + p * (Q2R (-0.0219921901054187) + p * Q2R 0.000087513168600995))) by (unfold ab, Q2R; cbn [Qnum Qden]; lra).
  repeat (apply inc_add; [apply inc_Q|]; apply inc_mul; [exact A|]). apply inc_Q.
Qed.
Definition part3 (k : bool) (p h : R) : Prop := if k then h <= ab p else ab p <= h.
Definition skip3 (k : bool) (P H : itv) (l' u' : Z) : bool :=
  let d := isub H (abV P) in if (if k then ipos d else ineg d) then true else if wet P l' u' then true else if hiI P H then true else loI P H.
Lemma skip3_ok k P H l' u' p h : skip3 k P H l' u' = true -> inc P p -> inc H h -> gr l' <= h <= gr u' -> in3 p h -> part3 k p h -> False.
Proof.
  intros E HP HH Hh I Q. unfold skip3 in E. cbv zeta in E. assert (X := inc_sub _ _ _ _ HH (abV_ok _ _ HP)).
  destruct (if k then _ else _) eqn:E1.
  { destruct k; cbn [part3] in Q; [assert (K := ipos_ok _ _ E1 X) | assert (K := ineg_ok _ _ E1 X)]; lra. }
  destruct (wet P l' u') eqn:E2; [pose proof (wet_ok _ _ _ _ _ E2 HP Hh); unfold in3 in I; lra|].
  destruct (hiI P H) eqn:E3; [exact (hiI_ok _ _ _ _ E3 HP HH I) | exact (loI_ok _ _ _ _ E HP HH I)].
Qed.

(** ** All of region 3 *)
Definition size3 (n : nat) (k : bool) : Z -> Z -> Z -> Z -> option PrimFloat.float :=
  let E := err3 n k in fun l u l' u' => let P := iv l u in let H := iv l' u' in
  if skip3 k P H l' u' then None else
  let o := E P H in Some (let a := mag (oh o) in let b := (5 * mag (op o))%float in if (a <? b)%float then b else a).
Definition check3 (n : nat) (k : bool) (eh ep : Q) : Z -> Z -> Z -> Z -> bool :=
  let E := err3 n k in let eh := iQ eh in let ep := iQ ep in fun l u l' u' => let P := iv l u in let H := iv l' u' in
  if skip3 k P H l' u' then true else
  let o := E P H in if ipos (oT o) then if ipos (ov o) then if within0 (oh o) eh then within0 (op o) ep else false else false else false.
Definition solves (k : bool) (eh ep : Q) (p h : R) : Prop := in3 p h -> part3 k p h -> 0 < T3 k p h /\ 0 < v3 k p h /\
  Rabs (h3R (1 / v3 k p h) (T3 k p h) - h) <= Q2R eh /\ Rabs (p3R (1 / v3 k p h) (T3 k p h) - p) <= Q2R ep.
Lemma check3_ok n k eh ep l u l' u' : check3 n k eh ep l u l' u' = true ->
  forall p h, gr l <= p <= gr u -> gr l' <= h <= gr u' -> solves k eh ep p h.
Proof.
  intros C p h Hp Hh I Q. unfold check3 in C. cbv zeta in C. assert (HP := inc_iv l u p Hp). assert (HH := inc_iv l' u' h Hh).
  destruct (skip3 _ _ _ _ _) eqn:S in C; [exfalso; exact (skip3_ok _ _ _ _ _ _ _ S HP HH Hh I Q)|].
  destruct (err3_ok n k _ _ _ _ HP HH) as (A & B & D). destruct (err3 n k (iv l u) (iv l' u')) as [a b c d]. cbn [oT ov oh op] in *.
  destruct (ipos a) eqn:E1; [|discriminate]. destruct (ipos b) eqn:E2; [|discriminate]. destruct (within0 c (iQ eh)) eqn:E3; [|discriminate].
  assert (K1 := ipos_ok _ _ E1 A). assert (K2 := ipos_ok _ _ E2 B). destruct D as [D1 D2]; [lra | lra|].
  split; [exact K1|]. split; [exact K2|]. split; [apply (within0_ok _ _ _ _ E3 D1), inc_Q | apply (within0_ok _ _ _ _ C D2), inc_Q].
Qed.
Definition hunt3 (k : bool) : tree := search 40 (size3 6 k) 0.25%float 17332122 104857600 1628438528 2956984320.
Definition tree3a : tree := Eval vm_compute in hunt3 true.
Definition tree3b : tree := Eval vm_compute in hunt3 false.
Lemma covered3a : cover (check3 6 true 0.25 0.05) tree3a 17332122 104857600 1628438528 2956984320 = true.
Proof. vm_compute. reflexivity. Qed.
Lemma covered3b : cover (check3 6 false 0.25 0.05) tree3b 17332122 104857600 1628438528 2956984320 = true.
Proof. vm_compute. reflexivity. Qed.
Lemma back3_all k tr p h : cover (check3 6 k 0.25 0.05) tr 17332122 104857600 1628438528 2956984320 = true ->
  in3 p h -> part3 k p h -> 0 < T3 k p h /\ 0 < v3 k p h /\
    Rabs (h3R (1 / v3 k p h) (T3 k p h) - h) <= 0.25 /\ Rabs (p3R (1 / v3 k p h) (T3 k p h) - p) <= 0.05.
Proof.
  intros C I Q. destruct I as (Hp & Hh & Hw).
  assert (A : h < 2820) by (destruct (edges p Hp) as [_ [A|A]]; lra). assert (B := sides3 p ltac:(lra)).
  assert (S : solves k 0.25 0.05 p h).
  { apply (cover_ok (solves k 0.25 0.05) (check3 6 k 0.25 0.05)) with tr 17332122%Z 104857600%Z 1628438528%Z 2956984320%Z.
    - intros. eapply check3_ok; eauto. - exact C. - unfold gr, G. lra. - unfold gr, G. lra. }
  exact (S (conj Hp (conj Hh Hw)) Q).
Qed.
Theorem back3 p h : in3 p h -> exists T v, T3_ph (Fin p) (Fin h) = Ok (Fin T) /\ v3_ph (Fin p) (Fin h) = Ok (Fin v) /\ 0 < T /\ 0 < v /\
  Rabs (h3R (1 / v) T - h) <= 0.25 /\ Rabs (p3R (1 / v) T - p) <= 0.05.
Proof.
  intros I. assert (Hp := proj1 I). destruct (Rlt_or_le h (ab p)) as [L|L].
  - exists (T3 true p h), (v3 true p h). split; [apply T3a_ph_closed; lra|]. split; [apply v3a_ph_closed; lra|].
    apply (back3_all true tree3a p h covered3a I). cbn [part3]. lra.
  - exists (T3 false p h), (v3 false p h). split; [apply T3b_ph_closed; lra|]. split; [apply v3b_ph_closed; lra|].
    apply (back3_all false tree3b p h covered3b I). cbn [part3]. lra.
Qed.
