(** Region 2: T2_ph undoes the enthalpy equation, by enclosure of the composition. *)
From Coq Require Import PrimFloat ZArith QArith Reals Lra Lia List Bool.
From Interval Require Import Tactic.
From Verif Require Import Py ModRegion2 ExactReal RealSum ProofEos ProofThermo ProofSat Bound BoundEos BoundSat BoundF BoundT BoundC ProofBack BoundR1 Bound2 BoundX.
Import ListNotations.
Open Scope R_scope.

(** ** Pressure, temperature and enthalpy as polynomials over a box *)
Definition p2P (x : box) : poly2 := [[bA0 x]; [iZ 1]].
Definition tau0 (x : box) : itv := iadd (bB0 x) (iQ 0.5).
Definition tauX (x : box) : itv := iadd (bB x) (iQ 0.5).
Definition T2P (n : nat) (x : box) : poly2 := let t0 := tau0 x in
  [pscal (iZ 540) (pnorm 1 1 (vec n (tauX x) t0 (idiv (iZ 1) t0) (-1)))].
Definition h2P (n : nat) (x : box) (M : list (list itv)) : poly2 := let t0 := tau0 x in
  qcut (Ux x) (Vx x) n (qscal (imul Rw (iZ 540)) (qadd [S1v (S n) 1 (itab1 tab2o) (tauX x) t0 (idiv (iZ 1) t0)] (sub2 0 1 M))).

Section Polys_ok.
Variables (n : nat) (x : box) (p t a0 b0 : R).
Hypothesis (Ht : 0 < t) (H : boxed x a0 p b0 (b2 t)).
Let u := p - a0.
Let v := b2 t - b0.
Let M := matrix (S n) x (grp tab2) [].
Lemma Ux2_ok : inc (Ux x) u.
Proof. destruct H. now apply inc_sub. Qed.
Lemma Vx2_ok : inc (Vx x) v.
Proof. destruct H. now apply inc_sub. Qed.
Lemma p2P_ok : pol2 u v (p2P x) p.
Proof.
  eapply pol2_eq; [constructor; [apply pol_const; exact (in_A0 _ _ _ _ _ H) | apply pol2_const, pol_const, inc_Z]|].
  unfold u. ring.
Qed.
Lemma tau0_ok : inc (tau0 x) (b0 + 0.5).
Proof. apply inc_add; [exact (in_B0 _ _ _ _ _ H) | apply inc_Q]. Qed.
Lemma tauX0_ok : inc (tauX x) (b0 + 0.5).
Proof. apply inc_add; [exact (in_B' _ _ _ _ _ H) | apply inc_Q]. Qed.
Lemma tauX_ok : inc (tauX x) (540 / t).
Proof. replace (540 / t) with (b2 t + Q2R 0.5) by (unfold b2; ring). apply inc_add; [exact (in_B _ _ _ _ _ H) | apply inc_Q]. Qed.
Lemma tau_v : v = 540 / t - (b0 + 0.5). Proof. unfold v, b2. ring. Qed.
Lemma T2P_ok : pol2 u v (T2P n x) t.
Proof.
  pose proof (pos_b0 _ _ _ _ _ H). pose proof tau0_ok.
  apply pol2_const. eapply pol_eq; [apply pscal_ok; [apply inc_Z|]|].
  - rewrite tau_v. apply (vec_pol n (tauX x) _ _ (-1)); [lra | apply Rdiv_lt_0_compat; lra | exact tau0_ok | | exact tauX0_ok | exact tauX_ok].
    apply inc_div; [apply inc_Z | exact tau0_ok | lra].
  - cbn [powerRZ]. change (Pos.to_nat 1) with 1%nat. field. lra.
Qed.
Lemma h2P_ok : pol2 u v (h2P n x M) (h2R p t).
Proof.
  pose proof (pos_b0 _ _ _ _ _ H).
  apply qcut_ok; [exact Ux2_ok | exact Vx2_ok|]. unfold h2R, g2, o2. apply qscal_ok; [unfold Rw; enc|]. apply qadd_ok.
  - apply pol2_const. rewrite tau_v. apply S1v_ok; [lia | lra | apply Rdiv_lt_0_compat; lra | exact tau0_ok | | exact tauX0_ok | exact tauX_ok].
    apply inc_div; [apply inc_Z | exact tau0_ok | lra].
  - apply tay_ok; [exact H | lia | lia].
Qed.
End Polys_ok.

(** ** The error of the three equations over a box, with the enthalpy *)
Definition err2 (n k : nat) : itv -> itv -> itv * itv :=
  let g := grp tab2 in
  let f := grp (prep false true (match k with 0%nat => tabT2ah | 1%nat => tabT2bh | _ => tabT2ch end)) in
  fun P T =>
  let x := mk P (b2I T) in
  if good x then
    let U := Ux x in let V := Vx x in
    let h := h2P n x (matrix (S n) x g []) in let p := p2P x in let b := qbound U V in
    let y := lin (iQ (match k with 0%nat => 2.1 | 1%nat => 2.6 | _ => 1.8 end)) (iQ (Qmake (-1) 2000)) h in
    let c := match k with 0%nat => 0%Z | 1%nat => (-2)%Z | _ => 25%Z end in
    (b h, b (qadd (compose U V n f (iadd (iZ c) P) (b y) (lin (iZ c) (iZ 1) p) y) (qscal (iZ (-1)) (T2P n x))))
  else (I.nai, I.nai).
Definition E2 (k : nat) (p h : R) : R := match k with 0%nat => T2aR p h | 1%nat => T2bR p h | _ => T2cR p h end.
Lemma err2_ok n k P T p t : 0 < t -> inc P p -> inc T t ->
  inc (fst (err2 n k P T)) (h2R p t) /\ inc (snd (err2 n k P T)) (E2 k p (h2R p t) - t).
Proof.
  intros Ht HP HT. unfold err2. destruct (good (mk P (b2I T))) eqn:G; [|split; apply inc_nai].
  destruct (good_boxed _ _ _ _ G HP (inc_b2 _ _ Ht HT)) as (a0 & b0 & B).
  set (x := mk P (b2I T)) in *. cbv zeta. cbn [fst snd].
  assert (HU := Ux2_ok x p t a0 b0 B). assert (HV := Vx2_ok x p t a0 b0 B).
  assert (Hh := h2P_ok n x p t a0 b0 Ht B). assert (Hp := p2P_ok x p t a0 b0 B). assert (HTt := T2P_ok n x p t a0 b0 Ht B).
  assert (Hn : pol2 (p - a0) (b2 t - b0) (qscal (iZ (-1)) (T2P n x)) (- t)).
  { eapply pol2_eq; [apply qscal_ok; [apply inc_Z | exact HTt]|]. ring. }
  revert Hh. generalize (h2P n x (matrix (S n) x (grp tab2) [])) as hP. intros hP Hh. split.
  { now apply qbound_ok with (p - a0) (b2 t - b0). }
  apply qbound_ok with (p - a0) (b2 t - b0); [exact HU | exact HV|]. unfold Rminus at 3. apply qadd_ok; [|exact Hn].
  assert (X : forall c : Z, pol2 (p - a0) (b2 t - b0) (lin (iZ c) (iZ 1) (p2P x)) (IZR c + p)).
  { intros c. eapply pol2_eq; [apply lin_ok; [apply inc_Z | apply inc_Z | exact Hp]|]. ring. }
  assert (Y : forall q, pol2 (p - a0) (b2 t - b0) (lin (iQ q) (iQ (Qmake (-1) 2000)) hP) (- (h2R p t / 2000 - Q2R q))).
  { intros q. eapply pol2_eq; [apply lin_ok; [apply inc_Q | apply inc_Q | exact Hh]|]. unfold Q2R at 2; cbn [Qnum Qden]. field. }
  destruct k as [|[|k]]; cbn [E2].
  - unfold T2aR. rewrite <- (prep_ok false true tabT2ah). cbn [sg].
    assert (Y0 := Y 2.1%Q). assert (X0 := X 0%Z). replace (Q2R 2.1) with 2.1 in Y0 by (unfold Q2R; cbn; lra). rewrite Rplus_0_l in X0.
    apply compose_ok; try assumption; [|now apply qbound_ok with (p - a0) (b2 t - b0)].
    rewrite <- (Rplus_0_l p). apply inc_add; [apply inc_Z | exact HP].
  - unfold T2bR. rewrite <- (prep_ok false true tabT2bh). cbn [sg].
    assert (Y0 := Y 2.6%Q). assert (X0 := X (-2)%Z). replace (Q2R 2.6) with 2.6 in Y0 by (unfold Q2R; cbn; lra). replace (-2 + p) with (p - 2) in X0 by ring.
    apply compose_ok; try assumption; [|now apply qbound_ok with (p - a0) (b2 t - b0)].
    replace (p - 2) with (-2 + p) by ring. apply inc_add; [apply inc_Z | exact HP].
  - unfold T2cR. rewrite <- (prep_ok false true tabT2ch). cbn [sg].
    assert (Y0 := Y 1.8%Q). assert (X0 := X 25%Z). replace (Q2R 1.8) with 1.8 in Y0 by (unfold Q2R; cbn; lra). rewrite Rplus_comm in X0.
    apply compose_ok; try assumption; [|now apply qbound_ok with (p - a0) (b2 t - b0)].
    rewrite Rplus_comm. apply inc_add; [apply inc_Z | exact HP].
Qed.

(** ** All of region 2 *)
(** Nothing to check above the saturation line and beyond the border to region 3 *)
Definition in2 (p t : R) : Prop := (t <= 623.14 -> p <= p4R t) /\ (623.14 <= t -> p <= p23R t + 0.005).
Definition out2 (P : itv) (u' : Z) : bool :=
  if (u' <=? 653409648)%Z then ipos (isub P (psu u')) else ipos (isub P (iadd (p23u u') (iQ 0.01))).
Definition bcV (H : itv) : itv := let k := isub H (iZ 2652) in
  iadd (imul (iQ 0.00012809002730136) (ipown k 2)) (iadd (imul (iQ (Qmake (-2104489824957) 12500000000000000)) k) (iQ (Qmake 14143166289571567 3125000000000000))).
(** ... and not on the other side of the line between 2b and 2c *)
Definition other2 (k : nat) (P H : itv) : bool :=
  match k with 0%nat => false | 1%nat => ipos (isub P (bcV H)) | _ => ineg (isub P (bcV H)) end.
Definition size2 (n k : nat) : Z -> Z -> Z -> Z -> option PrimFloat.float :=
  let E := err2 n k in
  fun l u l' u' => let P := iv l u in if out2 P u' then None else let (H, e) := E P (iv l' u') in if other2 k P H then None else Some (mag e).
Definition check_b2 (n k : nat) (e : Q) : Z -> Z -> Z -> Z -> bool :=
  let E := err2 n k in let e := iQ e in
  fun l u l' u' => let P := iv l u in
  if (286261248 <=? l')%Z then
    if out2 P u' then true else let (H, d) := E P (iv l' u') in if other2 k P H then true else within0 d e
  else false.
Definition part2 (k : nat) (p h : R) : Prop := match k with 0%nat => True | 1%nat => p <= bc h | _ => bc h <= p end.
Lemma bcV_ok H h : inc H h -> inc (bcV H) (bc h).
Proof.
  intros K. unfold bcV. cbv zeta. replace (bc h) with (Q2R 0.00012809002730136 * (h - 2652) ^ 2 + (Q2R (Qmake (-2104489824957) 12500000000000000) * (h - 2652) + Q2R (Qmake 14143166289571567 3125000000000000))).
  - assert (X : inc (isub H (iZ 2652)) (h - 2652)) by (apply inc_sub; [exact K | apply inc_Z]).
    apply inc_add; [apply inc_mul; [apply inc_Q | exact (inc_2 _ _ X)]|]. apply inc_add; [|apply inc_Q]. apply inc_mul; [apply inc_Q | exact X].
  - unfold bc, Q2R; cbn [Qnum Qden]. ring_simplify. lra.
Qed.
Lemma out2_ok P l' u' p t : out2 P u' = true -> inc P p -> gr l' <= t <= gr u' -> 273 <= t -> in2 p t -> False.
Proof.
  intros O HP Ht T0 [A B]. unfold out2 in O. destruct (u' <=? 653409648)%Z eqn:U.
  - apply gr_le in U. change (gr 653409648) with (IZR 653409648 / IZR G) in U. unfold G in U.
    assert (I : inc (psu u') (p4R (gr u'))) by (apply inc_ps; [lra | apply inc_gr]).
    assert (K := ipos_ok _ _ O (inc_sub _ _ _ _ HP I)).
    assert (L := p4_le t (gr u') ltac:(lra) ltac:(lra) ltac:(lra)). specialize (A ltac:(lra)). lra.
  - assert (U' : gr 653409648 < gr u').
    { apply Z.leb_gt in U. unfold gr. apply Rmult_lt_compat_r; [apply Rinv_0_lt_compat; unfold G; lra | now apply IZR_lt]. }
    change (gr 653409648) with (IZR 653409648 / IZR G) in U'. unfold G in U'.
    assert (K := ipos_ok _ _ O (inc_sub _ _ _ _ HP (inc_add _ _ _ _ (inc_p23u u') (inc_Q 0.01)))).
    replace (Q2R 0.01) with 0.01 in K by (unfold Q2R; cbn; lra).
    assert (Q := p23_le (gr 653409648) (gr u')). change (gr 653409648) with (IZR 653409648 / IZR G) in Q. unfold G in Q. specialize (Q ltac:(lra) ltac:(lra)).
    destruct (Rle_or_lt 623.14 t) as [L|L].
    + specialize (B L). assert (Q' := p23_le t (gr u') ltac:(lra) ltac:(lra)). lra.
    + specialize (A ltac:(lra)). assert (X := p4_le t 623.15 ltac:(lra) ltac:(lra) ltac:(lra)).
      assert (p4R 623.15 < 16.5292) by (unfold p4R, be, qA, qB, qC, th; interval with (i_prec 80)).
      assert (16.52 < p23R (653409648 / 1048576)) by (unfold p23R; lra). 
      assert (16.5279 < p23R (653409648 / 1048576)) by (unfold p23R; lra). lra.
Qed.
Lemma other2_ok k P H p h : other2 k P H = true -> inc P p -> inc H h -> part2 k p h -> False.
Proof.
  intros O HP HH Q. assert (X := inc_sub _ _ _ _ HP (bcV_ok _ _ HH)). destruct k as [|[|k]]; cbn [other2 part2] in O, Q; [discriminate | |].
  - assert (K := ipos_ok _ _ O X). lra.
  - assert (K := ineg_ok _ _ O X). lra.
Qed.
Lemma check_b2_ok n k e l u l' u' : check_b2 n k e l u l' u' = true ->
  forall p t, gr l <= p <= gr u -> gr l' <= t <= gr u' -> in2 p t -> part2 k p (h2R p t) -> Rabs (E2 k p (h2R p t) - t) <= Q2R e.
Proof.
  intros C p t Hp Ht I Q. unfold check_b2 in C. cbv zeta in C. destruct (286261248 <=? l')%Z eqn:L; [|discriminate].
  apply gr_le in L. change (gr 286261248) with (IZR 286261248 / IZR G) in L. unfold G in L.
  assert (HT := inc_iv l' u' t Ht). assert (HP := inc_iv l u p Hp).
  destruct (out2 _ _) eqn:N in C; [exfalso; apply (out2_ok _ _ _ _ _ N HP Ht); [lra | exact I]|].
  assert (K := err2_ok n k (iv l u) (iv l' u') p t ltac:(lra) HP HT). destruct (err2 n k (iv l u) (iv l' u')) as [H d]. cbn [fst snd] in K.
  destruct (other2 k _ H) eqn:O; [exfalso; apply (other2_ok _ _ _ _ _ O HP (proj1 K) Q)|].
  apply (within0_ok _ _ _ _ C); [exact (proj2 K) | apply inc_Q].
Qed.
(** the search halves the pressure range until its ends differ by a factor of 2 at most *)
Fixpoint halve (n : nat) (s : Z -> Z -> Z -> Z -> tree) (l u l' u' : Z) : tree :=
  match n with
  | O => s l u l' u'
  | S n => if (2 * l <? u)%Z then let m := ((l + u) / 2)%Z in Sa (halve n s l m l' u') (halve n s m u l' u') else s l u l' u'
  end.
Definition hunt2 (n k : nat) : Z -> Z -> Z -> Z -> tree := halve 20 (search 40 (size2 n k) (0x1.98p-5)%float).
Definition tree2a : tree := Eval vm_compute in hunt2 6 0 641 4194304 286366105 1125332746.
Definition tree2b : tree := Eval vm_compute in hunt2 4 1 4194304 104857600 545259520 1125332746.
Definition tree2c : tree := Eval vm_compute in hunt2 4 2 4194304 104857600 545259520 1125332746.
Lemma covered2h_a : cover (check_b2 6 0 0.05) tree2a 641 4194304 286366105 1125332746 = true.
Proof. vm_compute. reflexivity. Qed.
Lemma covered2h_b : cover (check_b2 4 1 0.05) tree2b 4194304 104857600 545259520 1125332746 = true.
Proof. vm_compute. reflexivity. Qed.
Lemma covered2h_c : cover (check_b2 4 2 0.05) tree2c 4194304 104857600 545259520 1125332746 = true.
Proof. vm_compute. reflexivity. Qed.
Lemma b2_all n k e tr l u l' u' p t : cover (check_b2 n k e) tr l u l' u' = true ->
  gr l <= p <= gr u -> gr l' <= t <= gr u' -> in2 p t -> part2 k p (h2R p t) -> Rabs (E2 k p (h2R p t) - t) <= Q2R e.
Proof.
  intros C. apply (cover_ok (fun p t => in2 p t -> part2 k p (h2R p t) -> Rabs (E2 k p (h2R p t) - t) <= Q2R e) (check_b2 n k e)) with tr; [|exact C].
  intros. eapply check_b2_ok; eauto.
Qed.
Lemma sat_520 : p4R 520 < 4. Proof. unfold p4R, be, qA, qB, qC, th. interval. Qed.
Theorem back2 p t : 0.000611657 <= p <= 100 -> 273.15 <= t <= 1073.15 -> in2 p t ->
  exists T, T2_ph (Fin p) (Fin (h2R p t)) = Ok (Fin T) /\ Rabs (T - t) <= 0.05.
Proof.
  intros Hp Ht I. destruct (Rlt_or_le p 4) as [L|L].
  - eexists. split; [now apply T2a_ph_closed|].
    apply (b2_all 6 0 0.05%Q tree2a _ _ _ _ p t covered2h_a); [unfold gr, G; lra | unfold gr, G; lra | exact I | easy].
  - assert (T0 : 520 <= t).
    { apply Rnot_lt_le. intros K. pose proof (proj1 I ltac:(lra)). pose proof (p4_le t 520 ltac:(lra) ltac:(lra) ltac:(lra)). pose proof sat_520. lra. }
    destruct (Rlt_or_le p (bc (h2R p t))) as [K|K].
    + eexists. split; [apply T2b_ph_closed; lra|].
      apply (b2_all 4 1 0.05%Q tree2b _ _ _ _ p t covered2h_b); [unfold gr, G; lra | unfold gr, G; lra | exact I | cbn [part2]; lra].
    + eexists. split; [apply T2c_ph_closed; lra|].
      apply (b2_all 4 2 0.05%Q tree2c _ _ _ _ p t covered2h_c); [unfold gr, G; lra | unfold gr, G; lra | exact I | cbn [part2]; lra].
Qed.
