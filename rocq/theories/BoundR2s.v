(** Region 2: T2_ps undoes the entropy equation, by enclosure of the composition. *)
From Coq Require Import PrimFloat ZArith QArith Reals Lra Lia List Bool.
From Interval Require Import Tactic.
From Verif Require Import Py ModRegion2 ExactReal RealSum ProofEos ProofThermo ProofSat Bound BoundEos BoundSat BoundF BoundT BoundC BoundU ProofBack ProofBackS BoundR1 Bound2 BoundX BoundR2 BoundR3.
Import ListNotations.
Open Scope R_scope.

(** ** Functions of the pressure alone as polynomials of two variables *)
Definition up (P : poly) : poly2 := map (fun c => [c]) P.
Lemma up_ok u v P y : pol u P y -> pol2 u v (up P) y.
Proof. intros H. induction H as [|C c P y HC H IH]; cbn [up map]; [constructor | constructor; [now apply pol_const | exact IH]]. Qed.

(** ** Entropy *)
Definition s2P (n : nat) (x : box) (M : list (list itv)) : poly2 := let t0 := tau0 x in let o := fun j => [S1v (S n) j (itab1 tab2o) (tauX x) t0 (idiv (iZ 1) t0)] in
  qcut (Ux x) (Vx x) n (qscal Rw (qadd (qmul (Ux x) (Vx x) (S n) [[t0; iZ 1]] (qadd (o 1%nat) (sub2 0 1 M)))
    (qscal (iZ (-1)) (qadd (qadd (up (uln (Ux x) n [bA0 x; iZ 1])) (o 0%nat)) (sub2 0 0 M))))).
Definition root4 (n : nat) (x : box) : poly2 := up (usqrt (Ux x) n (usqrt (Ux x) n [bA0 x; iZ 1])).
Section Polys_ok.
Variables (n : nat) (x : box) (p t a0 b0 : R).
Hypothesis (Ht : 0 < t) (H : boxed x a0 p b0 (b2 t)).
Let u := p - a0.
Let v := b2 t - b0.
Let M := matrix (S n) x (grp tab2) [].
Lemma pU_ok : pol u [bA0 x; iZ 1] p.
Proof. eapply pol_eq; [constructor; [exact (in_A0 _ _ _ _ _ H) | apply pol_const, inc_Z]|]. unfold u. ring. Qed.
Lemma root4_ok : pol2 u v (root4 n x) (R_sqrt.sqrt (R_sqrt.sqrt p)).
Proof. assert (HU := Ux2_ok x p t a0 b0 H). apply up_ok. apply usqrt_ok; [exact HU|]. apply usqrt_ok; [exact HU|]. exact pU_ok. Qed.
Lemma s2P_ok : pol2 u v (s2P n x M) (s2R p t).
Proof.
  assert (HU := Ux2_ok x p t a0 b0 H). assert (HV := Vx2_ok x p t a0 b0 H). pose proof (pos_b0 _ _ _ _ _ H). assert (T0 := tau0_ok x p t a0 b0 H).
  assert (O : forall j, (j <= S n)%nat -> pol2 u v [S1v (S n) j (itab1 tab2o) (tauX x) (tau0 x) (idiv (iZ 1) (tau0 x))] (o2 j t)).
  { intros j Hj. apply pol2_const. unfold v, o2. rewrite (tau_v t b0).
    apply S1v_ok; [exact Hj | lra | apply Rdiv_lt_0_compat; lra | exact T0 | | exact (tauX0_ok x p t a0 b0 H) | exact (tauX_ok x p t a0 b0 H)].
    apply inc_div; [apply inc_Z | exact T0 | lra]. }
  apply qcut_ok; [exact HU | exact HV|]. unfold s2R. apply qscal_ok; [unfold Rw; enc|]. unfold Rminus. apply qadd_ok.
  - apply qmul_ok; [exact HU | exact HV | |].
    + apply pol2_const. eapply pol_eq; [constructor; [exact T0 | apply pol_const, inc_Z]|]. unfold v. rewrite (tau_v t b0). ring.
    + apply qadd_ok; [apply O; lia | unfold g2; apply tay_ok; [exact H | lia | lia]].
  - eapply pol2_eq; [apply qscal_ok; [apply inc_Z|]; apply qadd_ok; [apply qadd_ok|]|].
    + apply up_ok. apply uln_ok; [exact HU | exact pU_ok].
    + apply O; lia.
    + unfold g2. apply tay_ok; [exact H | lia | lia].
    + unfold g2. ring.
Qed.
End Polys_ok.

(** ** The quarter powers of region 2a *)
Definition quarters : list Z := [-6; -6; -6; -6; -6; -6; -5; -5; -5; -4; -4; -4; -4; -4; -4; -3; -3; -2; -2; -2; -2; -1; -1; -1; -1; 1; 1; 1; 1; 2; 2; 2; 2; 2; 2; 2; 3; 3; 3; 3; 4; 4; 5; 5; 6; 6]%Z.
Definition tabT2aq : etab := combine T2_ps_ni (combine quarters T2_ps_Ji).
Lemma quarters_ok : Forall2 (fun x y => fst x = fst y /\ snd (snd x) = snd (snd y) /\ D (fst (snd x)) = IZR (fst (snd y)) / 4) tabT2as tabT2aq.
Proof. unfold tabT2as, tabT2aq, T2_ps_ni, T2_ps_Ii, T2_ps_Ji, quarters. cbn [combine]. repeat (constructor; [split; [reflexivity | split; [reflexivity | cbn [fst snd]; unfold D, Q2R; cbn; lra]]|]). constructor. Qed.
Lemma quarter_power p k : 0 < p -> Rpower p (IZR k / 4) = powerRZ (R_sqrt.sqrt (R_sqrt.sqrt p)) k.
Proof.
  intros H. assert (H2 := sqrt_lt_R0 _ H). assert (H4 := sqrt_lt_R0 _ H2). rewrite powerRZ_Rpower by exact H4.
  rewrite <- (Rpower_sqrt (R_sqrt.sqrt p)), <- (Rpower_sqrt p), !Rpower_mult by assumption. f_equal. lra.
Qed.
Lemma T2as_sum p s : 0 < p -> T2as p s = S2 tabT2aq 0 0 (R_sqrt.sqrt (R_sqrt.sqrt p)) (s / 2 - 2).
Proof.
  intros H. unfold T2as, S2. induction quarters_ok as [|x y l l' (A & B & C) _ IH]; [reflexivity|]. cbn [rsum]. rewrite IH. f_equal.
  unfold tm. cbn [ff Z.of_nat]. rewrite A, B, C, !Z.sub_0_r, quarter_power by exact H. ring.
Qed.

(** ** Region 2c: powers of 2 - s / 2.9251, which is next to nothing at the border to 2b *)
Definition sel (j : Z) : etab -> etab := filter (fun x => (snd (snd x) =? j)%Z).
Lemma by_powers tab x y : forallb (fun e => (0 <=? snd (snd e)) && (snd (snd e) <? 6))%Z tab = true -> S2 tab 0 0 x y =
  S2 (sel 0 tab) 0 0 x 1 + y * (S2 (sel 1 tab) 0 0 x 1 + y * (S2 (sel 2 tab) 0 0 x 1 + y * (S2 (sel 3 tab) 0 0 x 1 + y * (S2 (sel 4 tab) 0 0 x 1 + y * S2 (sel 5 tab) 0 0 x 1)))).
Proof.
  induction tab as [|[d [i j]] tab IH]; intros H; [unfold S2, sel; cbn [filter rsum]; ring|].
  cbn [forallb fst snd] in H. apply andb_prop in H. destruct H as [Hj H]. specialize (IH H).
  assert (C : forall t, S2 ((d, (i, j)) :: t) 0 0 x y = D d * powerRZ x i * powerRZ y j + S2 t 0 0 x y).
  { intros t. unfold S2. cbn [rsum]. unfold tm. cbn [fst snd ff]. change (Z.of_nat 0) with 0%Z. rewrite !Z.sub_0_r. ring. }
  assert (C1 : forall t, S2 ((d, (i, j)) :: t) 0 0 x 1 = D d * powerRZ x i + S2 t 0 0 x 1).
  { intros t. unfold S2. cbn [rsum]. unfold tm. cbn [fst snd ff]. change (Z.of_nat 0) with 0%Z. rewrite !Z.sub_0_r, powerRZ_R1. ring. }
  rewrite C, IH. unfold sel. cbn [filter fst snd].
  assert (j = 0 \/ j = 1 \/ j = 2 \/ j = 3 \/ j = 4 \/ j = 5)%Z as K by (apply andb_prop in Hj; destruct Hj as [P Q]; apply Z.leb_le in P; apply Z.ltb_lt in Q; lia).
  destruct K as [K|[K|[K|[K|[K|K]]]]]; subst j; cbn [Z.eqb Pos.eqb]; rewrite C1; fold (sel 0 tab) (sel 1 tab) (sel 2 tab) (sel 3 tab) (sel 4 tab) (sel 5 tab);
  cbn [powerRZ]; unfold Pos.to_nat; cbn [Pos.iter_op Nat.add pow]; ring.
Qed.
Definition sumc (U V : itv) (n : nat) (f : list gtab) (X Y : poly2) : poly2 :=
  fold_right (fun g q => qadd (sum2 U V n g X [[iZ 1]]) (qmul U V n Y q)) [] f.
Definition tabsc : list gtab := map (fun j => grp (prep false false (sel j tabT2cs))) [0; 1; 2; 3; 4; 5]%Z.
Lemma sumc_ok U V u v n X Y x y : inc U u -> inc V v -> pol2 u v X x -> pol2 u v Y y -> pol2 u v (sumc U V n tabsc X Y) (S2 tabT2cs 0 0 x y).
Proof.
  intros HU HV HX HY. assert (K1 : pol2 u v [[iZ 1]] 1) by apply pol2_const, pol_const, inc_Z.
  eapply pol2_eq; [unfold sumc, tabsc; cbn [map fold_right]|].
  - repeat (apply qadd_ok; [apply sum2_ok; [exact HU | exact HV | exact HX | exact K1] | apply qmul_ok; [exact HU | exact HV | exact HY |]]). constructor.
  - rewrite (by_powers tabT2cs x y) by reflexivity. rewrite (Rmult_0_r y), Rplus_0_r. reflexivity.
Qed.

(** ** The error of the three equations over a box, with the entropy *)
Definition err2s (n k : nat) : itv -> itv -> itv * itv :=
  let g := grp tab2 in
  let f := grp (prep false false (match k with 0%nat => tabT2aq | _ => tabT2bs end)) in let fc := tabsc in
  fun P T =>
  let x := mk P (b2I T) in
  if good x then
    let U := Ux x in let V := Vx x in
    let s := s2P n x (matrix (S n) x g []) in let b := qbound U V in
    let X := match k with 0%nat => root4 n x | _ => p2P x end in
    let Y := match k with 0%nat => lin (iZ (-2)) (iQ 0.5) s | 1%nat => lin (iZ 10) (iQ (Qmake (-10000) 7853)) s | _ => lin (iZ 2) (iQ (Qmake (-10000) 29251)) s end in
    (b s, b (qadd (match k with 0%nat | 1%nat => sum2 U V n f X Y | _ => sumc U V n fc X Y end) (qscal (iZ (-1)) (T2P n x))))
  else (I.nai, I.nai).
Definition E2s (k : nat) (p s : R) : R := match k with 0%nat => S2 tabT2aq 0 0 (R_sqrt.sqrt (R_sqrt.sqrt p)) (s / 2 - 2)
  | 1%nat => S2 tabT2bs 0 0 p (10 - s / 0.7853) | _ => S2 tabT2cs 0 0 p (2 - s / 2.9251) end.
Lemma err2s_ok n k P T p t : 0 < t -> inc P p -> inc T t ->
  inc (fst (err2s n k P T)) (s2R p t) /\ inc (snd (err2s n k P T)) (E2s k p (s2R p t) - t).
Proof.
  intros Ht HP HT. unfold err2s. destruct (good (mk P (b2I T))) eqn:G; [|split; apply inc_nai].
  destruct (good_boxed _ _ _ _ G HP (inc_b2 _ _ Ht HT)) as (a0 & b0 & B).
  set (x := mk P (b2I T)) in *. cbv zeta. cbn [fst snd].
  assert (HU := Ux2_ok x p t a0 b0 B). assert (HV := Vx2_ok x p t a0 b0 B).
  assert (Hs := s2P_ok n x p t a0 b0 Ht B). assert (Hp := p2P_ok x p t a0 b0 B). assert (HTt := T2P_ok n x p t a0 b0 Ht B).
  assert (Hn : pol2 (p - a0) (b2 t - b0) (qscal (iZ (-1)) (T2P n x)) (- t)).
  { eapply pol2_eq; [apply qscal_ok; [apply inc_Z | exact HTt]|]. ring. }
  revert Hs. generalize (s2P n x (matrix (S n) x (grp tab2) [])) as sP. intros sP Hs. split.
  { now apply qbound_ok with (p - a0) (b2 t - b0). }
  apply qbound_ok with (p - a0) (b2 t - b0); [exact HU | exact HV|]. unfold Rminus at 3. apply qadd_ok; [|exact Hn].
  assert (Y : forall c q, pol2 (p - a0) (b2 t - b0) (lin (iZ c) (iQ q) sP) (IZR c + Q2R q * s2R p t)).
  { intros c q. apply lin_ok; [apply inc_Z | apply inc_Q | exact Hs]. }
  destruct k as [|[|k]]; cbn [E2s].
  - apply sum2_ok; [exact HU | exact HV | exact (root4_ok n x p t a0 b0 B)|]. eapply pol2_eq; [apply Y|]. unfold Q2R; cbn [Qnum Qden]. lra.
  - apply sum2_ok; [exact HU | exact HV | exact Hp|]. eapply pol2_eq; [apply Y|]. unfold Q2R; cbn [Qnum Qden]. lra.
  - apply sumc_ok; [exact HU | exact HV | exact Hp|]. eapply pol2_eq; [apply Y|]. unfold Q2R; cbn [Qnum Qden]. lra.
Qed.

(** ** All of region 2 *)
Definition other2s (k : nat) (S : itv) : bool :=
  match k with 0%nat => false | 1%nat => ineg (isub S (iQ 5.85)) | _ => ipos (isub S (iQ 5.85)) end.
Definition part2s (k : nat) (s : R) : Prop := match k with 0%nat => True | 1%nat => 5.85 <= s | _ => s <= 5.85 end.
Definition size2s (n k : nat) : Z -> Z -> Z -> Z -> option PrimFloat.float :=
  let E := err2s n k in
  fun l u l' u' => let P := iv l u in if out2 P u' then None else let (S, e) := E P (iv l' u') in if other2s k S then None else Some (mag e).
Definition check_b2s (n k : nat) (e : Q) : Z -> Z -> Z -> Z -> bool :=
  let E := err2s n k in let e := iQ e in
  fun l u l' u' => let P := iv l u in
  if (286261248 <=? l')%Z then
    if out2 P u' then true else let (S, d) := E P (iv l' u') in if other2s k S then true else if within0 d e then ipos (isub S (iZ 4)) else false
  else false.
Lemma other2s_ok k S s : other2s k S = true -> inc S s -> part2s k s -> False.
Proof.
  intros O HS Q. assert (X := inc_sub _ _ _ _ HS (inc_Q 5.85)). assert (V : Q2R 5.85 = 5.85) by (unfold Q2R; cbn; lra).
  destruct k as [|[|k]]; cbn [other2s part2s] in O, Q; [discriminate | |].
  - assert (K := ineg_ok _ _ O X). lra.
  - assert (K := ipos_ok _ _ O X). lra.
Qed.
Lemma check_b2s_ok n k e l u l' u' : check_b2s n k e l u l' u' = true ->
  forall p t, gr l <= p <= gr u -> gr l' <= t <= gr u' -> in2 p t -> part2s k (s2R p t) -> 4 < s2R p t /\ Rabs (E2s k p (s2R p t) - t) <= Q2R e.
Proof.
  intros C p t Hp Ht I Q. unfold check_b2s in C. cbv zeta in C. destruct (286261248 <=? l')%Z eqn:L; [|discriminate].
  apply gr_le in L. change (gr 286261248) with (IZR 286261248 / IZR G) in L. unfold G in L.
  assert (HT := inc_iv l' u' t Ht). assert (HP := inc_iv l u p Hp).
  destruct (out2 _ _) eqn:N in C; [exfalso; apply (out2_ok _ _ _ _ _ N HP Ht); [lra | exact I]|].
  assert (K := err2s_ok n k (iv l u) (iv l' u') p t ltac:(lra) HP HT). destruct (err2s n k (iv l u) (iv l' u')) as [S d]. cbn [fst snd] in K.
  destruct (other2s k S) eqn:O; [exfalso; apply (other2s_ok _ _ _ O (proj1 K) Q)|].
  destruct (within0 d (iQ e)) eqn:W in C; [|discriminate]. split.
  - assert (X := ipos_ok _ _ C (inc_sub _ _ _ _ (proj1 K) (inc_Z 4))). lra.
  - apply (within0_ok _ _ _ _ W); [exact (proj2 K) | apply inc_Q].
Qed.
Definition hunt2s (n k : nat) : Z -> Z -> Z -> Z -> tree := halve 20 (search 40 (size2s n k) (0x1.98p-5)%float).
Definition tree2as : tree := Eval vm_compute in hunt2s 8 0 641 4194304 286366105 1125332746.
Definition tree2bs : tree := Eval vm_compute in hunt2s 5 1 4194304 104857600 545259520 1125332746.
Definition tree2cs : tree := Eval vm_compute in hunt2s 5 2 4194304 104857600 545259520 1125332746.
Lemma covered2s_a : cover (check_b2s 8 0 0.05) tree2as 641 4194304 286366105 1125332746 = true.
Proof. vm_compute. reflexivity. Qed.
Lemma covered2s_b : cover (check_b2s 5 1 0.05) tree2bs 4194304 104857600 545259520 1125332746 = true.
Proof. vm_compute. reflexivity. Qed.
Lemma covered2s_c : cover (check_b2s 5 2 0.05) tree2cs 4194304 104857600 545259520 1125332746 = true.
Proof. vm_compute. reflexivity. Qed.
Lemma b2s_all n k e tr l u l' u' p t : cover (check_b2s n k e) tr l u l' u' = true ->
  gr l <= p <= gr u -> gr l' <= t <= gr u' -> in2 p t -> part2s k (s2R p t) -> 4 < s2R p t /\ Rabs (E2s k p (s2R p t) - t) <= Q2R e.
Proof.
  intros C. apply (cover_ok (fun p t => in2 p t -> part2s k (s2R p t) -> 4 < s2R p t /\ Rabs (E2s k p (s2R p t) - t) <= Q2R e) (check_b2s n k e)) with tr; [|exact C].
  intros. eapply check_b2s_ok; eauto.
Qed.
Theorem back2s_above p t : 0.000611657 <= p <= 100 -> 273.15 <= t <= 1073.15 -> in2 p t -> 4 < s2R p t /\
  exists T, T2_ps (Fin p) (Fin (s2R p t)) = Ok (Fin T) /\ Rabs (T - t) <= 0.05.
Proof.
  intros Hp Ht I. destruct (Rlt_or_le p 4) as [L|L].
  - destruct (b2s_all 8 0 0.05%Q tree2as _ _ _ _ p t covered2s_a) as [A B]; [unfold gr, G; lra | unfold gr, G; lra | exact I | easy|].
    split; [exact A|]. eexists. split; [apply T2a_ps_closed; lra|]. rewrite T2as_sum by lra. exact B.
  - assert (T0 : 520 <= t).
    { apply Rnot_lt_le. intros K. pose proof (proj1 I ltac:(lra)). pose proof (p4_le t 520 ltac:(lra) ltac:(lra) ltac:(lra)). pose proof sat_520. lra. }
    destruct (Rlt_or_le (s2R p t) 5.85) as [K|K].
    + destruct (b2s_all 5 2 0.05%Q tree2cs _ _ _ _ p t covered2s_c) as [A B]; [unfold gr, G; lra | unfold gr, G; lra | exact I | cbn [part2s]; lra|].
      split; [exact A|]. eexists. split; [apply T2c_ps_closed; lra | exact B].
    + destruct (b2s_all 5 1 0.05%Q tree2bs _ _ _ _ p t covered2s_b) as [A B]; [unfold gr, G; lra | unfold gr, G; lra | exact I | exact K|].
      split; [exact A|]. eexists. split; [apply T2b_ps_closed; lra | exact B].
Qed.
Definition above2s p t Hp Ht I := proj1 (back2s_above p t Hp Ht I).
Definition back2s p t Hp Ht I := proj2 (back2s_above p t Hp Ht I).
