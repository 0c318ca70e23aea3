(** Region 1: the backward equations undo the forward ones, by enclosure of the compositions. *)
From Coq Require Import PrimFloat ZArith QArith Reals Lra Lia List Bool.
From Interval Require Import Tactic.
From Verif Require Import Py ExactReal RealSum ProofEos ProofThermo ProofSat Bound BoundEos BoundSat BoundF BoundT BoundC ProofBack ProofBackS.
Import ListNotations.
Open Scope R_scope.

(** |x| < e *)
Definition within0 (X E : itv) : bool := ipos (iadd E X) && ipos (isub E X).
Lemma within0_ok X E x e : within0 X E = true -> inc X x -> inc E e -> Rabs x <= e.
Proof.
  unfold within0. rewrite andb_true_iff. intros [H K] HX HE.
  assert (A := ipos_ok _ _ H (inc_add _ _ _ _ HE HX)). assert (B := ipos_ok _ _ K (inc_sub _ _ _ _ HE HX)).
  apply Rabs_le. lra.
Qed.
Definition lin (C : itv) (K : itv) (X : poly2) : poly2 := qadd [[C]] (qscal K X).
Lemma lin_ok u v C K X c k x : inc C c -> inc K k -> pol2 u v X x -> pol2 u v (lin C K X) (c + k * x).
Proof. intros HC HK HX. apply qadd_ok; [apply pol2_const, pol_const, HC|]. now apply qscal_ok. Qed.

Section Polys.
Variables (n : nat) (x : box).
Definition Ux := isub (bA x) (bA0 x).
Definition Vx := isub (bB x) (bB0 x).
Definition p1P : poly2 := [[imul (iQ 16.53) (isub (iQ 7.1) (bA0 x))]; [iopp (iQ 16.53)]].
Definition tau1P : poly2 := [[iadd (bB0 x) (iQ 1.222); iZ 1]].
Definition T1P : poly2 :=
  let t0 := iadd (bB0 x) (iQ 1.222) in
  [pscal (iZ 1386) (pnorm 1 1 (vec n (iadd (bB x) (iQ 1.222)) t0 (idiv (iZ 1) t0) (-1)))].
Variable M : list (list itv).
Definition h1P : poly2 := qcut Ux Vx n (qscal (imul Rw (iZ 1386)) (sub2 0 1 M)).
Definition s1P : poly2 := qcut Ux Vx n (qscal Rw (qadd (qmul Ux Vx (S n) tau1P (sub2 0 1 M)) (qscal (iZ (-1)) (sub2 0 0 M)))).
End Polys.

Section Polys_ok.
Variables (n : nat) (x : box) (p t a0 b0 : R).
Hypothesis (Ht : 0 < t) (H : boxed x a0 (a1 p) b0 (b1 t)).
Let u := a1 p - a0.
Let v := b1 t - b0.
Let M := matrix (S n) x (grp tab1) [].
Lemma Ux_ok : inc (Ux x) u.
Proof. destruct H. now apply inc_sub. Qed.
Lemma Vx_ok : inc (Vx x) v.
Proof. destruct H. now apply inc_sub. Qed.
Lemma p1P_ok : pol2 u v (p1P x) p.
Proof.
  eapply pol2_eq; [constructor; [apply pol_const | apply pol2_const, pol_const, inc_opp, inc_Q]|].
  - apply inc_mul; [apply inc_Q|]. apply inc_sub; [apply inc_Q | exact (in_A0 _ _ _ _ _ H)].
  - unfold u, a1, Q2R; cbn [Qnum Qden]. field.
Qed.
Lemma t0_ok : inc (iadd (bB0 x) (iQ 1.222)) (b0 + 1.222).
Proof. apply inc_add; [exact (in_B0 _ _ _ _ _ H)|]. assert (K := inc_Q 1.222). replace 1.222 with (Q2R 1.222) at 2 by (unfold Q2R; cbn; lra). exact K. Qed.
Lemma tau1P_ok : pol2 u v (tau1P x) (1386 / t).
Proof.
  apply pol2_const. eapply pol_eq; [constructor; [apply t0_ok | apply pol_const, inc_Z]|]. unfold v, b1. ring.
Qed.
Lemma T1P_ok : pol2 u v (T1P n x) t.
Proof.
  apply pol2_const. eapply pol_eq; [apply pscal_ok; [apply inc_Z|]|].
  - replace v with (1386 / t - (b0 + 1.222)) by (unfold v, b1; ring).
    assert (Q := inc_Q 1.222). replace (Q2R 1.222) with 1.222 in Q by (unfold Q2R; cbn; lra).
    pose proof (pos_b0 _ _ _ _ _ H).
    apply (vec_pol n (iadd (bB x) (iQ 1.222)) _ _ (-1)).
    + lra.
    + apply Rdiv_lt_0_compat; lra.
    + apply t0_ok.
    + apply inc_div; [apply inc_Z | apply t0_ok | lra].
    + apply inc_add; [exact (in_B' _ _ _ _ _ H) | exact Q].
    + replace (1386 / t) with (b1 t + 1.222) by (unfold b1; ring). apply inc_add; [exact (in_B _ _ _ _ _ H) | exact Q].
  - cbn [powerRZ]. change (Pos.to_nat 1) with 1%nat. field. lra.
Qed.
Lemma h1P_ok : pol2 u v (h1P n x M) (h1R p t).
Proof.
  apply qcut_ok; [exact Ux_ok | exact Vx_ok|]. unfold h1R, g1. apply qscal_ok.
  - unfold Rw. enc.
  - apply tay_ok; [exact H | lia | lia].
Qed.
Lemma s1P_ok : pol2 u v (s1P n x M) (s1R p t).
Proof.
  apply qcut_ok; [exact Ux_ok | exact Vx_ok|]. unfold s1R, g1. apply qscal_ok; [unfold Rw; enc|].
  unfold Rminus. replace (- S2 tab1 0 0 (a1 p) (b1 t)) with (-1 * S2 tab1 0 0 (a1 p) (b1 t)) by ring.
  apply qadd_ok.
  - apply qmul_ok; [exact Ux_ok | exact Vx_ok | apply tau1P_ok | apply tay_ok; [exact H | lia | lia]].
  - apply qscal_ok; [apply inc_Z | apply tay_ok; [exact H | lia | lia]].
Qed.
End Polys_ok.

(** ** The three errors over a box *)
Definition err1 (n : nat) : itv -> itv -> nat -> itv :=
  let g := grp tab1 in
  let fh := grp (prep false false tabT1h) in
  let fs := grp (prep false false tabT1s) in
  let fp := grp (prep false false tabp1hs) in
  fun P T =>
  let x := mk (a1I P) (b1I T) in
  if good x then
    let U := Ux x in let V := Vx x in let M := matrix (S n) x g [] in
    let h := h1P n x M in let s := s1P n x M in let p := p1P x in let t := qscal (iZ (-1)) (T1P n x) in
    let yh := lin (iZ 1) (iQ (Qmake 1 2500)) h in
    let ys := lin (iZ 2) (iZ 1) s in
    let xp := lin (iQ 0.05) (iQ (Qmake 1 3400)) h in
    let yp := lin (iQ 0.05) (iQ (Qmake 10 76)) s in
    let b := qbound U V in
    fun k => match k with
    | 0%nat => b (qadd (compose U V n fh P (b yh) p yh) t)
    | 1%nat => b (qadd (compose U V n fs P (b ys) p ys) t)
    | _ => b (qadd (qscal (iZ 100) (compose U V n fp (b xp) (b yp) xp yp)) (qscal (iZ (-1)) p))
    end
  else fun _ => I.nai.
Definition T1h p h := S2 tabT1h 0 0 p (h / 2500 + 1).
Definition T1s p s := S2 tabT1s 0 0 p (s + 2).
Definition p1hs h s := S2 tabp1hs 0 0 (h / 3400 + 0.05) (s / 7.6 + 0.05) * 100.
Lemma err1_ok n P T p t : 0 < t -> inc P p -> inc T t ->
  let e := err1 n P T in
  inc (e 0%nat) (T1h p (h1R p t) - t) /\ inc (e 1%nat) (T1s p (s1R p t) - t) /\
  inc (e 2%nat) (p1hs (h1R p t) (s1R p t) - p).
Proof.
  intros Ht HP HT. cbv zeta. unfold err1. destruct (good (mk (a1I P) (b1I T))) eqn:G; [|repeat split; apply inc_nai].
  destruct (good_boxed _ _ _ _ G (inc_a1 _ _ HP) (inc_b1 _ _ Ht HT)) as (a0 & b0 & B).
  set (x := mk (a1I P) (b1I T)) in *. cbv zeta.
  assert (HU := Ux_ok x p t a0 b0 B). assert (HV := Vx_ok x p t a0 b0 B).
  assert (Hh := h1P_ok n x p t a0 b0 B). assert (Hs := s1P_ok n x p t a0 b0 B).
  assert (Hp := p1P_ok x p t a0 b0 B). assert (HTt := T1P_ok n x p t a0 b0 Ht B).
  assert (Hn : pol2 (a1 p - a0) (b1 t - b0) (qscal (iZ (-1)) (T1P n x)) (- t)).
  { eapply pol2_eq; [apply qscal_ok; [apply inc_Z | exact HTt]|]. ring. }
  assert (Hnp : pol2 (a1 p - a0) (b1 t - b0) (qscal (iZ (-1)) (p1P x)) (- p)).
  { eapply pol2_eq; [apply qscal_ok; [apply inc_Z | exact Hp]|]. ring. }
  revert Hh Hs. generalize (h1P n x (matrix (S n) x (grp tab1) [])) as hP. generalize (s1P n x (matrix (S n) x (grp tab1) [])) as sP.
  intros sP hP Hh Hs.
  assert (Yh : pol2 (a1 p - a0) (b1 t - b0) (lin (iZ 1) (iQ (Qmake 1 2500)) hP) (h1R p t / 2500 + 1)).
  { eapply pol2_eq; [apply lin_ok; [apply inc_Z | apply inc_Q | exact Hh]|]. unfold Q2R; cbn [Qnum Qden]. field. }
  assert (Ys : pol2 (a1 p - a0) (b1 t - b0) (lin (iZ 2) (iZ 1) sP) (s1R p t + 2)).
  { eapply pol2_eq; [apply lin_ok; [apply inc_Z | apply inc_Z | exact Hs]|]. ring. }
  assert (Xp : pol2 (a1 p - a0) (b1 t - b0) (lin (iQ 0.05) (iQ (Qmake 1 3400)) hP) (h1R p t / 3400 + 0.05)).
  { eapply pol2_eq; [apply lin_ok; [apply inc_Q | apply inc_Q | exact Hh]|]. unfold Q2R; cbn [Qnum Qden]. field. }
  assert (Yp : pol2 (a1 p - a0) (b1 t - b0) (lin (iQ 0.05) (iQ (Qmake 10 76)) sP) (s1R p t / 7.6 + 0.05)).
  { eapply pol2_eq; [apply lin_ok; [apply inc_Q | apply inc_Q | exact Hs]|]. unfold Q2R; cbn [Qnum Qden]. field. }
  repeat split.
  - apply qbound_ok with (a1 p - a0) (b1 t - b0); [exact HU | exact HV|]. unfold Rminus. apply qadd_ok; [|exact Hn].
    unfold T1h. rewrite <- (prep_ok false false tabT1h). cbn [sg].
    apply compose_ok; try assumption. now apply qbound_ok with (a1 p - a0) (b1 t - b0).
  - apply qbound_ok with (a1 p - a0) (b1 t - b0); [exact HU | exact HV|]. unfold Rminus. apply qadd_ok; [|exact Hn].
    unfold T1s. rewrite <- (prep_ok false false tabT1s). cbn [sg].
    apply compose_ok; try assumption. now apply qbound_ok with (a1 p - a0) (b1 t - b0).
  - apply qbound_ok with (a1 p - a0) (b1 t - b0); [exact HU | exact HV|]. unfold Rminus. apply qadd_ok; [|exact Hnp].
    unfold p1hs. rewrite Rmult_comm, <- (prep_ok false false tabp1hs). cbn [sg]. apply qscal_ok; [apply inc_Z|].
    apply compose_ok; try assumption; now apply qbound_ok with (a1 p - a0) (b1 t - b0).
Qed.

(** ** All of region 1 *)
(** Clearly below the saturation line there is nothing to check. *)
Definition low1 (P : itv) (l' : Z) : bool := ineg (isub (iadd P (iQ 0.0002)) (psI (idiv (iZ l') (iZ G)))).
Definition size1 (k n : nat) : Z -> Z -> Z -> Z -> option PrimFloat.float :=
  let E := err1 n in
  fun l u l' u' => if low1 (iv l u) l' then None else Some (mag (E (iv l u) (iv l' u') k)).
Definition check_b1 (k n : nat) (e : Q) : Z -> Z -> Z -> Z -> bool :=
  let E := err1 n in let e := iQ e in
  fun l u l' u' =>
  if (286261248 <=? l')%Z && (u' <=? 653430621)%Z then
    if low1 (iv l u) l' then true else within0 (E (iv l u) (iv l' u') k) e
  else false.
Definition E1 (k : nat) (p t : R) : R :=
  match k with
  | 0%nat => T1h p (h1R p t) - t
  | 1%nat => T1s p (s1R p t) - t
  | _ => p1hs (h1R p t) (s1R p t) - p
  end.
Lemma check_b1_ok k n e l u l' u' : (k < 3)%nat -> check_b1 k n e l u l' u' = true ->
  forall p t, gr l <= p <= gr u -> gr l' <= t <= gr u' -> p4R t <= p + 0.0002 -> Rabs (E1 k p t) <= Q2R e.
Proof.
  intros Hk C p t Hp Ht S. unfold check_b1 in C. destruct (286261248 <=? l')%Z eqn:L; [|discriminate].
  destruct (u' <=? 653430621)%Z eqn:U; [|discriminate]. cbn [andb] in C.
  apply gr_le in L. apply gr_le in U.
  change (gr 286261248) with (IZR 286261248 / IZR G) in L. change (gr 653430621) with (IZR 653430621 / IZR G) in U. unfold G in L, U.
  assert (HT := inc_iv l' u' t Ht). assert (HP := inc_iv l u p Hp).
  destruct (low1 _ _) eqn:N in C.
  - exfalso. apply ineg_ok with (x := p + 0.0002 - p4R (gr l')) in N.
    + assert (p4R (gr l') <= p4R t); [|lra]. destruct (proj1 Ht) as [K|K]; [apply Rlt_le, p4_incr; lra | rewrite K; lra].
    + apply inc_sub; [enc|]. apply inc_ps; [lra | apply inc_gr].
  - destruct (err1_ok n (iv l u) (iv l' u') p t ltac:(lra) HP HT) as (A & B & D).
    apply (within0_ok _ _ _ _ C); [|apply inc_Q]. destruct k as [|[|[|k]]]; [exact A | exact B | exact D | lia].
Qed.
Definition tree1h : tree := Eval vm_compute in search 30 (size1 0 5) (0x1.9999p-6)%float 629 104857600 286261248 653430621.
Definition tree1s : tree := Eval vm_compute in search 30 (size1 1 5) (0x1.9999p-6)%float 629 104857600 286261248 653430621.
Definition tree1p : tree := Eval vm_compute in search 30 (size1 2 6) (0x1.eb8p-7)%float 629 104857600 286261248 653430621.
Lemma covered1h : cover (check_b1 0 5 0.025) tree1h 629 104857600 286261248 653430621 = true.
Proof. vm_compute. reflexivity. Qed.
Lemma covered1s : cover (check_b1 1 5 0.025) tree1s 629 104857600 286261248 653430621 = true.
Proof. vm_compute. reflexivity. Qed.
Lemma covered1p : cover (check_b1 2 6 0.015) tree1p 629 104857600 286261248 653430621 = true.
Proof. vm_compute. reflexivity. Qed.
Lemma b1_all k n e tr p t : (k < 3)%nat -> cover (check_b1 k n e) tr 629 104857600 286261248 653430621 = true ->
  273 <= t <= 623.16 -> 0.0006 <= p <= 100 -> p4R t <= p + 0.0002 -> Rabs (E1 k p t) <= Q2R e.
Proof.
  intros Hk C Ht Hp.
  apply (cover_ok (fun p t => p4R t <= p + 0.0002 -> Rabs (E1 k p t) <= Q2R e) (check_b1 k n e)) with tr 629%Z 104857600%Z 286261248%Z 653430621%Z.
  - intros. eapply check_b1_ok; eauto.
  - exact C.
  - unfold gr, G; lra.
  - unfold gr, G; lra.
Qed.
Theorem back1 p t : 273 <= t <= 623.16 -> 0.0006 <= p <= 100 -> p4R t <= p + 0.0002 ->
  Rabs (T1h p (h1R p t) - t) <= 0.025 /\ Rabs (T1s p (s1R p t) - t) <= 0.025 /\
  Rabs (p1hs (h1R p t) (s1R p t) - p) <= 0.015.
Proof.
  intros Ht Hp Hs. replace 0.025 with (Q2R 0.025) by (unfold Q2R; cbn; lra). replace 0.015 with (Q2R 0.015) by (unfold Q2R; cbn; lra).
  split; [|split].
  - apply (b1_all 0 5 _ tree1h); auto using covered1h.
  - apply (b1_all 1 5 _ tree1s); auto using covered1s.
  - apply (b1_all 2 6 _ tree1p); auto using covered1p.
Qed.

(** ** The entropy at 273 K is negative *)
Definition s1_273 (l u : Z) : bool :=
  let x := mk (a1I (iv l u)) (b1I (iZ 273)) in
  if good x then ineg (qbound (Ux x) (Vx x) (s1P 2 x (matrix 3 x (grp tab1) []))) else false.
Lemma s1_273_ok l u : s1_273 l u = true -> forall p, gr l <= p <= gr u -> s1R p 273 < 0.
Proof.
  intros C p Hp. unfold s1_273 in C. assert (HP := inc_iv l u p Hp). assert (HT := inc_Z 273).
  destruct (good _) eqn:G in C; [|discriminate].
  destruct (good_boxed _ _ _ _ G (inc_a1 _ _ HP) (inc_b1 _ 273 ltac:(lra) HT)) as (a0 & b0 & B).
  apply (ineg_ok _ _ C). apply qbound_ok with (a1 p - a0) (b1 273 - b0).
  - eapply Ux_ok; exact B.
  - eapply Vx_ok; exact B.
  - apply (s1P_ok 2 _ p 273 a0 b0 B).
Qed.
Lemma s1_273_covered : cov 14 s1_273 629 104857600 = true.
Proof. vm_compute. reflexivity. Qed.
Lemma s1_cold p : 0.0006 <= p <= 100 -> s1R p 273 < 0.
Proof.
  intros H. apply (cov_ok (fun p => s1R p 273 < 0) s1_273 s1_273_ok _ _ _ s1_273_covered). unfold gr, G. lra.
Qed.
