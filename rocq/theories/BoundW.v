(** Region 3 and the saturation line over an arithmetic of enclosures; the saturated states of region 3. *)
From Coq Require Import ZArith QArith Qreals Reals Lra Lia List Bool.
From Verif Require Import Py ExactReal RealSum ProofSat ProofEos ProofThermo ProofBack Sat3 Bound BoundEos BoundF BoundT BoundU BoundS Bound2 BoundA.
Import ListNotations.
Open Scope R_scope.

Definition v3aR (p h : R) : R := S2 tabv3ah 0 0 (p / 100 + 0.128) (h / 2100 - 0.727) * 0.0028.
Definition v3bR (p h : R) : R := S2 tabv3bh 0 0 (p / 100 + 0.0661) (h / 2800 - 0.72) * 0.0088.
(** close to the Gibbs energy along the saturation line from 16.5 to 22.06 MPa *)
Definition gref (p : R) : R := let x := p / 2.8 - 19.3 / 2.8 in
  -727.85377 + x * (-42.353314 + x * (2.240723 + x * (-0.19466 + x * (0.09992 + x * 0.118867)))).

Section Curve.
Variable A : alg.
Notation C := (car A).
Notation "X + Y" := (aadd A X Y). Notation "X * Y" := (amul A X Y). Notation "X - Y" := (aadd A X (ascal A (iZ (-1)) Y)).
Notation "c ** X" := (ascal A c X) (at level 40). Notation "/ X" := (ainv A X).
Notation K q := (aconst A (iQ q)).
Notation n3Q := 1.0658070028513%Q.
Record st3 := St3 { sX : C; sT : C; sdl : C; sta : C; sf : C; sft : C; sfd : C }.
Definition st3A : C -> C -> st3 :=
  let t00 := dtab 0 0 tab3 in let t01 := dtab 0 1 tab3 in let t10 := dtab 1 0 tab3 in
  fun X T => let D := iQ (Qmake 1 322) ** X in let B := iQ 647.096 ** / T in
  let a := pw A 12 0 D in let b := pw A 27 0 B in
  {| sX := X; sT := T; sdl := D; sta := B; sf := arun A t00 a b + iQ n3Q ** aln A D; sft := arun A t01 a b;
     sfd := arun A t10 a b + iQ n3Q ** / D |}.
Definition s3A (s : st3) : C := Rw ** (sta s * sft s - sf s).
Definition p3A (s : st3) : C := iQ (Qmake 461526 1000000000) ** ((sX s * sT s) * (sdl s * sfd s)).
Definition u3A (s : st3) : C := imul Rw (iQ 647.096) ** sft s.
Definition h3A (s : st3) : C := Rw ** (sT s * (sta s * sft s + sdl s * sfd s)).
Definition v3aA : C -> C -> C := let f := atab A (dtab 0 0 tabv3ah) in
  fun P H => iQ 0.0028 ** f (alin A 0.128 (Qmake 1 100) P) (alin A (-0.727) (Qmake 1 2100) H).
Definition v3bA : C -> C -> C := let f := atab A (dtab 0 0 tabv3bh) in
  fun P H => iQ 0.0088 ** f (alin A 0.0661 (Qmake 1 100) P) (alin A (-0.72) (Qmake 1 2800) H).
Definition P3A : C -> C := let f := atab A (dtab 0 0 tab3s) in
  fun H => iZ 22 ** f (alin A (-1.02) (Qmake 1 2600) H) (alin A (-0.608) (Qmake 1 2600) H).
Definition abA (P : C) : C := K 2014.64004206875 + P * (K 3.74696550136983 + P * alin A (-0.0219921901054187) 0.000087513168600995 P).
Definition quA (a b c : Q) (X : C) : C := K c + X * alin A b a X.
Definition deA (X : C) : C :=
  let E := quA 1 (-17.073846940092) 14.91510861353 X in
  let F := quA 1167.0521452767 12020.82470247 (-4823.2657361591) X in
  let G := quA (-724213.16703206) (-3232555.0322333) 405113.40542057 X in
  iZ (-2) ** (G * / (F + asqrt A (F * F - iZ 4 ** (E * G)))).
Definition t4A (P : C) : C :=
  let D := deA (asqrt A (asqrt A P)) in let M := K 650.17534844798 - D in
  iQ 0.5 ** (alin A 650.17534844798 1 D - asqrt A (K 0.95422230271396 + M * M)).
Definition grefA (P : C) : C := let X := alin A (Qmake (-193) 28) (Qmake 10 28) P in
  K (-727.85377) + X * (K (-42.353314) + X * (K 2.240723 + X * (K (-0.19466) + X * alin A 0.09992 0.118867 X))).

Variable ok : C -> R -> Prop.
Hypothesis L : lawful A ok.
Ltac lins := unfold Q2R; cbn [Qnum Qden]; field.
Ltac q2 := unfold Q2R; cbn [Qnum Qden].
Ltac stp := first [apply (asub_ok A ok L) | apply (l_add _ _ L) | apply (l_mul _ _ L) | apply (l_scal _ _ L); [apply inc_Q || apply inc_Z|] | apply (l_const _ _ L), inc_Q | apply (l_inv _ _ L) | apply (l_sqrt _ _ L) | apply (l_ln _ _ L)].
Ltac go := repeat (first [eassumption | stp]).
Section At.
Variables (X T : C) (x t : R).
Hypotheses (HX : ok X x) (HT : ok T t).
Record st3_ok (s : st3) : Prop := { k_X : ok (sX s) x; k_T : ok (sT s) t; k_dl : ok (sdl s) (dl x); k_ta : ok (sta s) (ta t);
  k_f : ok (sf s) (f3 0 0 x t + n3 * Rpower.ln (dl x)); k_ft : ok (sft s) (f3 0 1 x t); k_fd : ok (sfd s) (fd x t) }.
Lemma st3A_ok : st3_ok (st3A X T).
Proof.
  unfold st3A. cbv zeta.
  assert (D : ok (iQ (Qmake 1 322) ** X) (dl x)) by (eapply ok_eq; [go|]; unfold dl; lins).
  assert (B : ok (iQ 647.096 ** / T) (ta t)) by (eapply ok_eq; [go|]; unfold ta, Rdiv; q2; lra).
  assert (a := pw_ok A ok L 12 0 _ _ D). assert (b := pw_ok A ok L 27 0 _ _ B).
  assert (N : Q2R n3Q = n3) by (unfold n3; q2; lra).
  constructor; cbn [sX sT sdl sta sf sft sfd]; try assumption.
  - apply L; [eapply (arun_ok A ok L); [apply dtab_ok | exact a | exact b] | rewrite <- N; go].
  - eapply (arun_ok A ok L); [apply dtab_ok | exact a | exact b].
  - eapply ok_eq; [apply L; [eapply (arun_ok A ok L); [apply dtab_ok | exact a | exact b] | go]|]. rewrite N. unfold fd, f3, Rdiv. lra.
Qed.
Lemma s3A_ok s : st3_ok s -> ok (s3A s) (s3R x t).
Proof.
  intros [K1 K2 K3 K4 K5 K6 K7]. unfold s3A. eapply ok_eq; [go|]. unfold s3R. unfold n3 in *.
  set (g := f3 0 1 _ _). set (g' := f3 0 0 _ _). set (c := ta t). set (l := Rpower.ln (dl x)). q2. lra.
Qed.
Lemma p3A_ok s : st3_ok s -> ok (p3A s) (p3R x t).
Proof.
  intros [K1 K2 K3 K4 K5 K6 K7]. unfold p3A. eapply ok_eq; [go|]. unfold p3R.
  set (g := fd _ _). set (c := dl x). lins.
Qed.
Lemma h3A_ok s : st3_ok s -> ok (h3A s) (h3R x t).
Proof.
  intros [K1 K2 K3 K4 K5 K6 K7]. unfold h3A. eapply ok_eq; [go|]. unfold h3R.
  set (g := fd _ _). set (g' := f3 _ _ _ _). set (c := dl x). set (c' := ta t). lins.
Qed.
Lemma u3A_ok s : st3_ok s -> ok (u3A s) (u3R x t).
Proof.
  intros [K1 K2 K3 K4 K5 K6 K7]. unfold u3A. eapply ok_eq; [apply (l_scal _ _ L); [apply inc_mul; apply inc_Q | exact K6]|]. unfold u3R.
  set (g := f3 _ _ _ _). lins.
Qed.
Lemma v3aA_ok : ok (v3aA X T) (v3aR x t).
Proof.
  unfold v3aA, v3aR. cbv zeta. rewrite Rmult_comm. eapply ok_eq; [apply (l_scal _ _ L); [apply inc_Q|]; eapply (atab_ok A ok L); [apply dtab_ok | apply (alin_ok A ok L); exact HX | apply (alin_ok A ok L); exact HT]|].
  apply f_equal2; [lins|]. apply f_equal2; lins.
Qed.
Lemma v3bA_ok : ok (v3bA X T) (v3bR x t).
Proof.
  unfold v3bA, v3bR. cbv zeta. rewrite Rmult_comm. eapply ok_eq; [apply (l_scal _ _ L); [apply inc_Q|]; eapply (atab_ok A ok L); [apply dtab_ok | apply (alin_ok A ok L); exact HX | apply (alin_ok A ok L); exact HT]|].
  apply f_equal2; [lins|]. apply f_equal2; lins.
Qed.
End At.
Lemma P3A_ok H h : ok H h -> ok (P3A H) (P3 h).
Proof.
  intros K0. unfold P3A, P3. cbv zeta. eapply ok_eq; [apply (l_scal _ _ L); [apply inc_Z|]; eapply (atab_ok A ok L); [apply dtab_ok | apply (alin_ok A ok L); exact K0 | apply (alin_ok A ok L); exact K0]|].
  apply f_equal2; [reflexivity|]. apply f_equal2; lins.
Qed.
Lemma abA_ok P p : ok P p -> ok (abA P) (ProofBack.ab p).
Proof.
  intros H. unfold abA. eapply ok_eq; [do 2 (apply L; [apply L, inc_Q|]; apply L; [exact H|]); apply (alin_ok A ok L); exact H|]. unfold ProofBack.ab. q2. field.
Qed.
Lemma quA_ok a b c X x : ok X x -> ok (quA a b c X) (Q2R a * x ^ 2 + Q2R b * x + Q2R c)%R.
Proof.
  intros H. unfold quA. eapply ok_eq; [apply L; [apply L, inc_Q | apply L; [exact H | apply (alin_ok A ok L); exact H]]|]. ring.
Qed.
Lemma deA_ok X b : brange b -> ok X b -> ok (deA X) (de b).
Proof.
  intros Rb H. unfold deA. cbv zeta.
  assert (KA := quA_ok 1 (-17.073846940092) 14.91510861353 X b H).
  assert (KB := quA_ok 1167.0521452767 12020.82470247 (-4823.2657361591) X b H).
  assert (KC := quA_ok (-724213.16703206) (-3232555.0322333) 405113.40542057 X b H).
  eapply ok_eq in KA; [|instantiate (1 := qE b); unfold qE; q2; lra].
  eapply ok_eq in KB; [|instantiate (1 := qF b); unfold qF; q2; lra].
  eapply ok_eq in KC; [|instantiate (1 := qG b); unfold qG; q2; lra].
  eapply ok_eq; [go|].
  unfold de. replace (qF b * qF b - 4 * (qE b * qG b))%R with (qF b ^ 2 - 4 * qE b * qG b)%R by ring.
  set (s := R_sqrt.sqrt _). replace (- qF b - s)%R with (- (qF b + s))%R by ring.
  unfold Rdiv. rewrite Rinv_opp. ring.
Qed.
Lemma t4A_ok P p : (0.0006076 <= p <= 22.0646)%R -> ok P p -> ok (t4A P) (T4R p).
Proof.
  intros R0 H. unfold t4A. cbv zeta.
  assert (E : Rpower p (Rinv 4) = R_sqrt.sqrt (R_sqrt.sqrt p)).
  { rewrite <- (Rpower_sqrt (R_sqrt.sqrt p)) by (apply sqrt_lt_R0; lra). rewrite <- (Rpower_sqrt p) by lra. rewrite Rpower_mult. f_equal. field. }
  assert (B := brange_p p R0). unfold T4R. rewrite E in *.
  assert (Q := deA_ok _ _ B (l_sqrt _ _ L _ _ (l_sqrt _ _ L _ _ H))). set (b := R_sqrt.sqrt (R_sqrt.sqrt p)) in *. clearbody b.
  set (DE := deA _) in *. clearbody DE.
  assert (Q' := alin_ok A ok L 650.17534844798 1 _ _ Q).
  eapply ok_eq; [go|].
  unfold Tb. set (d := de b). clearbody d.
  match goal with |- ?l = ?r => match l with context [R_sqrt.sqrt ?a] => match r with context [R_sqrt.sqrt ?c] => replace a with c by (q2; field) end end end.
  set (s := R_sqrt.sqrt _). q2. field.
Qed.
Lemma grefA_ok P p : ok P p -> ok (grefA P) (gref p).
Proof.
  intros H. unfold grefA. cbv zeta. assert (Q := alin_ok A ok L (Qmake (-193) 28) (Qmake 10 28) _ _ H).
  eapply ok_eq; [do 4 (apply L; [apply L, inc_Q|]; apply L; [exact Q |]); apply (alin_ok A ok L); exact Q|].
  unfold gref; q2. field.
Qed.
End Curve.

(** ** The two saturated states at enthalpy h: pressure within 1.04e-5 MPa of the saturation pressure of h *)
Definition E11 : itv := iv (-11) 11.
Section Check.
Variables (vf : forall A, car A -> car A -> car A) (n m : nat) (va vb sa sb ua ub ca cb dp dh dg : Q).
Definition chk3 (l u : Z) : bool :=
  let S := iv l u in let S0 := imid S in let V := isub S S0 in
  let A := dual V E11 n m in let H : car A := ([S0; iZ 1], []) in
  let P : car A := aadd A (P3A A H) ([], [iZ 1]) in
  let W := vf A P H in
  let s := st3A A (ainv A W) (t4A A P) in
  let B := s3A A s in let b := dbound V E11 in let sub X Y := aadd A X (ascal A (iZ (-1)) Y) in
  isin (b P) 0.001 22.0646 && (isin (b W) va vb && (isin (b B) sa sb && (isin (b (u3A A s)) ua ub && (isin (b (sub (abA A P) H)) ca cb && (isin (b (sub (p3A A s) P)) (- dp) dp && (isin (b (sub (h3A A s) H)) (- dh) dh &&
    isin (b (sub (sub H (amul A (sT A s) B)) (grefA A P))) (- dg) dg)))))).
Variable vr : R -> R -> R.
Hypothesis Hvf : forall A ok, lawful A ok -> forall X T x t, ok X x -> ok T t -> ok (vf A X T) (vr x t).
(** what is known of the state of enthalpy h at pressure p *)
Definition sat3 (e h : R) : Prop := let p := P3 h + e in let v := vr p h in let T := T4R p in
  Q2R va < v < Q2R vb /\ Q2R sa < s3R (1 / v) T < Q2R sb /\ Q2R ua < u3R (1 / v) T < Q2R ub /\ Q2R ca < ProofBack.ab p - h < Q2R cb /\ - Q2R dp < p3R (1 / v) T - p < Q2R dp /\
  - Q2R dh < h3R (1 / v) T - h < Q2R dh /\ - Q2R dg < h - T * s3R (1 / v) T - gref p < Q2R dg.
Lemma chk3_ok e l u : Rabs e <= 0.0000104 -> chk3 l u = true -> forall h, gr l <= h <= gr u -> sat3 e h.
Proof.
  intros He K h Hh. assert (He' := Rabs_def2 e 0.0000104001 ltac:(lra)). unfold chk3 in K. cbv zeta in K.
  assert (HE : inc E11 e) by (apply inc_iv; unfold gr, G; lra).
  assert (HE0 : inc E11 0) by (apply inc_iv; unfold gr, G; lra).
  assert (HS := inc_iv l u h Hh). destruct (imid_in (iv l u)) as [s0 H0].
  set (S0 := imid (iv l u)) in *. set (V := isub (iv l u) S0) in *.
  assert (HV : inc V (h - s0)) by (now apply inc_sub). clearbody S0. revert K HV. generalize V. clear V. intros V K HV.
  set (A := dual V E11 n m) in *. assert (L := dual_lawful V E11 n m (h - s0) e HV HE HE0). fold A in L.
  assert (KH : dok (h - s0) e ([S0; iZ 1], []) h).
  { exists h, 0. split; [|split; [constructor | ring]]. eapply pol_eq; [constructor; [exact H0 | apply pol_const, inc_Z]|]. ring. }
  assert (KP : dok (h - s0) e (aadd A (P3A A ([S0; iZ 1], [])) ([], [iZ 1])) (P3 h + e)).
  { apply (l_add _ _ L); [apply (P3A_ok A _ L), KH|]. exists 0, 1. split; [constructor|]. split; [apply pol_const, inc_Z | ring]. }
  set (P := aadd A _ _) in *. clearbody P. set (H := ([S0; iZ 1], [])) in *. clearbody H. unfold sat3. cbv zeta. set (p := (P3 h + e)%R) in *. clearbody p.
  assert (KW := Hvf A _ L _ _ _ _ KP KH). set (W := vf A P H) in *. clearbody W. set (w := vr p h) in *. clearbody w.
  assert (BD : forall X x, dok (h - s0) e X x -> inc (dbound V E11 X) x) by (intros X x; now apply dbound_ok).
  clear Hvf.
  apply andb_prop in K. destruct K as [K0 K]. assert (Z0 := isin_ok _ _ _ _ K0 (BD _ _ KP)).
  apply andb_prop in K. destruct K as [K1 K]. assert (Z1 := isin_ok _ _ _ _ K1 (BD _ _ KW)).
  assert (Rp : (0.0006076 <= p <= 22.0646)%R) by (unfold Q2R in Z0; cbn [Qnum Qden] in Z0; lra).
  assert (KT := t4A_ok A _ L _ _ Rp KP). assert (KS := st3A_ok A _ L _ _ _ _ (l_inv _ _ L _ _ KW) KT).
  set (s := st3A A _ _) in *. clearbody s.
  assert (KB := s3A_ok A _ L _ _ _ KS). assert (Kp := p3A_ok A _ L _ _ _ KS). assert (Kh := h3A_ok A _ L _ _ _ KS). assert (Ku := u3A_ok A _ L _ _ _ KS). assert (KT' := k_T _ _ _ _ _ KS).
  apply andb_prop in K. destruct K as [K2 K]. assert (Z2 := isin_ok _ _ _ _ K2 (BD _ _ KB)).
  apply andb_prop in K. destruct K as [K6 K]. assert (Z6 := isin_ok _ _ _ _ K6 (BD _ _ Ku)).
  apply andb_prop in K. destruct K as [K7 K]. assert (Z7 := isin_ok _ _ _ _ K7 (BD _ _ (asub_ok A _ L _ _ _ _ (abA_ok A _ L _ _ KP) KH))).
  apply andb_prop in K. destruct K as [K3 K]. assert (Z3 := isin_ok _ _ _ _ K3 (BD _ _ (asub_ok A _ L _ _ _ _ Kp KP))).
  apply andb_prop in K. destruct K as [K4 K]. assert (Z4 := isin_ok _ _ _ _ K4 (BD _ _ (asub_ok A _ L _ _ _ _ Kh KH))).
  assert (Z5 := isin_ok _ _ _ _ K (BD _ _ (asub_ok A _ L _ _ _ _ (asub_ok A _ L _ _ _ _ KH (l_mul _ _ L _ _ _ _ KT' KB)) (grefA_ok A _ L _ _ KP)))).
  rewrite Qreals.Q2R_opp in Z3, Z4, Z5. repeat split; first [apply Z1 | apply Z2 | apply Z3 | apply Z4 | apply Z5 | apply Z6 | apply Z7].
Qed.
End Check.
Lemma sat3L_all e : Rabs e <= 0.0000104 -> forall h, 1670.858 <= h <= 2087.23501 -> sat3 0.0017 0.0031045 3.7 4.4117 1600 2018.85 0 1000 0.0004 0.006 0.0075 v3aR e h.
Proof.
  intros He.
  let f := constr:(chk3 v3aA 6 2 0.0017 0.0031045 3.7 4.4117 1600 2018.85 0 1000 0.0004 0.006 0.0075) in
  let cs := eval vm_compute in (fill f 1752021596 2188624540) in
  assert (C : chain f 1752021596 cs 2188624540 = true) by (vm_compute; reflexivity).
  intros h Hh. refine (chain_ok _ _ _ _ _ _ C h _); [|unfold gr, G; lra].
  intros l u K x Hx. revert K x Hx. apply chk3_ok; [apply v3aA_ok | exact He].
Qed.
Lemma sat3V_all e : Rabs e <= 0.0000104 -> forall h, 2087.6 <= h <= 2568.6 -> sat3 0.0031055 0.0090 4.4120 5.3 2018.95 2500 (-1000) 0 0.0001 0.007 0.0075 v3bR e h.
Proof.
  intros He.
  let f := constr:(chk3 v3bA 6 2 0.0031055 0.0090 4.4120 5.3 2018.95 2500 (-1000) 0 0.0001 0.007 0.0075) in
  let cs := eval vm_compute in (fill f 2189007257 2693372314) in
  assert (C : chain f 2189007257 cs 2693372314 = true) by (vm_compute; reflexivity).
  intros h Hh. refine (chain_ok _ _ _ _ _ _ C h _); [|unfold gr, G; lra].
  intros l u K x Hx. revert K x Hx. apply chk3_ok; [apply v3bA_ok | exact He].
Qed.
