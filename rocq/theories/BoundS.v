(** The saturation pressure of an entropy, by enclosure along the saturation line. *)
From Coq Require Import ZArith QArith Reals Lra Lia List Bool.
From Interval Require Import Tactic.
From Verif Require Import Py ExactReal RealSum ModRegion4 Bound BoundEos BoundF BoundT BoundU ProofBack SatS ProofBackS.
Import ListNotations.
Open Scope R_scope.

Definition p1hsR (h s : R) : R := S2 tabp1hs 0 0 (h / 3400 + 0.05) (s / 7.6 + 0.05) * 100.
Definition p2ahsR (h s : R) : R := S2 tabp2ahs 0 0 (h / 4200 - 0.5) (s / 12 - 1.2) ^ 4 * 4.
Definition p2bhsR (h s : R) : R := S2 tabp2bhs 0 0 (h / 4100 - 0.6) (s / 7.9 - 1.01) ^ 4 * 100.
Definition p2chsR (h s : R) : R := S2 tabp2chs 0 0 (h / 3500 - 0.7) (s / 5.9 - 1.1) ^ 4 * 100.
Definition p3ahsR (h s : R) : R := S2 tabp3ahs 0 0 (h / 2300 - 1.01) (s / 4.4 - 0.75) * 99.
Definition p3bhsR (h s : R) : R := 16.6 / S2 tabp3bhs 0 0 (h / 2800 - 0.681) (s / 5.3 - 0.792).

(** ** Enclosures as polynomials *)
(** c + k x *)
Definition ulin (c k : Q) (X : poly) : poly := padd [iQ c] (pscal (iQ k) X).
Lemma ulin_ok v c k X x : pol v X x -> pol v (ulin c k X) (Q2R c + Q2R k * x).
Proof. intros H. apply padd_ok; [apply pol_const, inc_Q|]. apply pscal_ok; [apply inc_Q | exact H]. Qed.

Section Sat.
Variables (V : itv) (n : nat).
Definition u4 (X : poly) : poly := let Y := umul V n X X in umul V n Y Y.
Definition tb (t : list (dec * (Z * Z))) : poly -> poly -> poly := utab V n (dtab 0 0 t).
Definition h4aU := let f := tb tab4a in fun S : poly => pscal (iZ 1700) (f (ulin (-1.09) (Qmake 10 38) S) (ulin 0.0000366 (Qmake 10 38) S)).
Definition h4bU := let f := tb tab4b in fun S : poly => pscal (iZ 1700) (f (ulin (-1.09) (Qmake 10 38) S) (ulin 0.0000366 (Qmake 10 38) S)).
Definition h4cU := let f := tb tab4c in fun S : poly => pscal (iZ 2800) (u4 (f (ulin (-1.02) (Qmake 10 59) S) (ulin (-0.726) (Qmake 10 59) S))).
Definition h4dU := let f := tb tab4d in fun S : poly =>
  pscal (iZ 2800) (uexp V n (f (padd [iQ (-0.513)] (uinv V n (pscal (iQ (Qmake 100 521)) S))) (ulin (-0.524) (Qmake 10 92) S))).
Definition p1hsU := let f := tb tabp1hs in fun H S : poly => pscal (iZ 100) (f (ulin 0.05 (Qmake 1 3400) H) (ulin 0.05 (Qmake 10 76) S)).
Definition p2ahsU := let f := tb tabp2ahs in fun H S : poly => pscal (iZ 4) (u4 (f (ulin (-0.5) (Qmake 1 4200) H) (ulin (-1.2) (Qmake 1 12) S))).
Definition p2bhsU := let f := tb tabp2bhs in fun H S : poly => pscal (iZ 100) (u4 (f (ulin (-0.6) (Qmake 1 4100) H) (ulin (-1.01) (Qmake 10 79) S))).
Definition p2chsU := let f := tb tabp2chs in fun H S : poly => pscal (iZ 100) (u4 (f (ulin (-0.7) (Qmake 1 3500) H) (ulin (-1.1) (Qmake 10 59) S))).
Definition p3ahsU := let f := tb tabp3ahs in fun H S : poly => pscal (iZ 99) (f (ulin (-1.01) (Qmake 1 2300) H) (ulin (-0.75) (Qmake 10 44) S)).
Definition p3bhsU := let f := tb tabp3bhs in fun H S : poly => pscal (iQ 16.6) (uinv V n (f (ulin (-0.681) (Qmake 1 2800) H) (ulin (-0.792) (Qmake 10 53) S))).
Definition b2abU (S : poly) : poly :=
  padd [iQ (-3498.98083432139)] (umul V n S (padd [iQ 2575.60716905876] (umul V n S (ulin (-421.073558227969) 27.6349063799944 S)))).
Variable (v : R).
Hypothesis (HV : inc V v).
Lemma u4_ok X x : pol v X x -> pol v (u4 X) (x ^ 4).
Proof. intros H. unfold u4. cbv zeta. eapply pol_eq; [apply umul_ok; [exact HV | |]; apply umul_ok; eassumption|]. ring. Qed.
Lemma tb_ok t X Y x y z : pol v X x -> pol v Y y -> z = S2 t 0 0 x y -> pol v (tb t X Y) z.
Proof. intros HX HY ->. unfold tb. eapply utab_ok; [exact HV | apply dtab_ok | exact HX | exact HY]. Qed.
Ltac lins := unfold Q2R; cbn [Qnum Qden]; field.
Lemma h4aU_ok S s : pol v S s -> pol v (h4aU S) (H4a s).
Proof.
  intros H. unfold H4a, h4aU. cbv zeta. rewrite Rmult_comm. apply pscal_ok; [apply inc_Z|].
  eapply tb_ok; [apply ulin_ok, H | apply ulin_ok, H|]. apply f_equal2; lins.
Qed.
Lemma h4bU_ok S s : pol v S s -> pol v (h4bU S) (H4b s).
Proof.
  intros H. unfold H4b, h4bU. cbv zeta. rewrite Rmult_comm. apply pscal_ok; [apply inc_Z|].
  eapply tb_ok; [apply ulin_ok, H | apply ulin_ok, H|]. apply f_equal2; lins.
Qed.
Lemma h4cU_ok S s : pol v S s -> pol v (h4cU S) (H4c s).
Proof.
  intros H. unfold H4c, h4cU. cbv zeta. rewrite Rmult_comm. apply pscal_ok; [apply inc_Z|]. apply u4_ok.
  eapply tb_ok; [apply ulin_ok, H | apply ulin_ok, H|]. apply f_equal2; lins.
Qed.
Lemma h4dU_ok S s : s <> 0 -> pol v S s -> pol v (h4dU S) (H4d s).
Proof.
  intros N H. unfold H4d, h4dU. cbv zeta. rewrite Rmult_comm. apply pscal_ok; [apply inc_Z|]. apply uexp_ok; [exact HV|].
  eapply tb_ok; [apply padd_ok; [apply pol_const, inc_Q | apply uinv_ok; [exact HV | apply pscal_ok; [apply inc_Q | exact H]]] | apply ulin_ok, H|].
  apply f_equal2; lins. exact N.
Qed.
Lemma p1hsU_ok H S h s : pol v H h -> pol v S s -> pol v (p1hsU H S) (p1hsR h s).
Proof.
  intros A B. unfold p1hsR, p1hsU. cbv zeta. rewrite Rmult_comm. apply pscal_ok; [apply inc_Z|].
  eapply tb_ok; [apply ulin_ok, A | apply ulin_ok, B|]. apply f_equal2; lins.
Qed.
Lemma p2ahsU_ok H S h s : pol v H h -> pol v S s -> pol v (p2ahsU H S) (p2ahsR h s).
Proof.
  intros A B. unfold p2ahsR, p2ahsU. cbv zeta. rewrite Rmult_comm. apply pscal_ok; [apply inc_Z|]. apply u4_ok.
  eapply tb_ok; [apply ulin_ok, A | apply ulin_ok, B|]. apply f_equal2; lins.
Qed.
Lemma p2bhsU_ok H S h s : pol v H h -> pol v S s -> pol v (p2bhsU H S) (p2bhsR h s).
Proof.
  intros A B. unfold p2bhsR, p2bhsU. cbv zeta. rewrite Rmult_comm. apply pscal_ok; [apply inc_Z|]. apply u4_ok.
  eapply tb_ok; [apply ulin_ok, A | apply ulin_ok, B|]. apply f_equal2; lins.
Qed.
Lemma p2chsU_ok H S h s : pol v H h -> pol v S s -> pol v (p2chsU H S) (p2chsR h s).
Proof.
  intros A B. unfold p2chsR, p2chsU. cbv zeta. rewrite Rmult_comm. apply pscal_ok; [apply inc_Z|]. apply u4_ok.
  eapply tb_ok; [apply ulin_ok, A | apply ulin_ok, B|]. apply f_equal2; lins.
Qed.
Lemma p3ahsU_ok H S h s : pol v H h -> pol v S s -> pol v (p3ahsU H S) (p3ahsR h s).
Proof.
  intros A B. unfold p3ahsR, p3ahsU. cbv zeta. rewrite Rmult_comm. apply pscal_ok; [apply inc_Z|].
  eapply tb_ok; [apply ulin_ok, A | apply ulin_ok, B|]. apply f_equal2; lins.
Qed.
Lemma p3bhsU_ok H S h s : pol v H h -> pol v S s -> pol v (p3bhsU H S) (p3bhsR h s).
Proof.
  intros A B. unfold p3bhsR, p3bhsU. cbv zeta.
  eapply pol_eq; [apply pscal_ok; [apply inc_Q | apply uinv_ok; [exact HV|]; eapply tb_ok; [apply ulin_ok, A | apply ulin_ok, B | reflexivity]]|].
  match goal with |- _ * (1 / ?x) = _ / ?y => assert (K : x = y) by (apply f_equal2; lins); rewrite K; generalize y as z end.
  intros z. replace (Q2R 16.6) with 16.6 by lins. unfold Rdiv. ring.
Qed.
Lemma b2abU_ok S s : pol v S s -> pol v (b2abU S) (b2ab s).
Proof.
  intros H. unfold b2abU. eapply pol_eq; [apply padd_ok; [apply pol_const, inc_Q | apply umul_ok; [exact HV | exact H |]; apply padd_ok; [apply pol_const, inc_Q | apply umul_ok; [exact HV | exact H | apply ulin_ok, H]]]|].
  unfold b2ab, Q2R; cbn [Qnum Qden]. field.
Qed.
End Sat.

(** ** Over a range of entropies *)
Definition over (f : itv -> poly -> itv) (l u : Z) : itv :=
  let S := iv l u in let S0 := imid S in f (isub S S0) [S0; iZ 1].
Lemma over_ok (f : itv -> poly -> itv) g l u s : gr l <= s <= gr u ->
  (forall V v S, inc V v -> pol v S s -> inc (f V S) (g s)) -> inc (over f l u) (g s).
Proof.
  intros H K. unfold over. cbv zeta. assert (HS := inc_iv l u s H). destruct (imid_in (iv l u)) as [s0 H0].
  apply (K _ (s - s0)); [now apply inc_sub|].
  eapply pol_eq; [constructor; [exact H0 | apply pol_const, inc_Z]|]. ring.
Qed.
Definition pa := over (fun V S => ubound V (p1hsU V 5 (h4aU V 5 S) S)).
Definition pb := over (fun V S => ubound V (p3ahsU V 5 (h4bU V 5 S) S)).
Definition pb' := over (fun V S => ubound V (p3bhsU V 5 (h4bU V 5 S) S)).
Definition pc := over (fun V S => ubound V (p3bhsU V 5 (h4cU V 5 S) S)).
Definition pd := over (fun V S => ubound V (p2chsU V 5 (h4cU V 5 S) S)).
Definition pd' := over (fun V S => ubound V (p2bhsU V 5 (h4cU V 5 S) S)).
Definition pe := over (fun V S => ubound V (p2bhsU V 5 (h4dU V 5 S) S)).
Definition pe' := over (fun V S => ubound V (p2ahsU V 5 (h4dU V 5 S) S)).
Definition ab := over (fun V S => ubound V (padd (h4dU V 5 S) (pscal (iZ (-1)) (b2abU V 5 S)))).
Definition ab' := over (fun V S => ubound V (padd (h4cU V 5 S) (pscal (iZ (-1)) (b2abU V 5 S)))).
Lemma pa_ok l u s : gr l <= s <= gr u -> inc (pa l u) (p1hsR (H4a s) s).
Proof. intros H. apply (over_ok _ (fun s => p1hsR (H4a s) s)); [exact H|]. intros V v S HV HS. apply ubound_ok with v; [exact HV|]. apply p1hsU_ok; [exact HV | now apply h4aU_ok | exact HS]. Qed.
Lemma pb_ok l u s : gr l <= s <= gr u -> inc (pb l u) (p3ahsR (H4b s) s).
Proof. intros H. apply (over_ok _ (fun s => p3ahsR (H4b s) s)); [exact H|]. intros V v S HV HS. apply ubound_ok with v; [exact HV|]. apply p3ahsU_ok; [exact HV | now apply h4bU_ok | exact HS]. Qed.
Lemma pb'_ok l u s : gr l <= s <= gr u -> inc (pb' l u) (p3bhsR (H4b s) s).
Proof. intros H. apply (over_ok _ (fun s => p3bhsR (H4b s) s)); [exact H|]. intros V v S HV HS. apply ubound_ok with v; [exact HV|]. apply p3bhsU_ok; [exact HV | now apply h4bU_ok | exact HS]. Qed.
Lemma pc_ok l u s : gr l <= s <= gr u -> inc (pc l u) (p3bhsR (H4c s) s).
Proof. intros H. apply (over_ok _ (fun s => p3bhsR (H4c s) s)); [exact H|]. intros V v S HV HS. apply ubound_ok with v; [exact HV|]. apply p3bhsU_ok; [exact HV | now apply h4cU_ok | exact HS]. Qed.
Lemma pd_ok l u s : gr l <= s <= gr u -> inc (pd l u) (p2chsR (H4c s) s).
Proof. intros H. apply (over_ok _ (fun s => p2chsR (H4c s) s)); [exact H|]. intros V v S HV HS. apply ubound_ok with v; [exact HV|]. apply p2chsU_ok; [exact HV | now apply h4cU_ok | exact HS]. Qed.
Lemma pd'_ok l u s : gr l <= s <= gr u -> inc (pd' l u) (p2bhsR (H4c s) s).
Proof. intros H. apply (over_ok _ (fun s => p2bhsR (H4c s) s)); [exact H|]. intros V v S HV HS. apply ubound_ok with v; [exact HV|]. apply p2bhsU_ok; [exact HV | now apply h4cU_ok | exact HS]. Qed.
Lemma pe_ok l u s : s <> 0 -> gr l <= s <= gr u -> inc (pe l u) (p2bhsR (H4d s) s).
Proof. intros N H. apply (over_ok _ (fun s => p2bhsR (H4d s) s)); [exact H|]. intros V v S HV HS. apply ubound_ok with v; [exact HV|]. apply p2bhsU_ok; [exact HV | now apply h4dU_ok | exact HS]. Qed.
Lemma pe'_ok l u s : s <> 0 -> gr l <= s <= gr u -> inc (pe' l u) (p2ahsR (H4d s) s).
Proof. intros N H. apply (over_ok _ (fun s => p2ahsR (H4d s) s)); [exact H|]. intros V v S HV HS. apply ubound_ok with v; [exact HV|]. apply p2ahsU_ok; [exact HV | now apply h4dU_ok | exact HS]. Qed.
Lemma ab_ok l u s : s <> 0 -> gr l <= s <= gr u -> inc (ab l u) (H4d s - b2ab s).
Proof.
  intros N H. apply (over_ok _ (fun s => H4d s - b2ab s)); [exact H|]. intros V v S HV HS. apply ubound_ok with v; [exact HV|].
  replace (H4d s - b2ab s) with (H4d s + -1 * b2ab s) by ring.
  apply padd_ok; [now apply h4dU_ok|]. apply pscal_ok; [apply inc_Z | now apply b2abU_ok].
Qed.
Lemma ab'_ok l u s : gr l <= s <= gr u -> inc (ab' l u) (H4c s - b2ab s).
Proof.
  intros H. apply (over_ok _ (fun s => H4c s - b2ab s)); [exact H|]. intros V v S HV HS. apply ubound_ok with v; [exact HV|].
  replace (H4c s - b2ab s) with (H4c s + -1 * b2ab s) by ring.
  apply padd_ok; [now apply h4cU_ok|]. apply pscal_ok; [apply inc_Z | now apply b2abU_ok].
Qed.


(** The places where a quotient is taken *)
Definition hb := over (fun V S => ubound V (h4bU V 5 S)).
Definition hc := over (fun V S => ubound V (h4cU V 5 S)).
Definition db := over (fun V S => ubound V (tb V 5 tabp3bhs (ulin (-0.681) (Qmake 1 2800) (h4bU V 5 S)) (ulin (-0.792) (Qmake 10 53) S))).
Definition dc := over (fun V S => ubound V (tb V 5 tabp3bhs (ulin (-0.681) (Qmake 1 2800) (h4cU V 5 S)) (ulin (-0.792) (Qmake 10 53) S))).
Definition d3b (h s : R) := S2 tabp3bhs 0 0 (h / 2800 - 0.681) (s / 5.3 - 0.792).
Lemma hb_ok l u s : gr l <= s <= gr u -> inc (hb l u) (H4b s).
Proof. intros H. apply (over_ok _ H4b); [exact H|]. intros V v S HV HS. apply ubound_ok with v; [exact HV|]. now apply h4bU_ok. Qed.
Lemma hc_ok l u s : gr l <= s <= gr u -> inc (hc l u) (H4c s).
Proof. intros H. apply (over_ok _ H4c); [exact H|]. intros V v S HV HS. apply ubound_ok with v; [exact HV|]. now apply h4cU_ok. Qed.
Lemma db_ok l u s : gr l <= s <= gr u -> inc (db l u) (d3b (H4b s) s).
Proof.
  intros H. apply (over_ok _ (fun s => d3b (H4b s) s)); [exact H|]. intros V v S HV HS. apply ubound_ok with v; [exact HV|].
  eapply tb_ok; [exact HV | apply ulin_ok, h4bU_ok; [exact HV | exact HS] | apply ulin_ok, HS|].
  unfold d3b; apply f_equal2; unfold Q2R; cbn [Qnum Qden]; field.
Qed.
Lemma dc_ok l u s : gr l <= s <= gr u -> inc (dc l u) (d3b (H4c s) s).
Proof.
  intros H. apply (over_ok _ (fun s => d3b (H4c s) s)); [exact H|]. intros V v S HV HS. apply ubound_ok with v; [exact HV|].
  eapply tb_ok; [exact HV | apply ulin_ok, h4cU_ok; [exact HV | exact HS] | apply ulin_ok, HS|].
  unfold d3b; apply f_equal2; unfold Q2R; cbn [Qnum Qden]; field.
Qed.

Definition fill (f : Z -> Z -> bool) (l u : Z) : list Z := cuts 24 f l u [].
(** [f s] lies between a and b *)
Definition bounded (f : Z -> Z -> itv) (a b : Q) (l u : Z) : bool := isin (f l u) a b.
Lemma bounded_ok f g a b cs l u : (forall l u s, gr l <= s <= gr u -> inc (f l u) (g s)) ->
  chain (bounded f a b) l cs u = true -> forall s, gr l <= s <= gr u -> Q2R a < g s < Q2R b.
Proof.
  intros H. apply (chain_ok (fun s => Q2R a < g s < Q2R b) (bounded f a b)).
  intros l' u' C s Hs. apply (isin_ok _ _ _ _ C). now apply H.
Qed.
Definition ends (a b : Q) (f : R -> R) (l u : R) : Prop := forall s, l <= s <= u -> Q2R a < f s < Q2R b.
Lemma by_chain f g a b cs (l u : Z) (x y : R) : (forall l u s, gr l <= s <= gr u -> inc (f l u) (g s)) ->
  chain (bounded f a b) l cs u = true -> gr l <= x -> y <= gr u -> ends a b g x y.
Proof. intros H C X Y s Hs. apply (bounded_ok f g a b cs l u H C). lra. Qed.
Ltac seg H f a b l u :=
  let cs := eval vm_compute in (fill (bounded f a b) l u) in
  apply by_chain with f cs l u; [exact H | vm_compute; reflexivity | unfold gr, G; lra | unfold gr, G; lra].

Lemma pa_low : ends 0.000608 0.000612 (fun s => p1hsR (H4a s) s) (-0.0001545495919) 0.00099945.
Proof. seg pa_ok pa 0.000608%Q 0.000612%Q (-163)%Z 1048%Z. Qed.
Lemma pa_mid : ends 0.000611657 17 (fun s => p1hsR (H4a s) s) 0.00099945 3.77828134.
Proof. seg pa_ok pa 0.000611657%Q 17%Q 1047%Z 3961816%Z. Qed.
Lemma pb_mid : ends 16 22.06395 (fun s => p3ahsR (H4b s) s) 3.77828134 4.411.
Proof. seg pb_ok pb 16%Q 22.06395%Q 3961815%Z 4625269%Z. Qed.
Lemma pb_top : ends 16 22.0646 (fun s => p3ahsR (H4b s) s) 4.411 4.41202148223476.
Proof. seg pb_ok pb 16%Q 22.0646%Q 4625268%Z 4626340%Z. Qed.
Lemma pb_one : ends 16 22.0646 (fun s => p3bhsR (H4b s) s) 4.41202148223476 4.41202148223476.
Proof. seg pb'_ok pb' 16%Q 22.0646%Q 4626339%Z 4626340%Z. Qed.
Lemma hb_one : ends 2000 2700 H4b 4.41202148223476 4.41202148223476.
Proof. seg hb_ok hb 2000%Q 2700%Q 4626339%Z 4626340%Z. Qed.
Lemma db_one : ends 0 100 (fun s => d3b (H4b s) s) 4.41202148223476 4.41202148223476.
Proof. seg db_ok db 0%Q 100%Q 4626339%Z 4626340%Z. Qed.
Lemma pc_top : ends 16 22.0646 (fun s => p3bhsR (H4c s) s) 4.41202148223476 4.426.
Proof. seg pc_ok pc 16%Q 22.0646%Q 4626339%Z 4640998%Z. Qed.
Lemma pc_mid : ends 16 22.06395 (fun s => p3bhsR (H4c s) s) 4.426 5.210887663.
Proof. seg pc_ok pc 16%Q 22.06395%Q 4640997%Z 5464012%Z. Qed.
Lemma hc_all : ends 2000 2700 H4c 4.41202148223476 5.210887663.
Proof. seg hc_ok hc 2000%Q 2700%Q 4626339%Z 5464012%Z. Qed.
Lemma dc_all : ends 0 100 (fun s => d3b (H4c s) s) 4.41202148223476 5.210887663.
Proof. seg dc_ok dc 0%Q 100%Q 4626339%Z 5464012%Z. Qed.
Lemma pd_all : ends 4 17 (fun s => p2chsR (H4c s) s) 5.210887663 5.85.
Proof. seg pd_ok pd 4%Q 17%Q 5464010%Z 6134170%Z. Qed.
Lemma pd_one : ends 4 17 (fun s => p2bhsR (H4c s) s) 5.85 5.85.
Proof. seg pd'_ok pd' 4%Q 17%Q 6134169%Z 6134170%Z. Qed.
Lemma ab'_all : ends 0 10000 (fun s => H4c s - b2ab s) 5.210887663 5.85.
Proof. seg ab'_ok ab' 0%Q 10000%Q 5464010%Z 6134170%Z. Qed.

(** Above 5.85 the subregion is decided by the enthalpy *)
Definition either (a b : Q) (d x y : itv) : bool :=
  if (if ineg d then true else isin x a b) then (if ipos d then true else isin y a b) else false.
Lemma either_ok a b d x y d' x' y' : either a b d x y = true -> inc d d' -> inc x x' -> inc y y' ->
  (0 <= d' -> Q2R a < x' < Q2R b) /\ (d' < 0 -> Q2R a < y' < Q2R b).
Proof.
  unfold either. intros C A B B'. destruct (if ineg d then true else isin x a b) eqn:E; [|discriminate]. split; intros K.
  - destruct (ineg d) eqn:E1; [assert (Z := ineg_ok _ _ E1 A); lra|]. now apply (isin_ok _ _ _ _ E).
  - destruct (ipos d) eqn:E1; [assert (Z := ipos_ok _ _ E1 A); lra|]. now apply (isin_ok _ _ _ _ C).
Qed.
Definition sides (a b : Q) (l u : Z) : bool :=
  if (1 <=? l)%Z then either a b (ab l u) (pe l u) (pe' l u) else false.
Definition side (a b : Q) (s : R) : Prop :=
  (b2ab s <= H4d s -> Q2R a < p2bhsR (H4d s) s < Q2R b) /\ (H4d s < b2ab s -> Q2R a < p2ahsR (H4d s) s < Q2R b).
Lemma sides_ok a b cs l u : chain (sides a b) l cs u = true -> forall s, gr l <= s <= gr u -> side a b s.
Proof.
  apply (chain_ok (side a b) (sides a b)). clear. intros l u C s Hs. unfold sides in C.
  destruct (1 <=? l)%Z eqn:L; [|discriminate]. apply Z.leb_le, IZR_le in L.
  assert (N : s <> 0) by (unfold gr, G in Hs; lra).
  destruct (either_ok _ _ _ _ _ _ _ _ C (ab_ok l u s N Hs) (pe_ok l u s N Hs) (pe'_ok l u s N Hs)) as [X Y].
  split; intros K; [apply X | apply Y]; lra.
Qed.
Ltac seg2 a b l u :=
  let cs := eval vm_compute in (fill (sides a b) l u) in
  apply sides_ok with cs l u; [vm_compute; reflexivity | unfold gr, G; lra].
Lemma pe_mid s : 5.85 <= s <= 9.155 -> side 0.000611657 17 s.
Proof. intros H. seg2 0.000611657%Q 17%Q 6134169%Z 9599714%Z. Qed.
Lemma pe_end s : 9.155 <= s <= 9.155759395 -> side 0.000608 0.000613 s.
Proof. intros H. seg2 0.000608%Q 0.000613%Q 9599713%Z 9600510%Z. Qed.
Lemma pa_under : ends 0.000608 0.000611657 (fun s => p1hsR (H4a s) s) (-0.0001545495919) 0.0009.
Proof. seg pa_ok pa 0.000608%Q 0.000611657%Q (-163)%Z 944%Z. Qed.
