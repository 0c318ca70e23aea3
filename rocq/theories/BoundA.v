(** Table sums over any arithmetic of enclosures; polynomials that also carry a
    first-order term in a second, small variable. *)
From Coq Require Import ZArith QArith Reals Lra Lia List Bool.
From Coquelicot Require Import Coquelicot.
From Verif Require Import Py ExactReal RealSum Bound BoundEos BoundF BoundT BoundU.
Import ListNotations.
Open Scope R_scope.

(** ** An arithmetic of enclosures *)
Record alg := { car : Type; aadd : car -> car -> car; amul : car -> car -> car; ascal : itv -> car -> car;
  aconst : itv -> car; ainv : car -> car; asqrt : car -> car; aln : car -> car }.
Record lawful (A : alg) (ok : car A -> R -> Prop) : Prop := {
  l_add : forall X Y x y, ok X x -> ok Y y -> ok (aadd A X Y) (x + y);
  l_mul : forall X Y x y, ok X x -> ok Y y -> ok (amul A X Y) (x * y);
  l_scal : forall C c X x, inc C c -> ok X x -> ok (ascal A C X) (c * x);
  l_const : forall C c, inc C c -> ok (aconst A C) c;
  l_inv : forall X x, ok X x -> ok (ainv A X) (1 / x);
  l_sqrt : forall X x, ok X x -> ok (asqrt A X) (R_sqrt.sqrt x);
  l_ln : forall X x, ok X x -> ok (aln A X) (Rpower.ln x) }.

Section Sums.
Variable A : alg.
Notation C := (car A).
Fixpoint apows (k : nat) (X M : C) : list C := match k with O => [] | S k' => M :: apows k' X (amul A M X) end.
Definition anegs (k : nat) (X : C) : list C := match k with O => [] | _ => apows (S k) (ainv A X) (aconst A (iZ 1)) end.
Definition ageti (pos neg : list C) (e : Z) : C :=
  match e with
  | Z0 => aconst A (iZ 1)
  | Zpos k => nth (Pos.to_nat k) pos (aconst A I.nai)
  | Zneg k => nth (Pos.to_nat k) neg (aconst A I.nai)
  end.
(** the terms come in runs with the same first exponent [cur]; [row] is the run so far *)
Fixpoint asum (ap an bp bn : list C) (cur : Z) (row : C) (t : ptab) (acc : C) : C :=
  match t with
  | [] => aadd A acc (amul A (ageti ap an cur) row)
  | (c, (i, j)) :: t' =>
      let y := ascal A c (ageti bp bn j) in
      if (i =? cur)%Z then asum ap an bp bn cur (aadd A row y) t' acc
      else asum ap an bp bn i y t' (aadd A acc (amul A (ageti ap an cur) row))
  end.
Definition pw (k1 k2 : nat) (X : C) : list C * list C := (apows k1 X (aconst A (iZ 1)), anegs k2 X).
Definition arun (t : ptab) (a b : list C * list C) : C :=
  asum (fst a) (snd a) (fst b) (snd b) 0 (aconst A (iZ 0)) t (aconst A (iZ 0)).
Definition atab (t : ptab) : C -> C -> C :=
  let k1 := S (top fst t) in let k2 := bot fst t in let k3 := S (top snd t) in let k4 := bot snd t in
  fun X Y => arun t (pw k1 k2 X) (pw k3 k4 Y).
Definition alin (c k : Q) (X : C) : C := aadd A (aconst A (iQ c)) (ascal A (iQ k) X).

Variable ok : C -> R -> Prop.
Hypothesis L : lawful A ok.
Lemma ok_eq X x y : ok X x -> x = y -> ok X y. Proof. now intros H <-. Qed.
Lemma ok_nai y : ok (aconst A I.nai) y. Proof. apply L, inc_nai. Qed.
Lemma apows_ok X x : ok X x -> forall k M z, ok M z -> forall e, (e < k)%nat -> ok (nth e (apows k X M) (aconst A I.nai)) (z * x ^ e).
Proof.
  intros HX k. induction k as [|k IH]; intros M z HM e He; [lia|]. cbn [apows].
  destruct e as [|e]; cbn [nth]; [eapply ok_eq; [exact HM | ring]|].
  eapply ok_eq; [apply IH; [apply L; eassumption | lia]|]. cbn [pow]. ring.
Qed.
Definition pws (x : R) (p : list C * list C) : Prop :=
  (forall e, ok (nth e (fst p) (aconst A I.nai)) (x ^ e)) /\ (forall e, ok (nth e (snd p) (aconst A I.nai)) ((1 / x) ^ e)).
Lemma apows_len k : forall X M, length (apows k X M) = k.
Proof. induction k as [|k IH]; intros X M; cbn; [reflexivity | now rewrite IH]. Qed.
Lemma apows_all X x k : ok X x -> forall e, ok (nth e (apows k X (aconst A (iZ 1))) (aconst A I.nai)) (x ^ e).
Proof.
  intros HX e. destruct (Nat.lt_ge_cases e k) as [K|K].
  - eapply ok_eq; [apply apows_ok; [exact HX | apply L, inc_Z | exact K]|]. ring.
  - rewrite nth_overflow; [apply ok_nai | now rewrite apows_len].
Qed.
Lemma pw_ok k1 k2 X x : ok X x -> pws x (pw k1 k2 X).
Proof.
  intros H. split; intros e; cbn [fst snd pw]; [now apply apows_all|]. unfold anegs. destruct k2 as [|k]; [destruct e; apply ok_nai|].
  apply apows_all. now apply L.
Qed.
Lemma ageti_ok x p e : pws x p -> ok (ageti (fst p) (snd p) e) (powerRZ x e).
Proof.
  intros [P N]. destruct e as [|k|k]; cbn [ageti powerRZ]; [apply L, inc_Z | apply P|].
  eapply ok_eq; [apply N|]. unfold Rdiv. now rewrite Rmult_1_l, pow_inv.
Qed.
Lemma asum_ok a b t y pa pb : ptab_ok a b t y -> pws a pa -> pws b pb ->
  forall cur row acc r z, ok row r -> ok acc z -> ok (asum (fst pa) (snd pa) (fst pb) (snd pb) cur row t acc) (z + powerRZ a cur * r + y).
Proof.
  intros H Ha Hb. induction H as [|K c i j t y Hc H IH]; intros cur row acc r z Hr Hz; cbn [asum].
  - eapply ok_eq; [apply L; [exact Hz | apply L; [apply ageti_ok, Ha | exact Hr]]|]. ring.
  - cbv zeta. assert (Y := l_scal _ _ L _ _ _ _ Hc (ageti_ok b pb j Hb)). destruct (Z.eqb_spec i cur) as [->|].
    + eapply ok_eq; [apply IH; [apply L; [exact Hr | exact Y] | exact Hz]|]. ring.
    + eapply ok_eq; [apply IH; [exact Y | apply L; [exact Hz | apply L; [apply ageti_ok, Ha | exact Hr]]]|]. ring.
Qed.
Lemma arun_ok t a b y pa pb : ptab_ok a b t y -> pws a pa -> pws b pb -> ok (arun t pa pb) y.
Proof.
  intros H Ha Hb. unfold arun. eapply ok_eq; [apply (asum_ok a b t y pa pb H Ha Hb); apply L, inc_Z|]. ring.
Qed.
Lemma atab_ok t a b y X Y : ptab_ok a b t y -> ok X a -> ok Y b -> ok (atab t X Y) y.
Proof. intros H HX HY. unfold atab. cbv zeta. eapply arun_ok; [exact H | now apply pw_ok | now apply pw_ok]. Qed.
Lemma alin_ok c k X x : ok X x -> ok (alin c k X) (Q2R c + Q2R k * x).
Proof. intros H. apply L; [apply L, inc_Q | apply L; [apply inc_Q | exact H]]. Qed.
Lemma aopp_ok X x : ok X x -> ok (ascal A (iZ (-1)) X) (- x).
Proof. intros H. eapply ok_eq; [apply L; [apply inc_Z | exact H]|]. ring. Qed.
Lemma asub_ok X Y x y : ok X x -> ok Y y -> ok (aadd A X (ascal A (iZ (-1)) Y)) (x - y).
Proof. intros H K. apply L; [exact H | apply aopp_ok, K]. Qed.
End Sums.

(** ** Polynomials of degree n in v, plus e times a polynomial of degree m *)
Section Dual.
Variables (V E : itv) (n m : nat).
Definition whole (X : poly * poly) : poly := padd (fst X) (pscal E (snd X)).
Definition dmul (X Y : poly * poly) : poly * poly :=
  (umul V n (fst X) (fst Y), padd (umul V m (fst X) (snd Y)) (umul V m (snd X) (whole Y))).
Definition dinv (X : poly * poly) : poly * poly :=
  let q := uinv V n (fst X) in let B := ubound V (fst X) in let W := ubound V (whole X) in
  if (ipos B && ipos W) || (ineg B && ineg W)
  then (q, pscal (iZ (-1)) (umul V m (snd X) (umul V m q (uinv V m (whole X))))) else ([I.nai], []).
Definition dsqrt (X : poly * poly) : poly * poly :=
  let q := usqrt V n (fst X) in
  if ipos (ubound V (fst X)) && ipos (ubound V (whole X)) then (q, umul V m (snd X) (uinv V m (padd q (usqrt V m (whole X))))) else ([I.nai], []).
Definition dln (X : poly * poly) : poly * poly :=
  if ipos (ubound V (fst X)) && ipos (ubound V (whole X)) then (uln V n (fst X), umul V m (snd X) (uinv V m (whole X))) else ([I.nai], []).
Definition dual : alg := {| car := poly * poly; aadd X Y := (padd (fst X) (fst Y), padd (snd X) (snd Y)); amul := dmul;
  ascal C X := (pscal C (fst X), pscal C (snd X)); aconst C := ([C], []); ainv := dinv; asqrt := dsqrt; aln := dln |}.
Definition dbound (X : poly * poly) : itv := ubound V (whole X).

Variables (v e : R).
Hypotheses (HV : inc V v) (HE : inc E e) (HE0 : inc E 0).
Definition dok (X : poly * poly) (x : R) : Prop := exists a b, pol v (fst X) a /\ pol v (snd X) b /\ x = a + e * b.
Lemma whole_ok X x : dok X x -> pol v (whole X) x.
Proof. intros (a & b & Ha & Hb & ->). apply padd_ok; [exact Ha | now apply pscal_ok]. Qed.
Lemma dbound_ok X x : dok X x -> inc (dbound X) x.
Proof. intros H. apply ubound_ok with v; [exact HV | now apply whole_ok]. Qed.
Lemma dok_nai x : dok ([I.nai], []) x.
Proof. exists x, 0. split; [apply pol_const, inc_nai | split; [constructor | ring]]. Qed.
(** a point of the segment from a to a + e b *)
Lemma part_ok X a b c : pol v (fst X) a -> pol v (snd X) b -> Rmin 0 e <= c <= Rmax 0 e -> pol v (whole X) (a + c * b).
Proof. intros Ha Hb Hc. apply padd_ok; [exact Ha|]. apply pscal_ok; [|exact Hb]. now apply inc_between with 0 e. Qed.
Lemma dual_lawful : lawful dual dok.
Proof.
  constructor; cbn [dual aadd amul ascal aconst ainv asqrt aln car].
  - intros X Y x y (a & b & Ha & Hb & ->) (a' & b' & Ha' & Hb' & ->). exists (a + a'), (b + b').
    split; [now apply padd_ok | split; [now apply padd_ok | ring]].
  - intros X Y x y (a & b & Ha & Hb & ->) HY. assert (W := whole_ok _ _ HY). destruct HY as (a' & b' & Ha' & Hb' & ->).
    exists (a * a'), (a * b' + b * (a' + e * b')). unfold dmul. cbn [fst snd].
    split; [now apply umul_ok | split; [apply padd_ok; now apply umul_ok | ring]].
  - intros C c X x Hc (a & b & Ha & Hb & ->). exists (c * a), (c * b). cbn [fst snd].
    split; [now apply pscal_ok | split; [now apply pscal_ok | ring]].
  - intros C c Hc. exists c, 0. split; [now apply pol_const | split; [constructor | ring]].
  - intros X x HX. assert (W := whole_ok _ _ HX). destruct HX as (a & b & Ha & Hb & ->). unfold dinv. cbv zeta.
    assert (Q := uinv_ok V n v HV _ _ Ha).
    match goal with |- context [if ?c then _ else _] => destruct c eqn:G end; [|apply dok_nai].
    assert (N : a <> 0 /\ a + e * b <> 0).
    { apply orb_prop in G. destruct G as [G|G]; apply andb_prop in G; destruct G as [G1 G2].
      - assert (Z := ipos_ok _ _ G1 (ubound_ok V v HV _ _ Ha)). assert (Z' := ipos_ok _ _ G2 (ubound_ok V v HV _ _ W)). lra.
      - assert (Z := ineg_ok _ _ G1 (ubound_ok V v HV _ _ Ha)). assert (Z' := ineg_ok _ _ G2 (ubound_ok V v HV _ _ W)). lra. }
    exists (1 / a), (-1 * (b * (1 / a * (1 / (a + e * b))))). cbn [fst snd]. split; [exact Q|]. split; [|field; tauto].
    apply pscal_ok; [apply inc_Z|]. apply umul_ok; [exact HV | exact Hb|]. apply umul_ok; [exact HV | exact Q|]. now apply uinv_ok.
  - intros X x HX. assert (W := whole_ok _ _ HX). destruct HX as (a & b & Ha & Hb & ->). unfold dsqrt. cbv zeta.
    match goal with |- context [if ?c then _ else _] => destruct c eqn:G end; [|apply dok_nai]. apply andb_prop in G. destruct G as [G1 G2].
    assert (Z := ipos_ok _ _ G1 (ubound_ok V v HV _ _ Ha)). assert (Z' := ipos_ok _ _ G2 (ubound_ok V v HV _ _ W)).
    exists (R_sqrt.sqrt a), (b * (1 / (R_sqrt.sqrt a + R_sqrt.sqrt (a + e * b)))). cbn [fst snd].
    assert (Q := usqrt_ok V n v HV _ _ Ha). split; [exact Q|]. split.
    + apply umul_ok; [exact HV | exact Hb|]. apply uinv_ok; [exact HV|]. apply padd_ok; [exact Q | now apply usqrt_ok].
    + assert (S1 := sqrt_lt_R0 _ Z). assert (S2 := sqrt_lt_R0 _ Z'). assert (E1 := sqrt_sqrt a ltac:(lra)). assert (E2 := sqrt_sqrt (a + e * b) ltac:(lra)).
      revert S1 S2 E1 E2. generalize (R_sqrt.sqrt a) (R_sqrt.sqrt (a + e * b)). intros x y Px Py EX EY.
      replace (e * (b * (1 / (x + y)))) with ((e * b) * (1 / (x + y))) by ring. replace (e * b) with (y * y - x * x) by lra. field. lra.
  - intros X x HX. assert (W := whole_ok _ _ HX). destruct HX as (a & b & Ha & Hb & ->). unfold dln.
    match goal with |- context [if ?c then _ else _] => destruct c eqn:G end; [|apply dok_nai]. apply andb_prop in G. destruct G as [G1 G2].
    assert (Z := ipos_ok _ _ G1 (ubound_ok V v HV _ _ Ha)). assert (Z' := ipos_ok _ _ G2 (ubound_ok V v HV _ _ W)).
    assert (P : forall c, Rmin 0 e <= c <= Rmax 0 e -> 0 < a + c * b).
    { intros c Hc. exact (ipos_ok _ _ G2 (ubound_ok V v HV _ _ (part_ok X a b c Ha Hb Hc))). }
    destruct (MVT_gen (fun c => Rpower.ln (a + c * b)) 0 e (fun c => b / (a + c * b))) as (c & Hc & Q).
    + intros c Hc. assert (0 < a + c * b) by (apply P; lra). auto_derive; [lra | field; lra].
    + intros c Hc. assert (0 < a + c * b) by (apply P; lra). apply derivable_continuous_pt. exists (b / (a + c * b)). apply is_derive_Reals.
      auto_derive; [lra | field; lra].
    + rewrite Rmult_0_l, Rplus_0_r, Rminus_0_r in Q. exists (Rpower.ln a), (b * (1 / (a + c * b))). cbn [fst snd].
      split; [now apply uln_ok|]. split; [|lra].
      apply umul_ok; [exact HV | exact Hb|]. apply uinv_ok; [exact HV|]. now apply part_ok.
Qed.
End Dual.
