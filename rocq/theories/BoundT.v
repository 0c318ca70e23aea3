(** Polynomials in two variables with interval coefficients, truncated to a total degree:
    enough to enclose the composition of two table sums over a box. *)
From Coq Require Import ZArith QArith Reals Lra Lia List Bool.
From Coquelicot Require Import Coquelicot.
From Verif Require Import Py ExactReal RealSum Bound BoundEos BoundF.
Import ListNotations.
Open Scope R_scope.

(** ** One variable *)
Definition poly := list itv.
(** [pol P d y]: for the increment d, the value y is c0 + d (c1 + d (...)) with ck in the k-th interval *)
Inductive pol (d : R) : poly -> R -> Prop :=
| pol_nil : pol d [] 0
| pol_cons C c P y : inc C c -> pol d P y -> pol d (C :: P) (c + d * y).
Lemma pol_eq d P y z : pol d P y -> y = z -> pol d P z. Proof. now intros H <-. Qed.

Fixpoint pev (D : itv) (P : poly) : itv :=
  match P with [] => iZ 0 | [c] => c | c :: P' => iadd c (imul D (pev D P')) end.
Lemma pev_ok D d P y : inc D d -> pol d P y -> inc (pev D P) y.
Proof.
  intros HD H. induction H as [|C c P y Hc H IH]; [apply inc_Z|]. cbn [pev]. destruct H as [|C' c' P y Hc' H].
  - now rewrite Rmult_0_r, Rplus_0_r.
  - apply inc_add; [exact Hc|]. now apply inc_mul.
Qed.
Definition padd : poly -> poly -> poly := zadd iadd.
Lemma padd_ok d P Q y z : pol d P y -> pol d Q z -> pol d (padd P Q) (y + z).
Proof.
  intros H. revert Q z. induction H as [|C c P y Hc H IH]; intros Q z K; [now rewrite Rplus_0_l|].
  destruct K as [|C' c' Q z Hc' K]; cbn [padd zadd].
  - rewrite Rplus_0_r. now constructor.
  - eapply pol_eq; [constructor; [apply inc_add; eassumption | apply IH; exact K]|]. ring.
Qed.
Definition pscal (C : itv) (P : poly) : poly := map (imul C) P.
Lemma pscal_ok d C c P y : inc C c -> pol d P y -> pol d (pscal C P) (c * y).
Proof.
  intros Hc H. induction H as [|C' c' P y Hc' H IH]; cbn [pscal map].
  - rewrite Rmult_0_r. constructor.
  - eapply pol_eq; [constructor; [apply inc_mul; eassumption | exact IH]|]. ring.
Qed.
(** keep the degree at most n, the rest goes into the last coefficient *)
Fixpoint pcut (D : itv) (n : nat) (P : poly) {struct P} : poly :=
  match P with
  | [] => []
  | c :: P' => match n with O => [pev D P] | S n' => c :: pcut D n' P' end
  end.
Lemma pol_const d C c : inc C c -> pol d [C] c.
Proof. intros H. eapply pol_eq; [constructor; [exact H | constructor]|]. ring. Qed.
Lemma pcut_ok D d n P y : inc D d -> pol d P y -> pol d (pcut D n P) y.
Proof.
  intros HD H. revert n. induction H as [|C c P y Hc H IH]; intros n; [constructor|].
  destruct n as [|n]; cbn [pcut].
  - apply pol_const. apply (pev_ok D d); [exact HD|]. now constructor.
  - now constructor.
Qed.
Fixpoint pmul (D : itv) (n : nat) (P Q : poly) {struct P} : poly :=
  match P with
  | [] => []
  | [c] => pscal c (pcut D n Q)
  | c :: P' => match n with
               | O => [imul (pev D P) (pev D Q)]
               | S n' => padd (pscal c (pcut D n Q)) (iZ 0 :: pmul D n' P' Q)
               end
  end.
Lemma pmul_ok D d n P Q y z : inc D d -> pol d P y -> pol d Q z -> pol d (pmul D n P Q) (y * z).
Proof.
  intros HD H K. revert n. induction H as [|C c P y Hc H IH]; intros n; [rewrite Rmult_0_l; constructor|].
  assert (HP : pol d (C :: P) (c + d * y)) by now constructor.
  assert (HQ : forall n, pol d (pscal C (pcut D n Q)) (c * z)) by (intros; apply pscal_ok, pcut_ok; assumption).
  cbn [pmul]. destruct H as [|C' c' P y Hc' H].
  - eapply pol_eq; [apply HQ|]. ring.
  - destruct n as [|n].
    + apply pol_const. apply inc_mul; eapply pev_ok; eassumption.
    + eapply pol_eq; [apply padd_ok; [apply HQ | constructor; [apply inc_Z | apply IH]]|]. ring.
Qed.

(** ** Two variables: a polynomial in u whose coefficients are polynomials in v *)
Definition poly2 := list poly.
Inductive pol2 (u v : R) : poly2 -> R -> Prop :=
| pol2_nil : pol2 u v [] 0
| pol2_cons P c M y : pol v P c -> pol2 u v M y -> pol2 u v (P :: M) (c + u * y).
Lemma pol2_eq u v P y z : pol2 u v P y -> y = z -> pol2 u v P z. Proof. now intros H <-. Qed.

Section Ops.
Variables (U V : itv).

Definition qadd : poly2 -> poly2 -> poly2 := zadd padd.
Definition qscal (C : itv) (M : poly2) : poly2 := map (pscal C) M.
(** the value as a polynomial in v alone, u being only known to lie in U *)
Fixpoint qev (M : poly2) : poly :=
  match M with [] => [] | [P] => P | P :: M' => padd P (pscal U (qev M')) end.
(** total degree at most n *)
Fixpoint qcut (n : nat) (M : poly2) {struct M} : poly2 :=
  match M with
  | [] => []
  | P :: M' => match n with O => [[pev V (qev M)]] | S n' => pcut V n P :: qcut n' M' end
  end.
Fixpoint qrow (n : nat) (P : poly) (M : poly2) {struct M} : poly2 :=
  match M with [] => [] | Q :: M' => pmul V n P Q :: qrow (pred n) P M' end.
Fixpoint qmul (n : nat) (M N : poly2) {struct M} : poly2 :=
  match M with
  | [] => []
  | [P] => qrow n P (qcut n N)
  | P :: M' => match n with
               | O => [[imul (pev V (qev M)) (pev V (qev N))]]
               | S n' => qadd (qrow n P (qcut n N)) ([] :: qmul n' M' N)
               end
  end.
Definition qbound (M : poly2) : itv := pev V (qev M).

Variables (u v : R).
Hypothesis (HU : inc U u) (HV : inc V v).
Notation pol2 := (pol2 u v).
Notation pol := (pol v).

Lemma pol2_const P c : pol P c -> pol2 [P] c.
Proof. intros H. eapply pol2_eq; [constructor; [exact H | constructor]|]. ring. Qed.
Lemma qadd_ok M N y z : pol2 M y -> pol2 N z -> pol2 (qadd M N) (y + z).
Proof.
  intros H. revert N z. induction H as [|P c M y Hc H IH]; intros N z K; [now rewrite Rplus_0_l|].
  destruct K as [|Q e N z He K]; cbn [qadd zadd].
  - rewrite Rplus_0_r. now constructor.
  - eapply pol2_eq; [constructor; [apply padd_ok; eassumption | apply IH; exact K]|]. ring.
Qed.
Lemma qscal_ok C c M y : inc C c -> pol2 M y -> pol2 (qscal C M) (c * y).
Proof.
  intros Hc H. induction H as [|P e M y He H IH]; cbn [qscal map].
  - rewrite Rmult_0_r. constructor.
  - eapply pol2_eq; [constructor; [apply pscal_ok; eassumption | exact IH]|]. ring.
Qed.
Lemma qev_ok M y : pol2 M y -> pol (qev M) y.
Proof.
  intros H. induction H as [|P c M y Hc H IH]; [constructor|]. cbn [qev]. destruct H as [|P' c' M y Hc' H].
  - eapply pol_eq; [exact Hc|]. ring.
  - apply padd_ok; [exact Hc|]. now apply pscal_ok.
Qed.
Lemma qbound_ok M y : pol2 M y -> inc (qbound M) y.
Proof. intros H. apply (pev_ok V v); [exact HV|]. now apply qev_ok. Qed.
Lemma qcut_ok n M y : pol2 M y -> pol2 (qcut n M) y.
Proof.
  intros H. revert n. induction H as [|P c M y Hc H IH]; intros n; [constructor|].
  destruct n as [|n]; cbn [qcut].
  - apply pol2_const, pol_const. apply (qbound_ok (P :: M)). now constructor.
  - constructor; [now apply pcut_ok | apply IH].
Qed.
Lemma qrow_ok n P M c y : pol P c -> pol2 M y -> pol2 (qrow n P M) (c * y).
Proof.
  intros Hc H. revert n. induction H as [|Q e M y He H IH]; intros n; cbn [qrow].
  - rewrite Rmult_0_r. constructor.
  - eapply pol2_eq; [constructor; [apply pmul_ok; eassumption | apply IH]|]. ring.
Qed.
Lemma qmul_ok n M N y z : pol2 M y -> pol2 N z -> pol2 (qmul n M N) (y * z).
Proof.
  intros H K. revert n. induction H as [|P c M y Hc H IH]; intros n; [rewrite Rmult_0_l; constructor|].
  assert (HM : pol2 (P :: M) (c + u * y)) by now constructor.
  assert (HQ : forall n, pol2 (qrow n P (qcut n N)) (c * z)) by (intros; apply qrow_ok; [assumption | now apply qcut_ok]).
  cbn [qmul]. destruct H as [|P' c' M y Hc' H].
  - eapply pol2_eq; [apply HQ|]. ring.
  - destruct n as [|n].
    + apply pol2_const, pol_const. apply inc_mul; now apply qbound_ok.
    + eapply pol2_eq; [apply qadd_ok; [apply HQ | constructor; [constructor | apply IH]]|]. ring.
Qed.

(** ** Composition: sum over i, j of F_ij X^i Y^j with X and Y given as polynomials *)
(** c0 1 + c1 X + c2 X^2 + ..., the powers are shared by the rows *)
Fixpoint combo (C : poly) (Ps : list poly2) : poly2 :=
  match C, Ps with
  | c :: C', M :: Ps' => qadd (qscal c M) (combo C' Ps')
  | _ :: _, [] => [[I.nai]]
  | [], _ => []
  end.
Fixpoint pows (n k : nat) (X M : poly2) : list poly2 :=
  match k with O => [] | S k' => M :: pows n k' X (qmul n M X) end.
Fixpoint horner (n : nat) (F : poly2) (Ps : list poly2) (Y : poly2) : poly2 :=
  match F with
  | [] => []
  | [r] => combo r Ps
  | r :: F' => qadd (combo r Ps) (qmul n Y (horner n F' Ps Y))
  end.
Inductive powers_of (x : R) : R -> list poly2 -> Prop :=
| pow_nil z : powers_of x z []
| pow_cons z M Ps : pol2 M z -> powers_of x (z * x) Ps -> powers_of x z (M :: Ps).
Lemma pows_ok n k X x M z : pol2 X x -> pol2 M z -> powers_of x z (pows n k X M).
Proof.
  intros HX. revert M z; induction k as [|k IH]; intros M z H; cbn [pows]; constructor; [exact H|].
  apply IH. now apply qmul_ok.
Qed.
Lemma combo_ok x C c Ps z : BoundT.pol x C c -> powers_of x z Ps -> pol2 (combo C Ps) (z * c).
Proof.
  intros H. revert Ps z. induction H as [|C c P y Hc H IH]; intros Ps z K.
  - rewrite Rmult_0_r. destruct Ps; constructor.
  - destruct K as [z|z M Ps HM K]; cbn [combo]; [apply pol2_const, pol_const, inc_nai|].
    eapply pol2_eq; [apply qadd_ok; [apply qscal_ok; eassumption | apply IH; exact K]|]. ring.
Qed.
Lemma horner_ok n F x y f Ps Y : BoundT.pol2 y x F f -> powers_of x 1 Ps -> pol2 Y y -> pol2 (horner n F Ps Y) f.
Proof.
  intros H HP HY. induction H as [|r c M z Hc H IH]; [constructor|].
  assert (HC : pol2 (combo r Ps) c) by (eapply pol2_eq; [eapply combo_ok; eassumption | ring]).
  cbn [horner]. destruct H as [|r' c' M z Hc' H].
  - eapply pol2_eq; [exact HC | ring].
  - apply qadd_ok; [exact HC|]. now apply qmul_ok.
Qed.
End Ops.
Definition comp (U V : itv) (n : nat) (F : poly2) (DX DY : itv) (X Y : poly2) : poly2 :=
  horner U V n (qcut DY DX n F) (pows U V n (S n) X [[iZ 1]]) Y.
Lemma comp_ok U V u v n F DX DY X Y x y f : inc U u -> inc V v -> inc DX x -> inc DY y ->
  pol2 y x F f -> pol2 u v X x -> pol2 u v Y y -> pol2 u v (comp U V n F DX DY X Y) f.
Proof.
  intros HU HV HX HY HF KX KY. unfold comp. eapply horner_ok; try eassumption.
  - apply qcut_ok; eassumption.
  - apply pows_ok; try assumption. apply pol2_const, pol_const, inc_Z.
Qed.

(** ** Taylor polynomials of the table sums *)
Fixpoint pnorm (k f : Z) (L : list itv) : poly :=
  match L with [] => [] | c :: L' => idiv c (iZ f) :: pnorm (k + 1) (f * k) L' end.
Lemma pnorm_ok d L w k f : f <> 0%Z -> Forall2 inc L w -> pol d (pnorm (Z.of_nat (S k)) f L) (evT k w d / IZR f).
Proof.
  intros Hf H. revert k f Hf. induction H as [|C c L w Hc H IH]; intros k f Hf; cbn [pnorm evT].
  - eapply pol_eq; [constructor|]. unfold Rdiv. ring.
  - eapply pol_eq; [constructor|].
    + apply inc_div; [exact Hc | apply inc_Z | now apply IZR_neq].
    + replace (Z.of_nat (S k) + 1)%Z with (Z.of_nat (S (S k))) by lia. apply IH. nia.
    + rewrite mult_IZR. field. split; apply IZR_neq; lia.
Qed.
Fixpoint qnorm (k f : Z) (M : list (list itv)) : poly2 :=
  match M with [] => [] | r :: M' => pscal (idiv (iZ 1) (iZ f)) (pnorm 1 1 r) :: qnorm (k + 1) (f * k) M' end.
Lemma qnorm_ok u v M W k f : f <> 0%Z -> Forall2 (Forall2 inc) M W ->
  pol2 u v (qnorm (Z.of_nat (S k)) f M) (evT k (map (fun r => evT 0 r v) W) u / IZR f).
Proof.
  intros Hf H. revert k f Hf. induction H as [|r w M W Hr H IH]; intros k f Hf; cbn [qnorm evT map].
  - eapply pol2_eq; [constructor|]. unfold Rdiv. ring.
  - eapply pol2_eq; [constructor|].
    + apply pscal_ok; [apply inc_div; [apply inc_Z | apply inc_Z | now apply IZR_neq]|].
      apply (pnorm_ok v r w 0 1); [easy | exact Hr].
    + replace (Z.of_nat (S k) + 1)%Z with (Z.of_nat (S (S k))) by lia. apply IH. nia.
    + rewrite mult_IZR. field. split; apply IZR_neq; lia.
Qed.
Definition sub2 (i j : nat) (M : list (list itv)) : poly2 := qnorm 1 1 (map (skipn j) (skipn i M)).
Lemma sub2_ok u v M i j y : expands2 M i j u v y -> pol2 u v (sub2 i j M) y.
Proof.
  intros (W & H & E). eapply pol2_eq; [apply (qnorm_ok u v _ W 0 1); [easy | exact H]|].
  fold (ev2 W u v). rewrite E. field.
Qed.
Lemma tay_ok N x tab a0 a b0 b i j : boxed x a0 a b0 b -> (i <= N)%nat -> (j <= N)%nat ->
  pol2 (a - a0) (b - b0) (sub2 i j (matrix N x (grp tab) [])) (S2 tab i j a b).
Proof.
  intros H Hi Hj. apply sub2_ok. rewrite <- (Rplus_0_l (S2 tab i j a b)).
  apply matrix_ok; try assumption; [apply grp_ok | apply expands2_nil].
Qed.
Lemma vec_pol N X X0 V e x0 x : 0 < x0 -> 0 < x -> inc X0 x0 -> inc V (1 / x0) -> inc X x0 -> inc X x ->
  pol (x - x0) (pnorm 1 1 (vec N X X0 V e)) (powerRZ x e).
Proof.
  intros P0 P H0 HV H1 H2. destruct (vec_ok N X X0 V e 0 x0 x P0 P H0 HV H1 H2 ltac:(lia)) as (w & H & E).
  eapply pol_eq; [apply (pnorm_ok _ _ w 0 1); [easy | exact H]|].
  rewrite E. unfold pw. cbn [ff Z.of_nat]. rewrite Z.sub_0_r. field.
Qed.

(** ** Rearranged tables *)
Definition etab := list (dec * (Z * Z)).
Definition dopp (d : dec) : dec := {| dec_m := - dec_m d; dec_e := dec_e d |}.
Lemma D_opp d : D (dopp d) = - D d.
Proof. unfold D, dopp. cbn [dec_m dec_e]. destruct (dec_e d); rewrite ?mult_IZR, ?opp_IZR; unfold Rdiv; ring. Qed.
Fixpoint ins (y : dec * (Z * Z)) (l : etab) : etab :=
  match l with [] => [y] | z :: l' => if (fst (snd y) <=? fst (snd z))%Z then y :: l else z :: ins y l' end.
Fixpoint sortt (l : etab) : etab := match l with [] => [] | y :: l' => ins y (sortt l') end.
Lemma ins_sum (f : dec * (Z * Z) -> R) y l : rsum f (ins y l) = f y + rsum f l.
Proof.
  induction l as [|z l IH]; [reflexivity|]. cbn [ins]. destruct (_ <=? _)%Z; [reflexivity|]. cbn [rsum]. rewrite IH. ring.
Qed.
Lemma sortt_sum (f : dec * (Z * Z) -> R) l : rsum f (sortt l) = rsum f l.
Proof. induction l as [|y l IH]; [reflexivity|]. cbn [sortt rsum]. now rewrite ins_sum, IH. Qed.
(** Exchange the variables; [f1], [f2] change the signs of the first and of the second *)
Definition prep1 (f1 f2 : bool) (y : dec * (Z * Z)) : dec * (Z * Z) :=
  let '(d, (i, j)) := y in (if xorb (f1 && Z.odd i) (f2 && Z.odd j) then dopp d else d, (j, i)).
Definition prep (f1 f2 : bool) (t : etab) : etab := sortt (map (prep1 f1 f2) t).
Definition sg (f : bool) (x : R) : R := if f then - x else x.
Lemma pm1_odd e : powerRZ (-1) e = if Z.odd e then -1 else 1.
Proof.
  pattern e. apply Z.bi_induction.
  - now intros x y ->.
  - reflexivity.
  - intros n. rewrite Z.odd_succ, <- Z.negb_odd, <- Z.add_1_r, powerRZ_add by lra.
    change (powerRZ (-1) 1) with (-1 * 1). destruct (Z.odd n); cbn [negb]; split; intros; lra.
Qed.
Lemma powerRZ_sg f x e : powerRZ (sg f x) e = (if f && Z.odd e then -1 else 1) * powerRZ x e.
Proof.
  destruct f; cbn [sg andb]; [|ring]. replace (- x) with (-1 * x) by ring. now rewrite powerRZ_mult, pm1_odd.
Qed.
Lemma prep_ok f1 f2 t a b : S2 (prep f1 f2 t) 0 0 (sg f2 b) (sg f1 a) = S2 t 0 0 a b.
Proof.
  unfold S2, prep. rewrite sortt_sum. induction t as [|[d [i j]] t IH]; [reflexivity|].
  cbn [map rsum]. rewrite IH. f_equal. unfold tm, prep1. cbn [fst snd ff Z.of_nat]. rewrite !Z.sub_0_r, !powerRZ_sg.
  destruct (f1 && Z.odd i), (f2 && Z.odd j); cbn [xorb]; rewrite ?D_opp; ring.
Qed.
(** The first variable given as a fourth power *)
Definition quad (t : etab) : etab := map (fun y => (fst y, (4 * fst (snd y), snd (snd y))%Z)) t.
Lemma powerRZ_quad q e : 0 < q -> powerRZ (q ^ 4) e = powerRZ q (4 * e).
Proof.
  intros H. replace (4 * e)%Z with (e + e + (e + e))%Z by lia. rewrite !powerRZ_add by lra.
  replace (q ^ 4) with (q * q * (q * q)) by ring. now rewrite !powerRZ_mult.
Qed.
Lemma quad_ok t j q b : 0 < q -> S2 (quad t) 0 j q b = S2 t 0 j (q ^ 4) b.
Proof.
  intros H. unfold S2. induction t as [|[d [i k]] t IH]; [reflexivity|].
  cbn [quad map rsum]. fold (quad t). rewrite IH. f_equal. unfold tm. cbn [fst snd ff Z.of_nat]. rewrite !Z.sub_0_r.
  now rewrite powerRZ_quad.
Qed.

(** ** A table sum of two polynomials *)
Definition compose (U V : itv) (n : nat) (f : gtab) (XI YI : itv) (X Y : poly2) : poly2 :=
  let y := mk YI XI in
  if good y then
    comp U V n (sub2 0 0 (matrix n y f [])) (isub XI (bB0 y)) (isub YI (bA0 y))
      (qadd X [[iopp (bB0 y)]]) (qadd Y [[iopp (bA0 y)]])
  else [[I.nai]].
Lemma good_boxed A B a b : good (mk A B) = true -> inc A a -> inc B b -> exists a0 b0, boxed (mk A B) a0 a b0 b.
Proof.
  intros G HA HB. unfold good in G. rewrite !andb_true_iff in G. destruct G as [[[GA GB] SA] SB]. cbn in GA, GB, SA, SB.
  destruct (imid_in A) as [a0 Ha0]. destruct (imid_in B) as [b0 Hb0]. exists a0, b0.
  assert (Ka : inc A a0) by (eapply inc_subset; eauto).
  assert (Kb : inc B b0) by (eapply inc_subset; eauto).
  assert (P1 := ipos_ok A a GA HA). assert (P2 := ipos_ok A a0 GA Ka).
  assert (P3 := ipos_ok B b GB HB). assert (P4 := ipos_ok B b0 GB Kb).
  constructor; cbn [mk bA bA0 bIA bB bB0 bIB]; auto; (apply inc_div; [apply (inc_Z 1) | assumption | lra]).
Qed.
Lemma pol2_shift u v X x C c : pol2 u v X x -> inc C c -> pol2 u v (qadd X [[iopp C]]) (x - c).
Proof. intros H K. apply qadd_ok; [exact H|]. apply pol2_const, pol_const. now apply inc_opp. Qed.
Lemma compose_ok U V u v n tab XI YI X Y x y : inc U u -> inc V v -> inc XI x -> inc YI y ->
  pol2 u v X x -> pol2 u v Y y -> pol2 u v (compose U V n (grp tab) XI YI X Y) (S2 tab 0 0 y x).
Proof.
  intros HU HV HX HY KX KY. unfold compose. destruct (good (mk YI XI)) eqn:G; [|apply pol2_const, pol_const, inc_nai].
  destruct (good_boxed _ _ _ _ G HY HX) as (y0 & x0 & B).
  assert (IX := in_B0 _ _ _ _ _ B). assert (IY := in_A0 _ _ _ _ _ B).
  eapply comp_ok; try eassumption.
  - apply inc_sub; eassumption.
  - apply inc_sub; eassumption.
  - apply tay_ok; [exact B | lia | lia].
  - apply pol2_shift; assumption.
  - apply pol2_shift; assumption.
Qed.

(** ** Logarithms *)
Definition lnd (k : nat) (x : R) : R := match k with O => Rpower.ln x | S k' => pw (-1) k' x end.
Lemma lnd_derive k x : 0 < x -> is_derive (lnd k) x (lnd (S k) x).
Proof.
  intros H. destruct k as [|k]; cbn [lnd].
  - eapply is_derive_eq; [apply is_derive_Reals, derivable_pt_lim_ln; exact H|].
    unfold pw. change (-1 - Z.of_nat 0)%Z with (-1)%Z. cbn [ff powerRZ]. change (Pos.to_nat 1) with 1%nat.
    rewrite pow_1. ring.
  - apply pw_derive. lra.
Qed.
Lemma lnd_Derive_n k x : 0 < x -> Derive_n Rpower.ln k x = lnd k x.
Proof.
  revert x; induction k as [|k IH]; intros x Hx; [reflexivity|]. cbn [Derive_n].
  rewrite (Derive_ext_loc _ (lnd k)) by (apply pos_locally; assumption).
  now apply is_derive_unique, lnd_derive.
Qed.
Lemma lnd_ex k x : 0 < x -> ex_derive_n Rpower.ln k x.
Proof.
  destruct k as [|k]; intros Hx; [exact Logic.I|]. cbn [ex_derive_n].
  apply ex_derive_ext_loc with (lnd k); [|eexists; now apply lnd_derive].
  apply pos_locally; [assumption|]. intros y Hy. symmetry. now apply lnd_Derive_n.
Qed.
Lemma ln_taylor n x0 x : 0 < x0 -> 0 < x ->
  exists xi, Rmin x0 x <= xi <= Rmax x0 x /\
  Rpower.ln x = evT 0 (map (fun k => lnd k x0) (seq 0 (S n)) ++ [lnd (S n) xi]) (x - x0).
Proof.
  intros H0 Hx. destruct (Rtotal_order x0 x) as [L | [E | G]].
  - destruct (Taylor_Lagrange Rpower.ln n x0 x L) as (z & Hz & E).
    { intros t Ht k _. apply lnd_ex. lra. }
    exists z. split; [rewrite Rmin_left, Rmax_right; lra|].
    rewrite E, evT_sum. f_equal.
    + apply sum_eq. intros i _. now rewrite lnd_Derive_n.
    + now rewrite lnd_Derive_n by lra.
  - subst x. exists x0. split; [rewrite Rmin_left, Rmax_left; lra|].
    replace (x0 - x0) with 0 by ring. cbn [seq map app]. now rewrite evT_0.
  - assert (LL : forall t, - x0 <= t <= - x -> locally (- t)
       (fun y => forall k, (k <= S n)%nat -> ex_derive_n Rpower.ln k y)).
    { intros t Ht. apply pos_locally; [lra|]. intros y Hy k _. now apply lnd_ex. }
    assert (L' : forall t, - x0 <= t <= - x -> forall k, (k <= S n)%nat -> locally (- t)
       (fun y => forall j, (j <= k)%nat -> ex_derive_n Rpower.ln j y)).
    { intros t Ht k Hk. generalize (LL t Ht). apply filter_imp. intros y H j Hj. apply H. lia. }
    destruct (Taylor_Lagrange (fun t => Rpower.ln (- t)) n (- x0) (- x)) as (z & Hz & E).
    { lra. }
    { intros t Ht k Hk. apply (ex_derive_n_comp_opp Rpower.ln). now apply L'. }
    exists (- z). split; [rewrite Rmin_right, Rmax_left; lra|].
    rewrite Ropp_involutive in E. rewrite E, evT_sum.
    replace (- x - - x0) with (-1 * (x - x0)) by ring.
    f_equal.
    + apply sum_eq. intros i Hi.
      rewrite (Derive_n_comp_opp Rpower.ln) by (apply L'; [lra | lia]).
      rewrite Ropp_involutive, lnd_Derive_n by lra.
      rewrite Rpow_mult_distr. unfold Rdiv.
      replace ((-1) ^ i * (x - x0) ^ i * / INR (fact i) * ((-1) ^ i * lnd i x0))
        with (((-1) ^ i * (-1) ^ i) * ((x - x0) ^ i * / INR (fact i) * lnd i x0)) by ring.
      rewrite <- Rpow_mult_distr. replace (-1 * -1) with 1 by ring. rewrite pow1. ring.
    + rewrite (Derive_n_comp_opp Rpower.ln) by (apply L'; [lra | lia]).
      rewrite lnd_Derive_n by lra.
      rewrite Rpow_mult_distr. unfold Rdiv.
      replace ((-1) ^ S n * (x - x0) ^ S n * / INR (fact (S n)) * ((-1) ^ S n * lnd (S n) (- z)))
        with (((-1) ^ S n * (-1) ^ S n) * ((x - x0) ^ S n * / INR (fact (S n)) * lnd (S n) (- z))) by ring.
      rewrite <- Rpow_mult_distr. replace (-1 * -1) with 1 by ring. rewrite pow1. ring.
Qed.
Definition lnv (n : nat) (X X0 V : itv) : poly := pnorm 1 1 (iln X0 :: vec n X X0 V (-1)).
Lemma lnv_ok n X X0 V x0 x : 0 < x0 -> 0 < x -> inc X0 x0 -> inc V (1 / x0) -> inc X x0 -> inc X x ->
  pol (x - x0) (lnv n X X0 V) (Rpower.ln x).
Proof.
  intros P0 P H0 HV H1 H2. destruct (ln_taylor n x0 x P0 P) as (xi & Hxi & E).
  rewrite E.
  eapply pol_eq; [eapply (pnorm_ok _ _ _ 0 1) | unfold Rdiv; rewrite Rinv_1, Rmult_1_r; reflexivity]; [easy|].
  assert (Q : 0 < xi) by (revert Hxi; unfold Rmin; destruct Rle_dec; lra).
  cbn [seq map app]. constructor; [now apply inc_ln|].
  rewrite <- seq_shift, map_map. cbn [lnd]. apply Forall2_app.
  - apply (ptv_ok n (-1) 0); [lra | exact HV |]. unfold pw. cbn [ff Z.of_nat]. rewrite Z.sub_0_r, Rmult_1_l. apply inc_pow; [exact H0 | lra].
  - constructor; [|constructor]. apply bxv_ok; [lra|]. now apply inc_between with x0 x.
Qed.

(** Sums in one variable *)
Definition itab1 (t : list (dec * Z)) : list (itv * Z) := map (fun y => (iD (fst y), snd y)) t.
Lemma lval_S1 j b t : lval j b (itab1 t) (S1 t j b).
Proof.
  unfold S1. induction t as [|[d J] t IH]; [constructor|]. cbn [itab1 map rsum fst snd]. fold (itab1 t).
  replace (tm1 j b (d, J)) with (D d * pw J j b) by (unfold tm1, pw; cbn [fst snd]; ring).
  constructor; [apply inc_D | exact IH].
Qed.
Definition S1v (n j : nat) (t : list (itv * Z)) (X X0 V : itv) : list itv := pnorm 1 1 (skipn j (inner n X X0 V t [])).
Lemma S1v_ok n j t X X0 V x0 x : (j <= n)%nat -> 0 < x0 -> 0 < x -> inc X0 x0 -> inc V (1 / x0) -> inc X x0 -> inc X x ->
  pol (x - x0) (S1v n j (itab1 t) X X0 V) (S1 t j x).
Proof.
  intros Hj P0 P H0 HV H1 H2. unfold S1v.
  assert (E : expands (inner n X X0 V (itab1 t) []) j (x - x0) (0 + S1 t j x)).
  { generalize (lval_S1 j x t) (expands_nil j (x - x0)). generalize (S1 t j x) as y. generalize 0 as z. generalize (@nil itv) as acc.
    intros acc z y HL. revert acc z. induction HL as [|C c J l y Hc HL IH]; intros acc z Ha.
    - now rewrite Rplus_0_r.
    - cbn [inner]. rewrite <- Rplus_assoc. apply IH. apply expands_add; [exact Ha|]. apply expands_scal; [exact Hc|].
      now apply vec_ok. }
  destruct E as (w & H & E). eapply pol_eq; [apply (pnorm_ok _ _ w 0 1); [easy | exact H]|]. rewrite E. field.
Qed.
