(** Polynomials in one variable with interval coefficients: quotients, square roots,
    exponentials, logarithms and table sums of functions along a curve. *)
From Coq Require Import ZArith QArith Reals Lra Lia List Bool.
From Coquelicot Require Import Coquelicot.
From Verif Require Import Py ExactReal RealSum Bound BoundEos BoundF BoundT.
Import ListNotations.
Open Scope R_scope.

Definition iexp : itv -> itv := I.exp pr.
Lemma inc_exp X x : inc X x -> inc (iexp X) (Rtrigo_def.exp x).
Proof. intros H. exact (I.exp_correct pr X (Interval.Real.Xreal.Xreal x) H). Qed.

Section Curve.
Variables (V : itv) (n : nat).

Definition umul : poly -> poly -> poly := pmul V n.
Definition ubound : poly -> itv := pev V.

(** ** Quotients and square roots: any approximation, corrected by its defect *)
(** the sum of x_i q_(k-i) for i = 1 ... k, [q] given last coefficient first *)
Fixpoint conv (x q : poly) : itv :=
  match x, q with a :: x', b :: q' => iadd (imul a b) (conv x' q') | _, _ => iZ 0 end.
Fixpoint inv_coefs (k : nat) (v0 : itv) (xs q : poly) : poly :=
  match k with O => q | S k' => inv_coefs k' v0 xs (imid (iopp (imul v0 (conv xs q))) :: q) end.
Definition uinv (X : poly) : poly :=
  match X with
  | [] => [I.nai]
  | x0 :: xs =>
    let v0 := imid (idiv (iZ 1) (imid x0)) in
    let q := map imid (rev (inv_coefs n v0 xs [v0])) in
    let r := padd [iZ 1] (pscal (iZ (-1)) (umul X q)) in
    let B := ubound X in
    if ipos B then padd q [idiv (ubound r) B] else
    if ineg B then padd q [idiv (ubound r) B] else [I.nai]
  end.
Fixpoint sqrt_coefs (k : nat) (v0 : itv) (xs q : poly) : poly :=
  match k with
  | O => q
  | S k' =>
    match xs with
    | [] => sqrt_coefs k' v0 [] (imid (iopp (imul v0 (conv (tl (rev q)) q))) :: q)
    | a :: xs' => sqrt_coefs k' v0 xs' (imid (imul v0 (isub a (conv (tl (rev q)) q))) :: q)
    end
  end.
Definition usqrt (X : poly) : poly :=
  match X with
  | [] => [I.nai]
  | x0 :: xs =>
    let y0 := imid (isqrt (imid x0)) in
    let q := map imid (rev (sqrt_coefs n (imid (idiv (iQ 0.5) y0)) xs [y0])) in
    let r := padd X (pscal (iZ (-1)) (umul q q)) in
    let B := iadd (isqrt (ubound X)) (ubound q) in
    if ipos (ubound X) && ipos (ubound q) then padd q [idiv (ubound r) B] else [I.nai]
  end.


(** ** Composition with a polynomial of one variable *)
Fixpoint uhorner (F X : poly) : poly :=
  match F with [] => [] | [c] => [c] | c :: F' => padd [c] (umul X (uhorner F' X)) end.
Definition about (f : itv -> itv -> poly) (X : poly) : poly :=
  let B := ubound X in let x0 := imid B in
  uhorner (f B x0) (padd X [iopp x0]).
Definition uln (X : poly) : poly :=
  if ipos (ubound X) then about (fun B x0 => if ipos x0 && I.subset x0 B then lnv n B x0 (idiv (iZ 1) x0) else [I.nai]) X else [I.nai].
Definition uexp (X : poly) : poly :=
  about (fun B x0 => if I.subset x0 B then pnorm 1 1 (repeat (iexp x0) (S n) ++ [iexp B]) else [I.nai]) X.

(** ** Table sums *)
Fixpoint upows (k : nat) (X M : poly) : list poly :=
  match k with O => [] | S k' => M :: upows k' X (umul M X) end.
Definition getp (pos neg : list poly) (e : Z) : poly :=
  match e with
  | Z0 => [iZ 1]
  | Zpos k => nth (Pos.to_nat k) pos [I.nai]
  | Zneg k => nth (Pos.to_nat k) neg [I.nai]
  end.
Definition ptab := list (itv * (Z * Z)).
Definition top (f : Z * Z -> Z) (t : ptab) : nat := Z.to_nat (fold_left (fun a y => Z.max a (f (snd y))) t 0%Z).
Definition bot (f : Z * Z -> Z) (t : ptab) : nat := Z.to_nat (- fold_left (fun a y => Z.min a (f (snd y))) t 0%Z).
Definition negs (k : nat) (X : poly) : list poly := match k with O => [] | _ => upows (S k) (uinv X) [iZ 1] end.
Fixpoint usum (ap an bp bn : list poly) (t : ptab) (acc : poly) : poly :=
  match t with
  | [] => acc
  | (c, (i, j)) :: t' => usum ap an bp bn t' (padd acc (pscal c (umul (getp ap an i) (getp bp bn j))))
  end.
Definition utab (t : ptab) : poly -> poly -> poly :=
  let k1 := S (top fst t) in let k2 := bot fst t in let k3 := S (top snd t) in let k4 := bot snd t in
  fun X Y => usum (upows k1 X [iZ 1]) (negs k2 X) (upows k3 Y [iZ 1]) (negs k4 Y) t [].
End Curve.

(** coefficient and exponents after i and j derivatives *)
Fixpoint ffz (k : Z) (n : nat) : Z := match n with O => 1%Z | S n' => (k * ffz (k - 1) n')%Z end.
Definition dterm (i j : nat) (y : dec * (Z * Z)) : list (itv * (Z * Z)) :=
  let '(d, (m, k)) := y in
  let f := (ffz m i * ffz k j)%Z in
  if (f =? 0)%Z then [] else [(imul (iD d) (iZ f), (m - Z.of_nat i, k - Z.of_nat j)%Z)].
Definition dtab (i j : nat) (t : list (dec * (Z * Z))) : ptab := flat_map (dterm i j) t.
Definition stab (j : nat) (t : list (dec * Z)) : ptab := dtab 0 j (map (fun y => (fst y, (0%Z, snd y))) t).

(** ** Correctness *)
Lemma pol_some d L : exists y, pol d (map imid L) y.
Proof.
  induction L as [|C L [y H]]; [exists 0; constructor|]. destruct (imid_in C) as [c Hc].
  exists (c + d * y). now constructor.
Qed.
Lemma taylor_exp n x0 x : exists xi, Rmin x0 x <= xi <= Rmax x0 x /\
  Rtrigo_def.exp x = evT 0 (map (fun _ => Rtrigo_def.exp x0) (seq 0 (S n)) ++ [Rtrigo_def.exp xi]) (x - x0).
Proof.
  assert (DE : forall k y, Derive_n Rtrigo_def.exp k y = Rtrigo_def.exp y).
  { induction k as [|k IH]; intros y; [reflexivity|]. cbn [Derive_n].
    rewrite (Derive_ext _ Rtrigo_def.exp) by exact IH. apply is_derive_unique, is_derive_exp. }
  assert (EX : forall k y, ex_derive_n Rtrigo_def.exp k y).
  { intros [|k] y; [exact Logic.I|]. cbn [ex_derive_n]. apply ex_derive_ext with Rtrigo_def.exp; [intros; now rewrite DE|].
    eexists. apply is_derive_exp. }
  destruct (Rtotal_order x0 x) as [L | [E | G]].
  - destruct (Taylor_Lagrange Rtrigo_def.exp n x0 x L) as (z & Hz & E); [intros; apply EX|].
    exists z. split; [rewrite Rmin_left, Rmax_right; lra|]. rewrite E, evT_sum. f_equal; [|now rewrite DE].
    apply sum_eq. intros i _. now rewrite DE.
  - subst x. exists x0. split; [rewrite Rmin_left, Rmax_left; lra|].
    replace (x0 - x0) with 0 by ring. cbn [seq map app]. now rewrite evT_0.
  - assert (L' : forall t k, locally (- t) (fun y => forall j, (j <= k)%nat -> ex_derive_n Rtrigo_def.exp j y)).
    { intros t k. apply filter_forall. intros y j _. apply EX. }
    destruct (Taylor_Lagrange (fun t => Rtrigo_def.exp (- t)) n (- x0) (- x)) as (z & Hz & E).
    { lra. }
    { intros t Ht k Hk. apply (ex_derive_n_comp_opp Rtrigo_def.exp). apply L'. }
    exists (- z). split; [rewrite Rmin_right, Rmax_left; lra|].
    rewrite Ropp_involutive in E. rewrite E, evT_sum.
    replace (- x - - x0) with (-1 * (x - x0)) by ring.
    f_equal.
    + apply sum_eq. intros i Hi.
      rewrite (Derive_n_comp_opp Rtrigo_def.exp) by apply L'.
      rewrite Ropp_involutive, DE. rewrite Rpow_mult_distr. unfold Rdiv.
      replace ((-1) ^ i * (x - x0) ^ i * / INR (fact i) * ((-1) ^ i * Rtrigo_def.exp x0))
        with (((-1) ^ i * (-1) ^ i) * ((x - x0) ^ i * / INR (fact i) * Rtrigo_def.exp x0)) by ring.
      rewrite <- Rpow_mult_distr. replace (-1 * -1) with 1 by ring. rewrite pow1. ring.
    + rewrite (Derive_n_comp_opp Rtrigo_def.exp) by apply L'.
      rewrite DE. rewrite Rpow_mult_distr. unfold Rdiv.
      replace ((-1) ^ S n * (x - x0) ^ S n * / INR (fact (S n)) * ((-1) ^ S n * Rtrigo_def.exp (- z)))
        with (((-1) ^ S n * (-1) ^ S n) * ((x - x0) ^ S n * / INR (fact (S n)) * Rtrigo_def.exp (- z))) by ring.
      rewrite <- Rpow_mult_distr. replace (-1 * -1) with 1 by ring. rewrite pow1. ring.
Qed.

Section Curve_ok.
Variables (V : itv) (n : nat) (v : R).
Hypothesis HV : inc V v.
Notation pol := (pol v).
Lemma umul_ok P Q y z : pol P y -> pol Q z -> pol (umul V n P Q) (y * z).
Proof. now apply pmul_ok. Qed.
Lemma ubound_ok P y : pol P y -> inc (ubound V P) y.
Proof. now apply pev_ok. Qed.
Lemma pol_nai y : pol [I.nai] y.
Proof. apply pol_const, inc_nai. Qed.
Lemma padd_const_ok P C y c : pol P y -> inc C c -> pol (padd P [C]) (y + c).
Proof. intros H K. apply padd_ok; [exact H | now apply pol_const]. Qed.
Lemma uinv_ok X x : pol X x -> pol (uinv V n X) (1 / x).
Proof.
  intros H. unfold uinv. destruct X as [|x0 xs]; [apply pol_nai|]. cbv zeta.
  generalize (rev (inv_coefs n (imid (idiv (iZ 1) (imid x0))) xs [imid (idiv (iZ 1) (imid x0))])) as L. intros L.
  destruct (pol_some v L) as [y Hy]. assert (HB := ubound_ok _ _ H).
  assert (Hr := ubound_ok _ _ (padd_ok _ _ _ _ _ (pol_const v _ _ (inc_Z 1)) (pscal_ok v _ _ _ _ (inc_Z (-1)) (umul_ok _ _ _ _ H Hy)))).
  assert (K : x <> 0 -> pol (padd (map imid L) [idiv (ubound V (padd [iZ 1] (pscal (iZ (-1)) (umul V n (x0 :: xs) (map imid L))))) (ubound V (x0 :: xs))]) (1 / x)).
  { intros N. eapply pol_eq; [apply padd_const_ok; [exact Hy | apply inc_div; [exact Hr | exact HB | exact N]]|]. field. exact N. }
  destruct (ipos _) eqn:E; [apply K; assert (Z := ipos_ok _ _ E HB); lra|].
  destruct (ineg _) eqn:E'; [apply K; assert (Z := ineg_ok _ _ E' HB); lra|]. apply pol_nai.
Qed.
Lemma usqrt_ok X x : pol X x -> pol (usqrt V n X) (R_sqrt.sqrt x).
Proof.
  intros H. unfold usqrt. destruct X as [|x0 xs]; [apply pol_nai|]. cbv zeta.
  match goal with |- context [map imid ?M] => generalize M as L end. intros L.
  destruct (pol_some v L) as [y Hy]. assert (HB := ubound_ok _ _ H). assert (HQ := ubound_ok _ _ Hy).
  assert (Hr := ubound_ok _ _ (padd_ok _ _ _ _ _ H (pscal_ok v _ _ _ _ (inc_Z (-1)) (umul_ok _ _ _ _ Hy Hy)))).
  destruct (ipos (ubound V (x0 :: xs))) eqn:E; [|apply pol_nai]. destruct (ipos (ubound V (map imid L))) eqn:E'; [|apply pol_nai].
  cbn [andb]. assert (Px := ipos_ok _ _ E HB). assert (Py := ipos_ok _ _ E' HQ).
  assert (Ps := sqrt_lt_R0 x Px).
  eapply pol_eq; [apply padd_const_ok; [exact Hy | apply inc_div; [exact Hr | apply inc_add; [apply inc_sqrt, HB | exact HQ] | lra]]|].
  assert (Sq := sqrt_sqrt x ltac:(lra)). revert Sq Ps. generalize (R_sqrt.sqrt x) as r. intros r <- Ps. field. lra.
Qed.
Lemma uhorner_ok F X x f : BoundT.pol x F f -> pol X x -> pol (uhorner V n F X) f.
Proof.
  intros H HX. induction H as [|C c F y Hc H IH]; [constructor|]. cbn [uhorner]. destruct H as [|C' c' F y Hc' H].
  - eapply pol_eq; [apply pol_const; exact Hc|]. ring.
  - apply padd_ok; [now apply pol_const|]. now apply umul_ok.
Qed.
Lemma about_ok f g X x : pol X x ->
  (forall B x0 z, inc B x -> inc x0 z -> BoundT.pol (x - z) (f B x0) (g x)) -> pol (about V n f X) (g x).
Proof.
  intros H K. unfold about. cbv zeta. assert (HB := ubound_ok _ _ H).
  destruct (imid_in (ubound V X)) as [z Hz]. apply uhorner_ok with (x - z); [now apply K|].
  apply padd_const_ok; [exact H | now apply inc_opp].
Qed.
Lemma uln_ok X x : pol X x -> pol (uln V n X) (Rpower.ln x).
Proof.
  intros H. unfold uln. destruct (ipos _) eqn:E; [|apply pol_nai]. assert (Px := ipos_ok _ _ E (ubound_ok _ _ H)).
  apply (about_ok _ Rpower.ln); [exact H|]. intros B x0 z HB Hz. destruct (ipos x0) eqn:E0; [|apply pol_const, inc_nai].
  destruct (I.subset x0 B) eqn:Sb; [|apply pol_const, inc_nai]. cbn [andb]. assert (Pz := ipos_ok _ _ E0 Hz).
  apply lnv_ok; auto.
  - apply inc_div; [apply inc_Z | exact Hz | lra].
  - now apply inc_subset with x0.
Qed.
Lemma uexp_ok X x : pol X x -> pol (uexp V n X) (Rtrigo_def.exp x).
Proof.
  intros H. unfold uexp. apply (about_ok _ Rtrigo_def.exp); [exact H|]. intros B x0 z HB Hz.
  destruct (I.subset x0 B) eqn:Sb; [|apply pol_const, inc_nai].
  destruct (taylor_exp n z x) as (xi & Hxi & E). rewrite E.
  eapply pol_eq; [eapply (pnorm_ok _ _ _ 0 1) | unfold Rdiv; rewrite Rinv_1, Rmult_1_r; reflexivity]; [easy|].
  apply Forall2_app.
  - generalize (S n) at 1 2 as m. intros m. generalize 0%nat as k. induction m as [|m IH]; intros k; cbn [repeat seq map]; constructor; [now apply inc_exp | apply IH].
  - constructor; [|constructor]. apply inc_exp. apply inc_between with z x; [now apply inc_subset with x0 | exact HB | exact Hxi].
Qed.

Lemma upows_ok X x : pol X x -> forall k M z, pol M z -> forall e, (e < k)%nat -> pol (nth e (upows V n k X M) [I.nai]) (z * x ^ e).
Proof.
  intros HX k. induction k as [|k IH]; intros M z HM e He; [lia|]. cbn [upows].
  destruct e as [|e]; cbn [nth]; [eapply pol_eq; [exact HM | ring]|].
  eapply pol_eq; [apply IH; [apply umul_ok; eassumption | lia]|]. cbn [pow]. ring.
Qed.
(** the powers of x, positive and negative, as far as they were computed *)
Definition powtab (x : R) (ps ns : list poly) : Prop :=
  (forall e, pol (nth e ps [I.nai]) (x ^ e)) /\ (forall e, pol (nth e ns [I.nai]) ((1 / x) ^ e)).
Lemma upows_all X x k : pol X x -> forall e, pol (nth e (upows V n k X [iZ 1]) [I.nai]) (x ^ e).
Proof.
  intros HX e. destruct (Nat.lt_ge_cases e k) as [L|L].
  - eapply pol_eq; [apply upows_ok; [exact HX | apply pol_const, inc_Z | exact L]|]. ring.
  - rewrite nth_overflow; [apply pol_nai|].
    assert (Hl : forall k M, length (upows V n k X M) = k) by (induction k0 as [|k0 IH]; intros M; cbn [upows length]; [|rewrite IH]; reflexivity).
    now rewrite Hl.
Qed.
Lemma negs_all X x k : pol X x -> forall e, pol (nth e (negs V n k X) [I.nai]) ((1 / x) ^ e).
Proof.
  intros HX e. unfold negs. destruct k as [|k]; [destruct e; apply pol_nai|].
  apply upows_all. now apply uinv_ok.
Qed.
Lemma getp_ok x ps ns e : powtab x ps ns -> pol (getp ps ns e) (powerRZ x e).
Proof.
  intros [A B]. destruct e as [|k|k]; cbn [getp powerRZ]; [apply pol_const, inc_Z | apply A|].
  eapply pol_eq; [apply B|]. unfold Rdiv. now rewrite Rmult_1_l, pow_inv.
Qed.
Inductive ptab_ok (a b : R) : ptab -> R -> Prop :=
| ptab_nil : ptab_ok a b [] 0
| ptab_cons C c i j t y : inc C c -> ptab_ok a b t y -> ptab_ok a b ((C, (i, j)) :: t) (c * (powerRZ a i * powerRZ b j) + y).
Lemma usum_ok a b t y ap an bp bn : ptab_ok a b t y -> powtab a ap an -> powtab b bp bn ->
  forall acc z, pol acc z -> pol (usum V n ap an bp bn t acc) (z + y).
Proof.
  intros H Ha Hb. induction H as [|C c i j t y Hc H IH]; intros acc z Hz; cbn [usum].
  - eapply pol_eq; [exact Hz | ring].
  - eapply pol_eq; [apply IH, padd_ok; [exact Hz | apply pscal_ok; [exact Hc | apply umul_ok; apply getp_ok; eassumption]]|]. ring.
Qed.
Lemma utab_ok a b t y X Y : ptab_ok a b t y -> pol X a -> pol Y b -> pol (utab V n t X Y) y.
Proof.
  intros H HX HY. unfold utab. cbv zeta. eapply pol_eq; [eapply usum_ok; [exact H | | | constructor]|].
  - split; [now apply upows_all | now apply negs_all].
  - split; [now apply upows_all | now apply negs_all].
  - ring.
Qed.
End Curve_ok.

Lemma ffz_ok k n : ff k n = IZR (ffz k n).
Proof. revert k; induction n as [|n IH]; intros k; [reflexivity|]. cbn [ff ffz]. now rewrite IH, mult_IZR. Qed.
Lemma dtab_ok i j t a b : ptab_ok a b (dtab i j t) (S2 t i j a b).
Proof.
  unfold S2. induction t as [|[d [m k]] t IH]; [constructor|]. cbn [dtab flat_map rsum]. fold (dtab i j t).
  unfold dterm. cbv zeta. unfold tm at 1. cbn [fst snd].
  rewrite (ffz_ok m), (ffz_ok k). destruct (Z.eqb_spec (ffz m i * ffz k j) 0) as [E|E]; cbn [app].
  - replace (D d * IZR (ffz m i) * IZR (ffz k j)) with (D d * IZR (ffz m i * ffz k j)) by (rewrite mult_IZR; ring).
    rewrite E. replace (D d * 0 * _ * _ + _) with (rsum (tm i j a b) t) by ring. exact IH.
  - replace (D d * IZR (ffz m i) * IZR (ffz k j) * powerRZ a (m - Z.of_nat i) * powerRZ b (k - Z.of_nat j))
      with (D d * IZR (ffz m i * ffz k j) * (powerRZ a (m - Z.of_nat i) * powerRZ b (k - Z.of_nat j))) by (rewrite mult_IZR; ring).
    constructor; [|exact IH]. apply inc_mul; [apply inc_D | apply inc_Z].
Qed.
Lemma stab_ok j t a b : ptab_ok a b (stab j t) (S1 t j b).
Proof.
  unfold stab. replace (S1 t j b) with (S2 (map (fun y => (fst y, (0%Z, snd y))) t) 0 j a b); [apply dtab_ok|].
  unfold S1, S2. induction t as [|[d J] t IH]; [reflexivity|]. cbn [map rsum]. rewrite IH. f_equal. unfold tm, tm1.
  cbn [fst snd ff]. change (0 - Z.of_nat 0)%Z with 0%Z. cbn [powerRZ]. ring.
Qed.

(** ** Covering a segment by a list of cuts *)
Fixpoint chain (f : Z -> Z -> bool) (l : Z) (cs : list Z) (u : Z) : bool :=
  match cs with [] => f l u | m :: cs' => if f l m then chain f m cs' u else false end.
Lemma chain_ok (P : R -> Prop) f :
  (forall l u, f l u = true -> forall x, gr l <= x <= gr u -> P x) ->
  forall cs l u, chain f l cs u = true -> forall x, gr l <= x <= gr u -> P x.
Proof.
  intros H cs. induction cs as [|m cs IH]; intros l u C x Hx; cbn [chain] in C; [now apply (H l u)|].
  destruct (f l m) eqn:E; [|discriminate].
  destruct (Rle_dec x (gr m)) as [L|L]; [apply (H l m E) | apply (IH m u C)]; lra.
Qed.
(** The search is not trusted. *)
Fixpoint cuts (k : nat) (f : Z -> Z -> bool) (l u : Z) (acc : list Z) : list Z :=
  if f l u then acc else
  match k with O => acc | S k' => let m := ((l + u) / 2)%Z in cuts k' f l m (m :: cuts k' f m u acc) end.

(** An interval between two numbers *)
Definition isin (X : itv) (a b : Q) : bool := ipos (isub X (iQ a)) && ipos (isub (iQ b) X).
Lemma isin_ok X a b x : isin X a b = true -> inc X x -> Q2R a < x < Q2R b.
Proof.
  unfold isin. rewrite andb_true_iff. intros [H K] HX.
  assert (A := ipos_ok _ _ H (inc_sub _ _ _ _ HX (inc_Q a))). assert (B := ipos_ok _ _ K (inc_sub _ _ _ _ (inc_Q b) HX)). lra.
Qed.
