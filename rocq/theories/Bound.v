(** Verified enclosures of the table sums [S2] and [S1] over boxes.

    Interval arithmetic is the Interval library's, over primitive floats.  A sum
    of terms c a^I b^J is enclosed by expanding every term in nested Taylor form
    around the midpoint of the box; the order of the expansion is a parameter. *)
From Coq Require Import ZArith Reals Lra Lia List Bool PrimFloat.
From Coquelicot Require Import Coquelicot.
From Interval Require Import Float.Primitive_ops Interval.Float Interval.Float_full Interval.Interval Real.Xreal Float.Basic.
From Verif Require Import Py ExactReal RealSum.
Import ListNotations.
Open Scope R_scope.

Module I := FloatIntervalFull PrimitiveFloat.
Definition pr := I.F.PtoP 53.
Definition itv := I.type.
Definition inc (X : itv) (x : R) : Prop := contains (I.convert X) (Xreal x).

Definition iZ (z : Z) : itv := I.fromZ pr z.
Definition iadd : itv -> itv -> itv := I.add pr.
Definition isub : itv -> itv -> itv := I.sub pr.
(** The same as [I.mul], with short ways for the usual signs *)
Definition imul (x y : itv) : itv :=
  match x with
  | Float.Ibnd xl xu =>
    match y with
    | Float.Ibnd yl yu =>
      match (xl ?= 0)%float with
      | FGt =>
        match (xu ?= 0)%float with
        | FGt =>
          match (yl ?= 0)%float with
          | FGt => match (yu ?= 0)%float with FGt => Float.Ibnd (next_down (xl * yl)) (next_up (xu * yu)) | _ => I.mul pr x y end
          | FLt => match (yu ?= 0)%float with
                   | FLt => Float.Ibnd (next_down (xu * yl)) (next_up (xl * yu))
                   | FGt => Float.Ibnd (next_down (xu * yl)) (next_up (xu * yu))
                   | _ => I.mul pr x y
                   end
          | _ => I.mul pr x y
          end
        | _ => I.mul pr x y
        end
      | FLt =>
        match (xu ?= 0)%float with
        | FLt =>
          match (yl ?= 0)%float with
          | FGt => match (yu ?= 0)%float with FGt => Float.Ibnd (next_down (xl * yu)) (next_up (xu * yl)) | _ => I.mul pr x y end
          | FLt => match (yu ?= 0)%float with
                   | FLt => Float.Ibnd (next_down (xu * yu)) (next_up (xl * yl))
                   | FGt => Float.Ibnd (next_down (xl * yu)) (next_up (xl * yl))
                   | _ => I.mul pr x y
                   end
          | _ => I.mul pr x y
          end
        | FGt =>
          match (yl ?= 0)%float with
          | FGt => match (yu ?= 0)%float with FGt => Float.Ibnd (next_down (xl * yu)) (next_up (xu * yu)) | _ => I.mul pr x y end
          | FLt => match (yu ?= 0)%float with FLt => Float.Ibnd (next_down (xu * yl)) (next_up (xl * yl)) | _ => I.mul pr x y end
          | _ => I.mul pr x y
          end
        | _ => I.mul pr x y
        end
      | _ => I.mul pr x y
      end
    | _ => I.mul pr x y
    end
  | _ => I.mul pr x y
  end.
Lemma imul_eq x y : imul x y = I.mul pr x y.
Proof.
  destruct x as [|xl xu], y as [|yl yu]; try reflexivity. unfold imul.
  destruct (xl ?= 0)%float eqn:E1; try reflexivity; destruct (xu ?= 0)%float eqn:E2; try reflexivity;
  destruct (yl ?= 0)%float eqn:E3; try reflexivity; destruct (yu ?= 0)%float eqn:E4; try reflexivity;
  unfold I.mul, I.sign_large_, I.F.cmp; change I.F.zero with 0%float; rewrite ?E1, ?E2, ?E3, ?E4; reflexivity.
Qed.
Definition idiv : itv -> itv -> itv := I.div pr.
Definition ipow (X : itv) (n : Z) : itv := I.power_int pr X n.
Definition iln : itv -> itv := I.ln pr.
Definition isqrt : itv -> itv := I.sqrt pr.
Definition iD (d : dec) : itv :=
  match dec_e d with
  | Z0 => iZ (dec_m d)
  | Zpos e => iZ (dec_m d * Z.pow_pos 10 e)
  | Zneg e => idiv (iZ (dec_m d)) (iZ (Z.pow_pos 10 e))
  end.

Lemma inc_Z z : inc (iZ z) (IZR z).
Proof. apply I.fromZ_correct. Qed.
Lemma inc_add X Y x y : inc X x -> inc Y y -> inc (iadd X Y) (x + y).
Proof. intros H K. exact (I.add_correct pr X Y (Xreal x) (Xreal y) H K). Qed.
Lemma inc_sub X Y x y : inc X x -> inc Y y -> inc (isub X Y) (x - y).
Proof. intros H K. exact (I.sub_correct pr X Y (Xreal x) (Xreal y) H K). Qed.
Lemma inc_mul X Y x y : inc X x -> inc Y y -> inc (imul X Y) (x * y).
Proof. intros H K. unfold inc. rewrite imul_eq. exact (I.mul_correct pr X Y (Xreal x) (Xreal y) H K). Qed.
Lemma inc_div X Y x y : inc X x -> inc Y y -> y <> 0 -> inc (idiv X Y) (x / y).
Proof.
  intros H K N. generalize (I.div_correct pr X Y (Xreal x) (Xreal y) H K).
  unfold Xdiv', Xbind2. now rewrite (is_zero_false y N).
Qed.
Lemma inc_pow X x n : inc X x -> x <> 0 -> inc (ipow X n) (powerRZ x n).
Proof.
  intros H N. generalize (I.power_int_correct pr n X (Xreal x) H).
  unfold Xpower_int, Xpower_int', Xbind, inc, ipow, powerRZ.
  destruct n; auto. now rewrite (is_zero_false x N).
Qed.
Lemma inc_ln X x : inc X x -> 0 < x -> inc (iln X) (Rpower.ln x).
Proof.
  intros H N. generalize (I.ln_correct pr X (Xreal x) H).
  unfold Xbind, Xln'. now rewrite (is_positive_true x N).
Qed.
Lemma inc_sqrt X x : inc X x -> inc (isqrt X) (R_sqrt.sqrt x).
Proof. intros H. exact (I.sqrt_correct pr X (Xreal x) H). Qed.
Lemma inc_D d : inc (iD d) (D d).
Proof.
  unfold iD, D. destruct (dec_e d); try apply inc_Z.
  apply inc_div; try apply inc_Z.
  apply IZR_neq. rewrite Z.pow_pos_fold. now apply Z.pow_nonzero.
Qed.

Definition ipos (X : itv) : bool := match I.sign_strict X with Xgt => true | _ => false end.
Definition ineg (X : itv) : bool := match I.sign_strict X with Xlt => true | _ => false end.
Lemma ipos_ok X x : ipos X = true -> inc X x -> 0 < x.
Proof.
  unfold ipos. generalize (I.sign_strict_correct X). destruct (I.sign_strict X); try discriminate.
  intros H _ K. apply (H (Xreal x) K).
Qed.
Lemma ineg_ok X x : ineg X = true -> inc X x -> x < 0.
Proof.
  unfold ineg. generalize (I.sign_strict_correct X). destruct (I.sign_strict X); try discriminate.
  intros H _ K. apply (H (Xreal x) K).
Qed.
Lemma inc_subset X Y x : I.subset X Y = true -> inc X x -> inc Y x.
Proof. intros S H. exact (I.subset_correct X Y (Xreal x) H S). Qed.

(** The midpoint of an interval *)
Definition imid (X : itv) : itv := I.singleton (I.midpoint X).
Lemma imid_in X : exists x, inc (imid X) x.
Proof. eexists. apply I.singleton_correct. Qed.

(** An interval contains what lies between two of its points *)
Lemma inc_between X x y z : inc X x -> inc X y -> Rmin x y <= z <= Rmax x y -> inc X z.
Proof.
  unfold inc, contains. destruct (I.convert X) as [|l u]; [easy|].
  intros [H1 H2] [K1 K2] [M1 M2].
  assert (L : x <= z \/ y <= z) by (unfold Rmin in M1; destruct Rle_dec; auto).
  assert (U : z <= x \/ z <= y) by (unfold Rmax in M2; destruct Rle_dec; auto).
  split; [destruct l | destruct u]; try easy; lra.
Qed.

(** ** Taylor expansion of a power *)

Definition pw (e : Z) (k : nat) (x : R) : R := ff e k * powerRZ x (e - Z.of_nat k).

Lemma pw_derive e k x : x <> 0 -> is_derive (pw e k) x (pw e (S k) x).
Proof.
  intros Hx. unfold pw. rewrite <- (ff_S e k).
  eapply is_derive_eq.
  - apply is_derive_scal. now apply is_derive_powerRZ.
  - replace (e - Z.of_nat (S k))%Z with (e - Z.of_nat k - 1)%Z by lia. ring.
Qed.

Lemma pos_locally (P : R -> Prop) x : 0 < x -> (forall y, 0 < y -> P y) -> locally x P.
Proof.
  intros Hx H. exists (mkposreal x Hx). intros y Hy. apply H.
  unfold ball, AbsRing_ball, abs, minus, plus, opp in Hy; cbn in Hy.
  unfold AbsRing_ball, abs, minus, plus, opp in Hy; cbn in Hy.
  apply Rabs_def2 in Hy. lra.
Qed.

Lemma pw_Derive_n e k x : 0 < x ->
  Derive_n (fun x => powerRZ x e) k x = pw e k x.
Proof.
  revert x; induction k as [|k IH]; intros x Hx.
  - cbn. unfold pw. rewrite Z.sub_0_r. cbn. ring.
  - cbn [Derive_n].
    rewrite (Derive_ext_loc _ (pw e k)).
    + apply is_derive_unique, pw_derive. lra.
    + apply pos_locally; assumption.
Qed.
Lemma pw_ex_derive_n e k x : 0 < x -> ex_derive_n (fun x => powerRZ x e) k x.
Proof.
  destruct k as [|k]; intros Hx; [exact I|]. cbn [ex_derive_n].
  apply ex_derive_ext_loc with (pw e k).
  - apply pos_locally; [assumption|]. intros y Hy. symmetry. now apply pw_Derive_n.
  - eexists. apply pw_derive. lra.
Qed.

(** v_0 + d (v_1 + d/2 (v_2 + d/3 (...))), starting from the factor k *)
Fixpoint evT (k : nat) (l : list R) (d : R) : R :=
  match l with [] => 0 | v :: l' => v + d * (evT (S k) l' d / IZR (Z.of_nat (S k))) end.

Lemma evT_snoc k l r d :
  evT k (l ++ [r]) d
  = evT k l d + d ^ length l * INR (fact k) / INR (fact (k + length l)) * r.
Proof.
  revert k; induction l as [|v l IH]; intros k; cbn [evT app length pow].
  - rewrite Nat.add_0_r. pose proof (INR_fact_neq_0 k). unfold Rdiv. rewrite Rmult_0_l. field. easy.
  - rewrite IH. replace (S k + length l)%nat with (k + S (length l))%nat by lia.
    rewrite fact_simpl, mult_INR, <- INR_IZR_INZ.
    pose proof (INR_fact_neq_0 (k + S (length l))). pose proof (not_0_INR (S k) ltac:(lia)).
    field. easy.
Qed.

Lemma evT_sum (f : nat -> R) n r d :
  evT 0 (map f (seq 0 (S n)) ++ [r]) d
  = sum_f_R0 (fun m => d ^ m / INR (fact m) * f m) n + d ^ S n / INR (fact (S n)) * r.
Proof.
  rewrite evT_snoc, map_length, seq_length. rewrite Nat.add_0_l.
  change (INR (fact 0)) with 1. rewrite Rmult_1_r. f_equal.
  induction n as [|n IH].
  - cbn. field.
  - rewrite seq_S, map_app. cbn [map]. rewrite evT_snoc, map_length, seq_length, IH.
    cbn [sum_f_R0]. f_equal. rewrite !Nat.add_0_l.
    change (INR (fact 0)) with 1. now rewrite Rmult_1_r.
Qed.

Lemma evT_0 k v l : evT k (v :: l) 0 = v.
Proof. cbn. ring. Qed.

Lemma pow_taylor e m x0 x : 0 < x0 -> 0 < x ->
  exists xi, Rmin x0 x <= xi <= Rmax x0 x /\
  powerRZ x e = evT 0 (map (fun k => pw e k x0) (seq 0 m) ++ [pw e m xi]) (x - x0).
Proof.
  intros H0 Hx.
  destruct m as [|n].
  { exists x. split; [unfold Rmin, Rmax; destruct Rle_dec; lra|]. cbn. unfold pw. cbn.
    rewrite Z.sub_0_r. unfold Rdiv. ring. }
  destruct (Rtotal_order x0 x) as [L | [E | G]].
  - destruct (Taylor_Lagrange (fun x => powerRZ x e) n x0 x L) as (z & Hz & E).
    { intros t Ht k _. apply pw_ex_derive_n. lra. }
    exists z. split; [rewrite Rmin_left, Rmax_right; lra|].
    rewrite E, evT_sum. f_equal.
    + apply sum_eq. intros i _. now rewrite pw_Derive_n.
    + now rewrite pw_Derive_n by lra.
  - subst x. exists x0. split; [rewrite Rmin_left, Rmax_left; lra|].
    replace (x0 - x0) with 0 by ring. cbn [seq map app]. rewrite evT_0.
    unfold pw. cbn. rewrite Z.sub_0_r. ring.
  - assert (LL : forall t, - x0 <= t <= - x -> locally (- t)
       (fun y => forall k, (k <= S n)%nat -> ex_derive_n (fun x => powerRZ x e) k y)).
    { intros t Ht. apply pos_locally; [lra|]. intros y Hy k _. now apply pw_ex_derive_n. }
    assert (L' : forall t, - x0 <= t <= - x -> forall k, (k <= S n)%nat -> locally (- t)
       (fun y => forall j, (j <= k)%nat -> ex_derive_n (fun x => powerRZ x e) j y)).
    { intros t Ht k Hk. generalize (LL t Ht). apply filter_imp. intros y H j Hj. apply H. lia. }
    destruct (Taylor_Lagrange (fun t => powerRZ (- t) e) n (- x0) (- x)) as (z & Hz & E).
    { lra. }
    { intros t Ht k Hk. apply (ex_derive_n_comp_opp (fun x => powerRZ x e)). now apply L'. }
    exists (- z). split; [rewrite Rmin_right, Rmax_left; lra|].
    rewrite Ropp_involutive in E. rewrite E, evT_sum.
    replace (- x - - x0) with (-1 * (x - x0)) by ring.
    f_equal.
    + apply sum_eq. intros i Hi.
      rewrite (Derive_n_comp_opp (fun x => powerRZ x e)) by (apply L'; [lra | lia]).
      rewrite Ropp_involutive, pw_Derive_n by lra.
      rewrite Rpow_mult_distr. unfold Rdiv.
      replace ((-1) ^ i * (x - x0) ^ i * / INR (fact i) * ((-1) ^ i * pw e i x0))
        with (((-1) ^ i * (-1) ^ i) * ((x - x0) ^ i * / INR (fact i) * pw e i x0)) by ring.
      rewrite <- Rpow_mult_distr. replace (-1 * -1) with 1 by ring. rewrite pow1. ring.
    + rewrite (Derive_n_comp_opp (fun x => powerRZ x e)) by (apply L'; [lra | lia]).
      rewrite pw_Derive_n by lra.
      rewrite Rpow_mult_distr. unfold Rdiv.
      replace ((-1) ^ S n * (x - x0) ^ S n * / INR (fact (S n)) * ((-1) ^ S n * pw e (S n) (- z)))
        with (((-1) ^ S n * (-1) ^ S n) * ((x - x0) ^ S n * / INR (fact (S n)) * pw e (S n) (- z))) by ring.
      rewrite <- Rpow_mult_distr. replace (-1 * -1) with 1 by ring. rewrite pow1. ring.
Qed.

(** ** Enclosure of a sum of terms c a^I b^J *)

(** Falling factorials in Z *)
Fixpoint zff (k : Z) (n : nat) : Z :=
  match n with O => 1%Z | S n' => (k * zff (k - 1) n')%Z end.
Lemma zff_ff k n : IZR (zff k n) = ff k n.
Proof.
  revert k; induction n as [|n IH]; intros k; cbn [zff ff]; [reflexivity|].
  now rewrite mult_IZR, IH.
Qed.

(** The derivatives of x^e at a point, given x^e and 1/x *)
Fixpoint ptv (n : nat) (c : itv) (e : Z) (inv0 : itv) : list itv :=
  match n with
  | O => []
  | S n' => c :: ptv n' (imul (imul c (iZ e)) inv0) (e - 1) inv0
  end.
(** The m-th derivative of x^e over an interval *)
Definition bxv (X : itv) (e : Z) (m : nat) : itv :=
  match zff e m with Z0 => iZ 0 | z => imul (iZ z) (ipow X (e - Z.of_nat m)) end.

Lemma ptv_ok n e k C V x : x <> 0 -> inc V (1 / x) -> inc C (pw e k x) ->
  Forall2 inc (ptv n C (e - Z.of_nat k) V) (map (fun k => pw e k x) (seq k n)).
Proof.
  intros Hx HV; revert k C; induction n as [|n IH]; intros k C HC; cbn [ptv seq map].
  { constructor. }
  constructor; [exact HC|].
  replace (e - Z.of_nat k - 1)%Z with (e - Z.of_nat (S k))%Z by lia.
  apply IH.
  replace (pw e (S k) x) with (pw e k x * IZR (e - Z.of_nat k) * (1 / x)).
  - apply inc_mul; [apply inc_mul; [exact HC | apply inc_Z] | exact HV].
  - unfold pw. rewrite <- (ff_S e k).
    replace (e - Z.of_nat k)%Z with (e - Z.of_nat (S k) + 1)%Z at 1 by lia.
    rewrite powerRZ_add by easy. cbn [powerRZ]. change (Pos.to_nat 1) with 1%nat. cbn [pow].
    field. easy.
Qed.

Lemma bxv_ok X e m x : x <> 0 -> inc X x -> inc (bxv X e m) (pw e m x).
Proof.
  intros Hx H. unfold bxv, pw. rewrite <- zff_ff.
  destruct (zff e m).
  - rewrite Rmult_0_l. apply inc_Z.
  - apply inc_mul; [apply inc_Z | now apply inc_pow].
  - apply inc_mul; [apply inc_Z | now apply inc_pow].
Qed.

Fixpoint zadd {X} (f : X -> X -> X) (l l' : list X) : list X :=
  match l, l' with
  | x :: l, y :: l' => f x y :: zadd f l l'
  | [], _ => l'
  | _, [] => l
  end.

Lemma evT_zadd k l l' d : evT k (zadd Rplus l l') d = evT k l d + evT k l' d.
Proof.
  revert k l'; induction l as [|x l IH]; intros k [|y l']; cbn [zadd evT]; try ring.
  rewrite IH. unfold Rdiv. ring.
Qed.
Lemma evT_scal k c l d : evT k (map (Rmult c) l) d = c * evT k l d.
Proof.
  revert k; induction l as [|x l IH]; intros k; cbn [map evT]; [ring|].
  rewrite IH. unfold Rdiv. ring.
Qed.

Definition ev2 (W : list (list R)) (da db : R) : R := evT 0 (map (fun r => evT 0 r db) W) da.
Lemma ev2_zadd W W' da db : ev2 (zadd (zadd Rplus) W W') da db = ev2 W da db + ev2 W' da db.
Proof.
  unfold ev2. rewrite <- evT_zadd. f_equal.
  revert W'; induction W as [|r W IH]; intros [|r' W']; cbn [zadd map]; try reflexivity.
  now rewrite evT_zadd, IH.
Qed.

Lemma zadd_inc L L' l l' : Forall2 inc L l -> Forall2 inc L' l' ->
  Forall2 inc (zadd iadd L L') (zadd Rplus l l').
Proof.
  intros H; revert L' l'; induction H as [|X x L l Hx H IH]; intros L' l' H'; [exact H'|].
  destruct H' as [|Y y L' l' Hy H']; cbn [zadd]; constructor; auto.
  now apply inc_add.
Qed.
Lemma zadd2_inc L L' l l' : Forall2 (Forall2 inc) L l -> Forall2 (Forall2 inc) L' l' ->
  Forall2 (Forall2 inc) (zadd (zadd iadd) L L') (zadd (zadd Rplus) l l').
Proof.
  intros H; revert L' l'; induction H as [|X x L l Hx H IH]; intros L' l' H'; [exact H'|].
  destruct H' as [|Y y L' l' Hy H']; cbn [zadd]; constructor; auto.
  now apply zadd_inc.
Qed.
Lemma map_mul_inc C c L l : inc C c -> Forall2 inc L l -> Forall2 inc (map (imul C) L) (map (Rmult c) l).
Proof. intros Hc H; induction H; cbn [map]; constructor; auto. now apply inc_mul. Qed.
Lemma Forall2_firstn {X Y} (P : X -> Y -> Prop) n L l :
  Forall2 P L l -> Forall2 P (firstn n L) (firstn n l).
Proof. revert L l; induction n as [|n IH]; intros L l []; cbn; constructor; auto. Qed.

Fixpoint evI (k : Z) (L : list itv) (D : itv) : itv :=
  match L with
  | [] => iZ 0
  | [v] => v
  | v :: L' => iadd v (imul D (idiv (evI (k + 1) L' D) (iZ (k + 1))))
  end.
Lemma evI_ok k L l D d : Forall2 inc L l -> inc D d ->
  inc (evI (Z.of_nat k) L D) (evT k l d).
Proof.
  intros H HD; revert k; induction H as [|X x L l Hx H IH]; intros k; [apply inc_Z|].
  cbn [evI evT]. destruct H as [|X' x' L l Hx' H].
  - cbn [evT]. replace (x + _) with x by (unfold Rdiv; ring). exact Hx.
  - apply inc_add; [exact Hx|]. apply inc_mul; [exact HD|].
    replace (Z.of_nat k + 1)%Z with (Z.of_nat (S k)) by lia.
    apply inc_div; [apply IH | apply inc_Z | apply IZR_neq; lia].
Qed.
Definition ev2I (M : list (list itv)) (DA DB : itv) : itv :=
  evI 0 (map (fun r => evI 0 r DB) M) DA.
Lemma ev2I_ok M W DA DB da db : Forall2 (Forall2 inc) M W -> inc DA da -> inc DB db ->
  inc (ev2I M DA DB) (ev2 W da db).
Proof.
  intros H HA HB. apply (evI_ok 0); [|exact HA].
  induction H; cbn [map]; constructor; auto. now apply (evI_ok 0).
Qed.

(** One term: row k holds the k-th derivative in a, expanded in b to order n-k *)
Fixpoint rows (cs : list itv) (pts : list itv) (m : nat) (B : itv) (J : Z) : list (list itv) :=
  match cs with
  | [] => []
  | c :: cs' => map (imul c) (firstn m pts ++ [bxv B J m]) :: rows cs' pts (m - 1) B J
  end.
Record box := mkbox { bA : itv; bA0 : itv; bIA : itv; bB : itv; bB0 : itv; bIB : itv }.
Definition termI (n : nat) (x : box) (t : itv * (Z * Z)) : list (list itv) :=
  let (c, IJ) := t in
  let (I, J) := IJ in
  rows (map (imul c) (ptv n (ipow (bA0 x) I) I (bIA x) ++ [bxv (bA x) I n]))
    (ptv n (ipow (bB0 x) J) J (bIB x)) n (bB x) J.

Record boxed (x : box) (a0 a b0 b : R) : Prop := {
  in_A0 : inc (bA0 x) a0; in_A : inc (bA x) a; in_A' : inc (bA x) a0; in_IA : inc (bIA x) (1 / a0);
  in_B0 : inc (bB0 x) b0; in_B : inc (bB x) b; in_B' : inc (bB x) b0; in_IB : inc (bIB x) (1 / b0);
  pos_a0 : 0 < a0; pos_a : 0 < a; pos_b0 : 0 < b0; pos_b : 0 < b }.

Lemma expand X X0 V e n m x0 x : 0 < x0 -> 0 < x ->
  inc X0 x0 -> inc V (1 / x0) -> inc X x0 -> inc X x -> (m <= n)%nat ->
  exists w, Forall2 inc (firstn m (ptv n (ipow X0 e) e V) ++ [bxv X e m]) w /\
            evT 0 w (x - x0) = powerRZ x e.
Proof.
  intros P0 P HX0 HV HX0' HX Hm.
  destruct (pow_taylor e m x0 x P0 P) as (xi & Hxi & E).
  eexists. split; [|symmetry; exact E].
  assert (Q : 0 < xi).
  { revert Hxi. unfold Rmin. destruct Rle_dec; lra. }
  apply Forall2_app.
  - assert (F : Forall2 inc (ptv n (ipow X0 e) e V) (map (fun k => pw e k x0) (seq 0 n))).
    { replace e with (e - Z.of_nat 0)%Z at 2 by (cbn; lia). apply ptv_ok; [lra | exact HV |].
      unfold pw. cbn. rewrite Z.sub_0_r, Rmult_1_l. apply inc_pow; [exact HX0 | lra]. }
    apply (Forall2_firstn inc m) in F.
    replace (map (fun k => pw e k x0) (seq 0 m)) with (firstn m (map (fun k => pw e k x0) (seq 0 n)));
      [exact F|].
    rewrite firstn_map. f_equal.
    clear -Hm. revert n Hm. generalize 0%nat as k. induction m as [|m IH]; intros k [|n] Hm; cbn; try lia; auto.
    f_equal. apply IH. lia.
  - constructor; [|constructor]. apply bxv_ok; [lra|]. now apply inc_between with x0 x.
Qed.

Lemma ptv_length n c e V : length (ptv n c e V) = n.
Proof. revert c e; induction n as [|n IH]; intros; cbn; auto. Qed.

Lemma rows_ok n B0 B V J b0 b cs CS m : 0 < b0 -> 0 < b ->
  inc B0 b0 -> inc V (1 / b0) -> inc B b0 -> inc B b -> (m <= n)%nat -> Forall2 inc CS cs ->
  exists W, Forall2 (Forall2 inc) (rows CS (ptv n (ipow B0 J) J V) m B J) W /\
    map (fun r => evT 0 r (b - b0)) W = map (Rmult (powerRZ b J)) cs.
Proof.
  intros P0 P HB0 HV HB0' HB Hm H. revert m Hm; induction H as [|C c CS cs Hc H IH]; intros m Hm.
  - exists []. split; [constructor | reflexivity].
  - destruct (IH (m - 1)%nat ltac:(lia)) as (W & HW & EW).
    destruct (expand B B0 V J n m b0 b P0 P HB0 HV HB0' HB Hm) as (w & Hw & Ew).
    exists (map (Rmult c) w :: W). cbn [rows map]. split.
    + constructor; [now apply map_mul_inc | exact HW].
    + rewrite EW, evT_scal, Ew. f_equal. ring.
Qed.

Lemma termI_ok n x a0 a b0 b C c I J : boxed x a0 a b0 b -> inc C c ->
  exists W, Forall2 (Forall2 inc) (termI n x (C, (I, J))) W /\
    ev2 W (a - a0) (b - b0) = c * powerRZ a I * powerRZ b J.
Proof.
  intros H Hc. destruct H.
  destruct (expand (bA x) (bA0 x) (bIA x) I n n a0 a) as (w & Hw & Ew); auto.
  rewrite <- (ptv_length n (ipow (bA0 x) I) I (bIA x)) in Hw at 1. rewrite firstn_all in Hw.
  destruct (rows_ok n (bB0 x) (bB x) (bIB x) J b0 b (map (Rmult c) w)
    (map (imul C) (ptv n (ipow (bA0 x) I) I (bIA x) ++ [bxv (bA x) I n])) n) as (W & HW & EW); auto.
  { now apply map_mul_inc. }
  exists W. split; [exact HW|].
  unfold ev2. rewrite EW, !evT_scal, Ew. ring.
Qed.

Definition itab := list (itv * (Z * Z)).
Fixpoint sumI (n : nat) (x : box) (t : itab) (M : list (list itv)) : list (list itv) :=
  match t with [] => M | y :: t' => sumI n x t' (zadd (zadd iadd) M (termI n x y)) end.

(** A table of real coefficients enclosed by a table of intervals *)
Definition rtab := list (R * (Z * Z)).
Definition term_in (y : itv * (Z * Z)) (z : R * (Z * Z)) : Prop := inc (fst y) (fst z) /\ snd y = snd z.
Definition rpoly (t : rtab) (a b : R) : R :=
  rsum (fun z => fst z * powerRZ a (fst (snd z)) * powerRZ b (snd (snd z))) t.

Lemma sumI_ok n x a0 a b0 b t u M W : boxed x a0 a b0 b -> Forall2 term_in t u ->
  Forall2 (Forall2 inc) M W ->
  exists W', Forall2 (Forall2 inc) (sumI n x t M) W' /\
    ev2 W' (a - a0) (b - b0) = ev2 W (a - a0) (b - b0) + rpoly u a b.
Proof.
  intros Hx H. revert M W. induction H as [|[C [I J]] [c [I' J']] t u [Hc E] H IH]; intros M W HM.
  - exists W. split; [exact HM | cbn; ring].
  - cbn in Hc, E. injection E as <- <-.
    destruct (termI_ok n x a0 a b0 b C c I J Hx Hc) as (V & HV & EV).
    destruct (IH _ _ (zadd2_inc _ _ _ _ HM HV)) as (W' & HW' & EW').
    exists W'. split; [exact HW'|].
    rewrite EW', ev2_zadd, EV. unfold rpoly. cbn [rsum fst snd]. ring.
Qed.

Definition mk (A B : itv) : box :=
  let A0 := imid A in let B0 := imid B in
  mkbox A A0 (idiv (iZ 1) A0) B B0 (idiv (iZ 1) B0).
Definition good (x : box) : bool :=
  ipos (bA x) && ipos (bB x) && I.subset (bA0 x) (bA x) && I.subset (bB0 x) (bB x).
Definition polyI (n : nat) (t : itab) (A B : itv) : itv :=
  let x := mk A B in
  if good x
  then ev2I (sumI n x t []) (isub A (bA0 x)) (isub B (bB0 x))
  else I.nai.

Lemma inc_nai x : inc I.nai x.
Proof. unfold inc. now rewrite I.nai_correct. Qed.

Lemma polyI_ok n t u A B a b : Forall2 term_in t u -> inc A a -> inc B b ->
  inc (polyI n t A B) (rpoly u a b).
Proof.
  intros H HA HB. unfold polyI. destruct (good (mk A B)) eqn:G; [|apply inc_nai].
  unfold good in G. rewrite !andb_true_iff in G. destruct G as [[[GA GB] SA] SB]. cbn in GA, GB, SA, SB.
  destruct (imid_in A) as [a0 Ha0]. destruct (imid_in B) as [b0 Hb0].
  assert (Ka : inc A a0) by (eapply inc_subset; eauto).
  assert (Kb : inc B b0) by (eapply inc_subset; eauto).
  assert (P1 := ipos_ok A a GA HA). assert (P2 := ipos_ok A a0 GA Ka).
  assert (P3 := ipos_ok B b GB HB). assert (P4 := ipos_ok B b0 GB Kb).
  assert (X : boxed (mk A B) a0 a b0 b).
  { constructor; cbn [mk bA bA0 bIA bB bB0 bIB]; auto; (apply inc_div; [apply (inc_Z 1) | assumption | lra]). }
  destruct (sumI_ok n (mk A B) a0 a b0 b t u [] [] X H (Forall2_nil _)) as (W & HW & EW).
  replace (rpoly u a b) with (ev2 W (a - a0) (b - b0)).
  - apply ev2I_ok; [exact HW | now apply inc_sub | now apply inc_sub].
  - rewrite EW. unfold ev2. cbn. ring.
Qed.

(** ** The sums of the model *)

Definition dterm (i j : nat) (y : dec * (Z * Z)) : itab :=
  let '(d, (e, f)) := y in
  match (zff e i * zff f j)%Z with
  | Z0 => []
  | z => [(imul (iD d) (iZ z), (e - Z.of_nat i, f - Z.of_nat j)%Z)]
  end.
Definition dtab (i j : nat) (tab : list (dec * (Z * Z))) : itab := flat_map (dterm i j) tab.

Lemma dtab_ok i j tab : exists u, Forall2 term_in (dtab i j tab) u /\
  forall a b, S2 tab i j a b = rpoly u a b.
Proof.
  induction tab as [|[d [I J]] tab (u & Hu & E)].
  - exists []. split; [constructor | reflexivity].
  - destruct (zff I i * zff J j)%Z as [|z|z] eqn:Z.
    + exists u. split.
      * unfold dtab. cbn [flat_map dterm]. rewrite Z. exact Hu.
      * intros a b. rewrite <- E. unfold S2. cbn [rsum]. unfold tm at 1. cbn [fst snd].
        rewrite Rmult_assoc with (r2 := ff I i), <- !zff_ff, <- mult_IZR, Z. ring.
    + exists ((D d * IZR (Z.pos z), (I - Z.of_nat i, J - Z.of_nat j)%Z) :: u). split.
      * unfold dtab. cbn [flat_map dterm]. rewrite Z. constructor; [|exact Hu].
        split; [|reflexivity]. apply inc_mul; [apply inc_D | apply inc_Z].
      * intros a b. unfold rpoly. cbn [rsum fst snd]. fold (rpoly u a b). rewrite <- E, <- Z.
        rewrite mult_IZR, !zff_ff. unfold S2. cbn [rsum]. unfold tm at 1. cbn [fst snd]. ring.
    + exists ((D d * IZR (Z.neg z), (I - Z.of_nat i, J - Z.of_nat j)%Z) :: u). split.
      * unfold dtab. cbn [flat_map dterm]. rewrite Z. constructor; [|exact Hu].
        split; [|reflexivity]. apply inc_mul; [apply inc_D | apply inc_Z].
      * intros a b. unfold rpoly. cbn [rsum fst snd]. fold (rpoly u a b). rewrite <- E, <- Z.
        rewrite mult_IZR, !zff_ff. unfold S2. cbn [rsum]. unfold tm at 1. cbn [fst snd]. ring.
Qed.

Theorem S2I_ok n tab i j A B a b : inc A a -> inc B b ->
  inc (polyI n (dtab i j tab) A B) (S2 tab i j a b).
Proof.
  intros HA HB. destruct (dtab_ok i j tab) as (u & Hu & E). rewrite E. now apply polyI_ok.
Qed.

(** One-variable sums, by naive evaluation *)
Definition S1I (tab : list (dec * Z)) (j : nat) (B : itv) : itv :=
  fold_right (fun y r => iadd (imul (iD (fst y)) (bxv B (snd y) j)) r) (iZ 0) tab.
Lemma S1I_ok tab j B b : b <> 0 -> inc B b -> inc (S1I tab j B) (S1 tab j b).
Proof.
  intros Hb H. induction tab as [|[d J] tab IH]; [apply inc_Z|].
  cbn [S1I fold_right S1 rsum]. apply inc_add; [|exact IH].
  unfold tm1. cbn [fst snd]. rewrite Rmult_assoc.
  apply inc_mul; [apply inc_D | now apply (bxv_ok B J j)].
Qed.
