(** Enclosures of a table sum and of its derivatives, all at once.

    The terms are grouped by their first exponent.  For one box the Taylor coefficients
    of every group are summed into a matrix; dropping rows and columns of the matrix gives
    the expansions of the derivatives. *)
From Coq Require Import ZArith Reals Lra Lia List Bool.
From Coquelicot Require Import Coquelicot.
From Verif Require Import Py ExactReal RealSum Bound.
Import ListNotations.
Open Scope R_scope.

(** ** Taylor expansion of a derivative of a power *)
Lemma ff_plus e j k : ff e (j + k) = ff e j * ff (e - Z.of_nat j) k.
Proof.
  revert e; induction j as [|j IH]; intros e; [cbn; rewrite Z.sub_0_r; ring|].
  cbn [Nat.add ff]. rewrite IH. replace (e - Z.of_nat (S j))%Z with (e - 1 - Z.of_nat j)%Z by lia. ring.
Qed.
Lemma pw_plus e j k x : pw e (j + k) x = ff e j * pw (e - Z.of_nat j) k x.
Proof. unfold pw. rewrite ff_plus. replace (e - Z.of_nat (j + k))%Z with (e - Z.of_nat j - Z.of_nat k)%Z by lia. ring. Qed.
Lemma pw_taylor e j m x0 x : 0 < x0 -> 0 < x ->
  exists xi, Rmin x0 x <= xi <= Rmax x0 x /\
  pw e j x = evT 0 (map (fun k => pw e (j + k) x0) (seq 0 m) ++ [pw e (j + m) xi]) (x - x0).
Proof.
  intros H0 Hx. destruct (pow_taylor (e - Z.of_nat j) m x0 x H0 Hx) as (xi & Hxi & E).
  exists xi. split; [exact Hxi|]. unfold pw at 1. rewrite E, <- evT_scal, map_app, map_map. cbn [map].
  f_equal. f_equal; [apply map_ext; intros k | f_equal]; now rewrite pw_plus.
Qed.

(** ** Vectors of Taylor coefficients *)
Definition vec (N : nat) (X X0 V : itv) (e : Z) : list itv := ptv N (ipow X0 e) e V ++ [bxv X e N].

(** From the j-th entry on, [L] encloses an expansion of the value [y] in powers of d. *)
Definition expands (L : list itv) (j : nat) (d y : R) : Prop :=
  exists w, Forall2 inc (skipn j L) w /\ evT 0 w d = y.

Lemma skipn_zadd {X} (f : X -> X -> X) j l l' : skipn j (zadd f l l') = zadd f (skipn j l) (skipn j l').
Proof.
  revert l l'; induction j as [|j IH]; intros [|x l] [|y l']; cbn [skipn zadd]; try reflexivity.
  - now destruct (skipn j l).
  - apply IH.
Qed.
Lemma expands_add L L' j d y y' : expands L j d y -> expands L' j d y' -> expands (zadd iadd L L') j d (y + y').
Proof.
  intros (w & H & E) (w' & H' & E'). exists (zadd Rplus w w'). rewrite skipn_zadd, evT_zadd, E, E'.
  split; [now apply zadd_inc | reflexivity].
Qed.
Lemma expands_scal C c L j d y : inc C c -> expands L j d y -> expands (map (imul C) L) j d (c * y).
Proof.
  intros Hc (w & H & E). exists (map (Rmult c) w). rewrite skipn_map, evT_scal, E.
  split; [now apply map_mul_inc | reflexivity].
Qed.
Lemma expands_nil j d : expands [] j d 0.
Proof. exists []. destruct j; split; constructor. Qed.

Lemma ptv_skip N C e V j : (j <= N)%nat -> exists C', skipn j (ptv N C e V) = ptv (N - j) C' (e - Z.of_nat j) V /\
  forall x k, x <> 0 -> inc V (1 / x) -> inc C (pw (e + Z.of_nat k) k x) -> inc C' (pw (e + Z.of_nat k) (k + j) x).
Proof.
  revert N C e; induction j as [|j IH]; intros N C e Hj.
  - exists C. rewrite Nat.sub_0_r, Z.sub_0_r. split; [reflexivity|]. intros. now rewrite Nat.add_0_r.
  - destruct N as [|N]; [lia|]. cbn [ptv skipn].
    destruct (IH N (imul (imul C (iZ e)) V) (e - 1)%Z ltac:(lia)) as (C' & E & H).
    exists C'. rewrite E. split; [cbn [Nat.sub]; f_equal; lia|]. intros x k Hx HV HC.
    specialize (H x (S k) Hx HV). replace (e - 1 + Z.of_nat (S k))%Z with (e + Z.of_nat k)%Z in H by lia.
    replace (k + S j)%nat with (S k + j)%nat by lia. apply H.
    replace (pw (e + Z.of_nat k) (S k) x) with (pw (e + Z.of_nat k) k x * IZR e * (1 / x)).
    + apply inc_mul; [apply inc_mul; [exact HC | apply inc_Z] | exact HV].
    + unfold pw. rewrite <- (ff_S _ k). replace (e + Z.of_nat k - Z.of_nat k)%Z with e by lia.
      replace (e + Z.of_nat k - Z.of_nat (S k))%Z with (e - 1)%Z by lia.
      replace e with (e - 1 + 1)%Z at 2 by lia. rewrite powerRZ_add by easy. cbn [powerRZ].
      change (Pos.to_nat 1) with 1%nat. cbn [pow]. field. easy.
Qed.

Lemma vec_ok N X X0 V e j x0 x : 0 < x0 -> 0 < x -> inc X0 x0 -> inc V (1 / x0) -> inc X x0 -> inc X x ->
  (j <= N)%nat -> expands (vec N X X0 V e) j (x - x0) (pw e j x).
Proof.
  intros P0 P HX0 HV HX0' HX Hj.
  destruct (pw_taylor e j (N - j) x0 x P0 P) as (xi & Hxi & E).
  eexists. split; [|symmetry; exact E].
  assert (Q : 0 < xi) by (revert Hxi; unfold Rmin; destruct Rle_dec; lra).
  unfold vec. rewrite skipn_app, ptv_length. replace (j - N)%nat with 0%nat by lia. cbn [skipn].
  apply Forall2_app.
  - destruct (ptv_skip N (ipow X0 e) e V j Hj) as (C' & -> & H).
    specialize (H x0 0%nat ltac:(lra) HV). cbn [Z.of_nat Nat.add] in H. rewrite Z.add_0_r in H.
    replace (map (fun k => pw e (j + k) x0) (seq 0 (N - j))) with (map (fun k => pw e k x0) (seq j (N - j))).
    + apply ptv_ok; [lra | exact HV |]. apply H. unfold pw. cbn [ff Z.of_nat]. rewrite Z.sub_0_r, Rmult_1_l. apply inc_pow; [exact HX0 | lra].
    + rewrite <- (Nat.add_0_r j) at 1. generalize 0%nat as k. generalize (N - j)%nat as m.
      induction m as [|m IH]; intros k; cbn [seq map]; [reflexivity|]. f_equal. rewrite <- IH. do 2 f_equal. lia.
  - constructor; [|constructor]. replace (j + (N - j))%nat with N by lia.
    apply bxv_ok; [lra|]. now apply inc_between with x0 x.
Qed.

(** ** Matrices *)
Definition expands2 (M : list (list itv)) (i j : nat) (da db y : R) : Prop :=
  exists W, Forall2 (Forall2 inc) (map (skipn j) (skipn i M)) W /\ ev2 W da db = y.
Lemma map_zadd {X Y} (g : X -> Y) f f' l l' : (forall x y, g (f x y) = f' (g x) (g y)) ->
  map g (zadd f l l') = zadd f' (map g l) (map g l').
Proof.
  intros H. revert l'; induction l as [|x l IH]; intros [|y l']; cbn [zadd map]; try reflexivity.
  now rewrite H, IH.
Qed.
Lemma expands2_add M M' i j da db y y' : expands2 M i j da db y -> expands2 M' i j da db y' ->
  expands2 (zadd (zadd iadd) M M') i j da db (y + y').
Proof.
  intros (W & H & E) (W' & H' & E'). exists (zadd (zadd Rplus) W W'). rewrite ev2_zadd, E, E'. split; [|reflexivity].
  rewrite skipn_zadd, (map_zadd _ _ (zadd iadd)) by (intros; apply skipn_zadd). now apply zadd2_inc.
Qed.
Definition outer (U P : list itv) : list (list itv) := map (fun u => map (imul u) P) U.
Lemma outer_ok U P i j da db x y : expands U i da x -> expands P j db y -> expands2 (outer U P) i j da db (x * y).
Proof.
  intros (u & HU & Eu) (w & HP & Ew). exists (map (fun c => map (Rmult c) w) u). split.
  - unfold outer. rewrite skipn_map, map_map. clear Eu. induction HU as [|C c L l Hc H IH]; cbn [map]; constructor; [|exact IH].
    rewrite skipn_map. now apply map_mul_inc.
  - unfold ev2. rewrite map_map, (map_ext _ (Rmult (evT 0 w db))).
    + rewrite (evT_scal 0 (evT 0 w db) u da), Eu, Ew. ring.
    + intros c. rewrite evT_scal. ring.
Qed.
Lemma expands2_nil i j da db : expands2 [] i j da db 0.
Proof. exists []. destruct i; split; constructor. Qed.

(** ** Grouped tables *)
Definition gtab := list (Z * list (itv * Z)).
Fixpoint inner (N : nat) (B B0 V : itv) (l : list (itv * Z)) (acc : list itv) : list itv :=
  match l with [] => acc | (c, J) :: l' => inner N B B0 V l' (zadd iadd acc (map (imul c) (vec N B B0 V J))) end.
Fixpoint matrix (N : nat) (x : box) (t : gtab) (acc : list (list itv)) : list (list itv) :=
  match t with
  | [] => acc
  | (e, l) :: t' => matrix N x t' (zadd (zadd iadd) acc
      (outer (vec N (bA x) (bA0 x) (bIA x) e) (inner N (bB x) (bB0 x) (bIB x) l [])))
  end.
Fixpoint grp (tab : list (dec * (Z * Z))) : gtab :=
  match tab with
  | [] => []
  | (d, (e, J)) :: tab' =>
    match grp tab' with
    | (e2, l) :: g => if Z.eqb e e2 then (e, (iD d, J) :: l) :: g else (e, [(iD d, J)]) :: (e2, l) :: g
    | [] => [(e, [(iD d, J)])]
    end
  end.
(** The value of a grouped table: each coefficient interval encloses its decimal *)
Inductive lval (j : nat) (b : R) : list (itv * Z) -> R -> Prop :=
| lnil0 : lval j b [] 0
| lcons0 C c J l y : inc C c -> lval j b l y -> lval j b ((C, J) :: l) (c * pw J j b + y).
Inductive gval (i j : nat) (a b : R) : gtab -> R -> Prop :=
| gnil : gval i j a b [] 0
| gcons e l t y z : lval j b l y -> gval i j a b t z -> gval i j a b ((e, l) :: t) (pw e i a * y + z).
Lemma gval_eq i j a b t y z : gval i j a b t y -> y = z -> gval i j a b t z. Proof. now intros H <-. Qed.
Lemma grp_ok tab i j a b : gval i j a b (grp tab) (S2 tab i j a b).
Proof.
  unfold S2. induction tab as [|[d [e J]] tab IH]; [constructor|]. cbn [grp rsum].
  assert (E : tm i j a b (d, (e, J)) = pw e i a * (D d * pw J j b)) by (unfold tm, pw; cbn [fst snd]; ring).
  destruct (grp tab) as [|[e2 l] g].
  - inversion IH. eapply gval_eq; [apply gcons; [apply lcons0; [apply inc_D | apply lnil0] | constructor]|]. rewrite E. ring.
  - destruct (Z.eqb_spec e e2) as [<-|_].
    + inversion IH; subst. eapply gval_eq; [apply gcons; [apply lcons0; [apply inc_D | eassumption] | eassumption]|]. rewrite E. ring.
    + eapply gval_eq; [apply gcons; [apply lcons0; [apply inc_D | apply lnil0] | exact IH]|]. rewrite E. ring.
Qed.

Section Box.
Variables (N : nat) (x : box) (a0 a b0 b : R).
Hypothesis H : boxed x a0 a b0 b.
Lemma inner_ok j l y acc z : (j <= N)%nat -> lval j b l y -> expands acc j (b - b0) z ->
  expands (inner N (bB x) (bB0 x) (bIB x) l acc) j (b - b0) (z + y).
Proof.
  intros Hj HL. revert acc z. induction HL as [|C c J l y Hc HL IH]; intros acc z Ha.
  - now rewrite Rplus_0_r.
  - cbn [inner]. rewrite <- Rplus_assoc. apply IH. apply expands_add; [exact Ha|]. apply expands_scal; [exact Hc|].
    destruct H. apply vec_ok; assumption.
Qed.
Lemma matrix_ok i j t y acc z : (i <= N)%nat -> (j <= N)%nat -> gval i j a b t y -> expands2 acc i j (a - a0) (b - b0) z ->
  expands2 (matrix N x t acc) i j (a - a0) (b - b0) (z + y).
Proof.
  intros Hi Hj HG. revert acc z. induction HG as [|e l t y w HL HG IH]; intros acc z Ha.
  - now rewrite Rplus_0_r.
  - cbn [matrix]. rewrite <- Rplus_assoc. apply IH. apply expands2_add; [exact Ha|]. apply outer_ok.
    + destruct H. apply vec_ok; assumption.
    + rewrite <- (Rplus_0_l y). eapply inner_ok; [exact Hj | exact HL | apply expands_nil].
Qed.
End Box.

(** ** Evaluation: the increments d/1, d/2, ... are computed once *)
Fixpoint steps (n : nat) (k : Z) (D : itv) : list itv :=
  match n with O => [] | S n' => idiv D (iZ k) :: steps n' (k + 1) D end.
Fixpoint evS (L Ds : list itv) : itv :=
  match L with
  | [] => iZ 0
  | v :: L' => match L' with
               | [] => v
               | _ => match Ds with [] => I.nai | d :: Ds' => iadd v (imul d (evS L' Ds')) end
               end
  end.
Lemma evS_ok n k L l D d : Forall2 inc L l -> inc D d -> inc (evS L (steps n (Z.of_nat (S k)) D)) (evT k l d).
Proof.
  intros H HD. revert n k; induction H as [|X x L l Hx H IH]; intros n k; [apply inc_Z|].
  cbn [evS evT]. destruct H as [|X' x' L l Hx' H].
  - cbn [evT]. replace (x + _) with x by (unfold Rdiv; ring). exact Hx.
  - destruct n as [|n]; cbn [steps]; [apply inc_nai|].
    replace (d * (evT (S k) (x' :: l) d / IZR (Z.of_nat (S k)))) with (d / IZR (Z.of_nat (S k)) * evT (S k) (x' :: l) d)
      by (field; apply IZR_neq; lia).
    apply inc_add; [exact Hx|]. apply inc_mul.
    + apply inc_div; [exact HD | apply inc_Z | apply IZR_neq; lia].
    + replace (Z.of_nat (S k) + 1)%Z with (Z.of_nat (S (S k))) by lia. apply IH.
Qed.
Definition evM (M : list (list itv)) (DA DB : list itv) (i j : nat) : itv :=
  evS (map (fun r => evS (skipn j r) DB) (skipn i M)) DA.
Lemma evM_ok M n i j da db y DA DB : expands2 M i j da db y -> inc DA da -> inc DB db ->
  inc (evM M (steps n 1 DA) (steps n 1 DB) i j) y.
Proof.
  intros (W & H & <-) HA HB. unfold evM, ev2. apply (evS_ok n 0); [|exact HA].
  revert W H. induction (skipn i M) as [|r R IH]; intros W H; cbn [map] in *; inversion H; subst; cbn [map]; constructor.
  - apply (evS_ok n 0); assumption.
  - now apply IH.
Qed.

(** The function to use: all derivatives up to order N in either variable *)
Definition deriv (N : nat) (g : gtab) (A B : itv) : nat -> nat -> itv :=
  let x := mk A B in
  if good x then
    let M := matrix N x g [] in
    let DA := steps N 1 (isub A (bA0 x)) in
    let DB := steps N 1 (isub B (bB0 x)) in
    fun i j => if (Nat.leb i N && Nat.leb j N)%bool then evM M DA DB i j else I.nai
  else fun _ _ => I.nai.
Theorem deriv_ok N tab A B a b i j : inc A a -> inc B b -> inc (deriv N (grp tab) A B i j) (S2 tab i j a b).
Proof.
  intros HA HB. unfold deriv. destruct (good (mk A B)) eqn:G; [|apply inc_nai].
  unfold good in G. rewrite !andb_true_iff in G. destruct G as [[[GA GB] SA] SB]. cbn in GA, GB, SA, SB.
  destruct (imid_in A) as [a0 Ha0]. destruct (imid_in B) as [b0 Hb0].
  assert (Ka : inc A a0) by (eapply inc_subset; eauto).
  assert (Kb : inc B b0) by (eapply inc_subset; eauto).
  assert (P1 := ipos_ok A a GA HA). assert (P2 := ipos_ok A a0 GA Ka).
  assert (P3 := ipos_ok B b GB HB). assert (P4 := ipos_ok B b0 GB Kb).
  assert (X : boxed (mk A B) a0 a b0 b).
  { constructor; cbn [mk bA bA0 bIA bB bB0 bIB]; auto; (apply inc_div; [apply (inc_Z 1) | assumption | lra]). }
  destruct (Nat.leb_spec i N) as [Li|_]; [|apply inc_nai]. destruct (Nat.leb_spec j N) as [Lj|_]; [|apply inc_nai]. cbn [andb].
  apply evM_ok with (da := a - a0) (db := b - b0).
  - rewrite <- (Rplus_0_l (S2 tab i j a b)). apply matrix_ok; try assumption; [apply grp_ok | apply expands2_nil].
  - apply inc_sub; [exact HA|]. exact Ha0.
  - apply inc_sub; [exact HB|]. exact Hb0.
Qed.
