(** * Bisections in exact arithmetic converge. *)
From Coq Require Import ZArith Reals Bool List Lia Lra Psatz.
From Verif Require Import Py ExactReal ProofBisect.
Open Scope R_scope.

(** Brackets: the mid points stay strictly inside. *)
Definition in_oo (a b : R) (x : xr) : Prop := exists r, x = Fin r /\ a < r < b.
Definition in_cc (a b : R) (x : xr) : Prop := exists r, x = Fin r /\ a <= r <= b.

Lemma D2 : D 2%dec = 2. Proof. reflexivity. Qed.
Lemma xmid a b : xdiv (Fin (a + b)) (Fin (D 2%dec)) = Ok (Fin ((a + b) / 2)).
Proof. unfold xdiv. rewrite Reqb_false; [reflexivity|]. rewrite D2. lra. Qed.

Lemma mid_cc lo hi a b (m : xr) : in_cc lo hi a -> in_cc lo hi b ->
  div (Num := RNum) (a + b)%num (#2)%num = Ok m -> in_cc lo hi m.
Proof.
  intros (x & -> & Hx) (y & -> & Hy). cbn [div add lit RNum lift2]. rewrite xmid. intros H; injection H as <-.
  exists ((x + y) / 2). split; [reflexivity|lra].
Qed.

(** Strictly inside. *)
Lemma bis_inside n go f up : forall x v hi lo x' v' hi' lo', lo < hi ->
  bis (N := RNum) n go f up (x, v, Fin hi, Fin lo) = Ok (x', v', hi', lo') ->
  (x' = x /\ v' = v /\ go v = false) \/ exists m, x' = Some (Fin m) /\ lo < m < hi.
Proof.
  induction n as [|n IH]; intros x v hi lo x' v' hi' lo' O; [discriminate|].
  unfold bis in *. cbn [while bind]. destruct (go v) eqn:G.
  2:{ intros H; injection H as <- <- <- <-. left; auto. }
  unfold bis_body at 1. cbn [div add lit RNum lift2]. rewrite xmid. cbn [bind].
  set (m := (lo + hi) / 2). assert (Hm : lo < m < hi) by (unfold m; lra).
  destruct (f (Fin m)) as [w|e] eqn:E; [|discriminate]. cbn [bind].
  destruct (v =? w)%num eqn:Q.
  { cbn. intros H; injection H as <- <- <- <-. right. exists m. auto. }
  destruct (up w); cbn [bind]; intros H; apply IH in H; try lra;
    (destruct H as [(-> & -> & H)|(m' & -> & H)]; right; [exists m; auto | exists m'; split; [reflexivity|lra]]).
Qed.

Section Converge.
Variables (f : R -> R) (fx : xr -> res xr) (up : xr -> bool) (t tol r K a b : R).
Hypothesis (Hab : a <= r <= b).
Hypothesis (Hf : forall x, a < x < b -> fx (Fin x) = Ok (Fin (f x))).
(** Where mid points can lie: [r] is always in the bracket. *)
Definition J (x : R) : Prop := (a + r) / 2 <= x <= (r + b) / 2 /\ a < x < b.
Hypothesis (Hup : forall x, J x -> up (Fin (f x)) = true -> r <= x).
Hypothesis (Hdn : forall x, J x -> up (Fin (f x)) = false -> x <= r).
Hypothesis (HK : forall x, J x -> Rabs (t - f x) <= K * Rabs (x - r)).
Hypothesis (Hinj : forall x y, J x -> J y -> f x = f y -> x = y).
Hypothesis (HK0 : 0 <= K).

Definition goR (v : xr) : bool := cmp Rltb (Fin tol) (lift1 Rabs (lift2 Rminus (Fin t) v)).

Definition good (x : option xr) (v : xr) : Prop :=
  exists m, x = Some (Fin m) /\ v = Fin (f m) /\ a < m < b /\ Rabs (t - f m) <= tol.

Lemma converge_from : forall k n lo hi m,
  a <= lo <= r -> r <= hi <= b -> lo < hi -> m = lo \/ m = hi -> J m ->
  K * (hi - lo) <= tol * 2 ^ k -> (k < n)%nat ->
  exists x v hi' lo', bis (N := RNum) n goR fx up (Some (Fin m), Fin (f m), Fin hi, Fin lo) = Ok (x, v, hi', lo') /\ good x v.
Proof.
  induction k as [|k IH]; intros n lo hi m Hlo Hhi O Hm Jm G Hn; (destruct n as [|n]; [lia|]).
  - unfold bis. cbn [while bind]. unfold goR at 1. cbn [cmp lift1 lift2].
    assert (B : Rabs (t - f m) <= tol).
    { apply Rle_trans with (1 := HK m Jm). apply Rle_trans with (K * (hi - lo)); [|simpl in G; lra].
      apply Rmult_le_compat_l; [exact HK0|]. apply Rabs_le. destruct Hm; subst m; lra. }
    rewrite Rltb_false by exact B. do 4 eexists. split; [reflexivity|]. exists m. destruct Jm. auto.
  - unfold bis. cbn [while bind]. unfold goR at 1. cbn [cmp lift1 lift2].
    destruct (Rltb_spec tol (Rabs (t - f m))) as [S|S].
    2:{ do 4 eexists. split; [reflexivity|]. exists m. destruct Jm. repeat split; try tauto. lra. }
    unfold bis_body at 1. cbn [div add lit RNum lift2]. rewrite xmid. cbn [bind].
    set (c := (lo + hi) / 2). assert (Hc : lo < c < hi) by (unfold c; lra).
    assert (Jc : J c) by (unfold J, c; lra).
    rewrite Hf by (destruct Jc; lra). cbn [bind eqb RNum cmp].
    rewrite Reqb_false.
    2:{ intros E. apply Hinj in E; try assumption. destruct Hm; subst m; lra. }
    rewrite <- tech_pow_Rmult in G.
    destruct (up (Fin (f c))) eqn:U; cbn [bind].
    + pose proof (Hup c Jc U). assert (K * (c - lo) <= tol * 2 ^ k).
      { replace (c - lo) with ((hi - lo) / 2) by (unfold c; field). lra. }
      apply (IH n lo c c); auto; lra || lia.
    + pose proof (Hdn c Jc U). assert (K * (hi - c) <= tol * 2 ^ k).
      { replace (hi - c) with ((hi - lo) / 2) by (unfold c; field). lra. }
      apply (IH n c hi c); auto; lra || lia.
Qed.

Lemma converge k n x0 v0 : a < b -> Rabs (t - v0) > tol -> f ((a + b) / 2) <> v0 ->
  K * (b - a) <= tol * 2 ^ k -> (S k < n)%nat ->
  exists x v hi' lo', bis (N := RNum) n goR fx up (x0, Fin v0, Fin b, Fin a) = Ok (x, v, hi', lo') /\ good x v.
Proof.
  intros O Sv N0 G Hn. destruct n as [|n]; [lia|].
  unfold bis. cbn [while bind]. unfold goR at 1. cbn [cmp lift1 lift2].
  rewrite Rltb_true by lra.
  unfold bis_body at 1. cbn [div add lit RNum lift2]. rewrite xmid. cbn [bind].
  set (c := (a + b) / 2) in *. assert (Hc : a < c < b) by (unfold c; lra).
  assert (Jc : J c) by (unfold J, c; lra).
  rewrite Hf by (destruct Jc; lra). cbn [bind eqb RNum cmp].
  rewrite Reqb_false by congruence.
  assert (G' : K * ((b - a) / 2) <= tol * 2 ^ k).
  { apply Rle_trans with (2 := G). apply Rmult_le_compat_l; lra. }
  destruct (up (Fin (f c))) eqn:U; cbn [bind].
  - pose proof (Hup c Jc U).
    replace ((b - a) / 2) with (c - a) in G' by (unfold c; field).
    apply (converge_from k n a c c); auto; lra || lia.
  - pose proof (Hdn c Jc U).
    replace ((b - a) / 2) with (b - c) in G' by (unfold c; field).
    apply (converge_from k n c b c); auto; lra || lia.
Qed.
End Converge.
