(** * The bisection loops of the code as one function, and what holds of it. *)
From Coq Require Import ZArith Reals Bool List Lia Lra SpecFloat.
From Flocq Require Import Core BinarySingleNaN.
From Verif Require Import Py ExactReal Float64 ProofSettle.

(** A bisection: [go v] is the loop condition on the last function value, [f] the function,
    [up v] says that the upper end is replaced. *)
Section Any.
Context {N : Num}.
Local Notation state := (option num * num * num * num)%type.

Definition bis_body (f : num -> res num) (up : num -> bool) : state -> res (flow state) :=
  fun '(x, v, hi, lo) =>
    let* x' := div (lo + hi)%num (#2)%num in
    let* v' := f x' in
    if (v =? v')%num then Ok (Break (Some x', v', hi, lo))
    else if up v' then Ok (Next (Some x', v', x', lo))
    else Ok (Next (Some x', v', hi, x')).
Definition bis (n : nat) (go : num -> bool) (f : num -> res num) (up : num -> bool) (s : state) : res state :=
  while n (fun '(x, v, hi, lo) => Ok (go v)) (bis_body f up) s.

Lemma while_ext {S : Type} n (c c' : S -> res bool) (b b' : S -> res (flow S)) s :
  (forall s, c s = c' s) -> (forall s, b s = b' s) -> while n c b s = while n c' b' s.
Proof.
  intros Hc Hb. revert s. induction n as [|n IH]; intros s; [reflexivity|].
  cbn [while]. rewrite Hc, Hb. destruct (c' s) as [[|]|e]; cbn; try reflexivity.
  destruct (b' s) as [[s'|s']|e]; cbn; auto.
Qed.

Lemma bind_bind {A B C : Type} (r : res A) (k : A -> res B) (k' : B -> res C) :
  bind r (fun a => bind (k a) k') = bind (bind r k) k'.
Proof. now destruct r. Qed.

(** What a bisection that returns has found: its last mid point and the function value there,
    which ended the loop, or was the same as the value of the round before. *)
Lemma bis_found n go f up : forall x v hi lo x' v' hi' lo',
  bis n go f up (x, v, hi, lo) = Ok (x', v', hi', lo') ->
  (x' = x /\ v' = v /\ go v = false) \/
  exists m, x' = Some m /\ f m = Ok v' /\
    (go v' = false \/ exists u, (u =? v')%num = true /\ (u = v \/ exists y, f y = Ok u)).
Proof.
  induction n as [|n IH]; intros x v hi lo x' v' hi' lo'; [discriminate|].
  unfold bis in *. cbn [while]. cbn [bind]. destruct (go v) eqn:G.
  2:{ intros H; injection H as <- <- <- <-. left; auto. }
  unfold bis_body at 1. destruct (div (lo + hi)%num (#2)%num) as [m|e]; [|discriminate]. cbn [bind].
  destruct (f m) as [w|e] eqn:E; [|discriminate]. cbn [bind].
  destruct (v =? w)%num eqn:Q.
  { cbn. intros H; injection H as <- <- <- <-. right. exists m. eauto 8. }
  destruct (up w); cbn [bind]; intros H; apply IH in H;
    (destruct H as [(-> & -> & H)|(m' & -> & E' & H)]; right; [exists m; auto|]; exists m'; split; [reflexivity|];
     split; [exact E'|]; destruct H as [H|(u & Q' & H)]; [now left|]; right; exists u; split; [exact Q'|];
     destruct H as [-> | H]; [right; exists m; exact E | now right]).
Qed.

(** The mid points stay where [P] holds if [P] survives the mid point. *)
Lemma bis_inv (P : num -> Prop) n go f up :
  (forall a b m, P a -> P b -> div (a + b)%num (#2)%num = Ok m -> P m) ->
  forall x v hi lo x' v' hi' lo', P hi -> P lo -> (forall m, x = Some m -> P m) ->
  bis n go f up (x, v, hi, lo) = Ok (x', v', hi', lo') -> forall m, x' = Some m -> P m.
Proof.
  intros HP. induction n as [|n IH]; intros x v hi lo x' v' hi' lo' Ph Pl Px; [discriminate|].
  unfold bis in *. cbn [while]. cbn [bind]. destruct (go v) eqn:G.
  2:{ intros H; injection H as <- <- <- <-. exact Px. }
  unfold bis_body at 1. destruct (div (lo + hi)%num (#2)%num) as [m|e] eqn:Em; [|discriminate]. cbn [bind].
  assert (Pm : P m) by exact (HP _ _ _ Pl Ph Em).
  destruct (f m) as [w|e] eqn:E; [|discriminate]. cbn [bind].
  destruct (v =? w)%num eqn:Q.
  { cbn. intros H; injection H as <- <- <- <-. intros y Y. now injection Y as <-. }
  destruct (up w); cbn [bind]; intros H;
    refine (IH _ _ _ _ _ _ _ _ _ _ _ H); try assumption; intros y Y; now injection Y as <-.
Qed.
End Any.

(** ** No endless loop in binary64 *)
Definition nd {A} (r : res A) : Prop := r <> Err Diverges.

Lemma nd_bind {A B} (r : res A) (k : A -> res B) : nd r -> (forall a, nd (k a)) -> nd (bind r k).
Proof. destruct r as [a|e]; cbn; intros H K; [apply K|]. intros E. apply H. congruence. Qed.
Lemma nd_for {X S} (l : list X) (b : S -> X -> res S) : (forall s x, nd (b s x)) ->
  forall s, nd (for_each l s b).
Proof.
  intros H. induction l as [|x l IH]; intros s; cbn; [discriminate|]. apply nd_bind; auto.
Qed.
Lemma nd_local {A} (x : option A) : nd (local x).
Proof. destruct x; discriminate. Qed.
Lemma nd_item {A} (l : list A) i : nd (item l i).
Proof. unfold item. destruct (nth_error l _); discriminate. Qed.

Section F64.
Context (L : libm).
Local Existing Instance FNum.
Local Notation NF := (FNum L).

Lemma nd_div (a b : f64) : nd (div (Num := NF) a b).
Proof. cbn. unfold fdiv. destruct (Beqb b fzero); discriminate. Qed.
Lemma nd_powf (a b : f64) : nd (powf (Num := NF) a b).
Proof.
  cbn. unfold fpow. cbv zeta. repeat match goal with |- nd (if ?b then _ else _) => destruct b; try discriminate end.
  destruct (fint b); [|discriminate].
  repeat match goal with |- nd (if ?b then _ else _) => destruct b; try discriminate end.
Qed.
Lemma nd_powz (a : f64) n : nd (powz (Num := NF) a n).
Proof. apply (nd_powf a (flit (mkdec n 0))). Qed.
Lemma nd_log (a : f64) : nd (log (Num := NF) a).
Proof. cbn. unfold flog. repeat match goal with |- nd (if ?b then _ else _) => destruct b; try discriminate end. Qed.
Lemma nd_exp (a : f64) : nd (exp (Num := NF) a).
Proof. cbn. unfold fexpo. cbv zeta. repeat match goal with |- nd (if ?b then _ else _) => destruct b; try discriminate end. Qed.
Lemma nd_sqrt (a : f64) : nd (sqrt (Num := NF) a).
Proof. cbn. unfold fsqrt. repeat match goal with |- nd (if ?b then _ else _) => destruct b; try discriminate end. Qed.

Lemma eqb_self (v : f64) : Beqb v v = false -> v = B754_nan.
Proof.
  destruct v as [s|s| |s m e Hb]; try easy; destruct s; try discriminate;
    unfold Beqb, SFeqb; cbn; rewrite Z.compare_refl, Pos.compare_refl; discriminate.
Qed.

Lemma bis_settles (go : f64 -> bool) (f : f64 -> res f64) (up : f64 -> bool) :
  go B754_nan = false -> (forall x, nd (f x)) ->
  forall n lo hi, settles n lo hi -> forall k x v, (n + 2 <= k)%nat -> nd (bis (N := NF) k go f up (x, v, hi, lo)).
Proof.
  intros Gn Nf. induction n as [|n IH]; intros lo hi S k x v Hk; [easy|].
  destruct k as [|k]; [lia|]. unfold bis. cbn [while bind]. destruct (go v); [|discriminate].
  unfold bis_body at 1. cbn [div add lit FNum]. rewrite mid_div. cbn [bind].
  specialize (Nf (mid lo hi)) as Nm. destruct (f (mid lo hi)) as [w|e] eqn:E; [|cbn; intros X; apply Nm; congruence].
  cbn [bind eqb FNum]. destruct (Beqb v w); [discriminate|].
  destruct S as [S1 S2].
  (* the next round, when the mid point does not move *)
  assert (Same : forall lo' hi', mid lo' hi' = mid lo hi ->
    nd (while k (fun '(_, v, _, _) => Ok (go v)) (bis_body (N := NF) f up) (Some (mid lo hi), w, hi', lo'))).
  { intros lo' hi' Em. destruct k as [|k]; [lia|]. cbn [while bind]. destruct (go w) eqn:Gw; [|discriminate].
    unfold bis_body at 1. cbn [div add lit FNum]. rewrite mid_div. cbn [bind]. rewrite Em, E. cbn [bind eqb FNum].
    destruct (Beqb w w) eqn:Q; [discriminate|]. apply eqb_self in Q. congruence. }
  destruct (up w); cbn [bind].
  - destruct S1 as [S1|S1]; [now apply Same|]. apply IH; [exact S1|lia].
  - destruct S2 as [S2|S2]; [now apply Same|]. apply IH; [exact S2|lia].
Qed.

Lemma bis_any (go : f64 -> bool) (f : f64 -> res f64) (up : f64 -> bool) k s :
  go B754_nan = false -> (forall x, nd (f x)) -> (5300 <= Z.of_nat k)%Z -> nd (bis (N := NF) k go f up s).
Proof.
  intros G Nf Hk. destruct s as [[[x v] hi] lo].
  assert (E : Z.of_nat (Z.to_nat 1050) = 1050%Z) by (apply Z2Nat.id; lia).
  revert E. generalize (Z.to_nat 1050). intros n E.
  apply (bis_settles go f up G Nf _ lo hi (settles_all n lo hi E)). lia.
Qed.

(** Ends between 512 and 4096. *)
Definition usual (x : f64) : Prop :=
  is_finite x = true /\ Bleb (flit 512%dec) x = true /\ Bleb x (flit 4096%dec) = true.

Lemma B2R_512 : B2R (flit 512%dec) = 512%R.
Proof. change (B2R (flit 512%dec)) with (F2R (Float radix2 4503599627370496 (-43))). unfold F2R; simpl. lra. Qed.
Lemma B2R_4096 : B2R (flit 4096%dec) = 4096%R.
Proof. change (B2R (flit 4096%dec)) with (F2R (Float radix2 4503599627370496 (-40))). unfold F2R; simpl. lra. Qed.

Lemma usual_R x : usual x -> is_finite x = true /\ (512 <= B2R x <= 4096)%R.
Proof.
  intros (F & A & B). split; [exact F|].
  rewrite Bleb_correct in A, B by auto. rewrite B2R_512 in A. rewrite B2R_4096 in B.
  split; [revert A | revert B]; case Rle_bool_spec; easy.
Qed.

Lemma spaced_512 : spaced (fun x => 512 <= x)%R (bpow radix2 (-44)).
Proof.
  split; [|intros; lra]. intros x y Fx Fy Px Py H.
  pose proof (gap_succ x y Fx Fy H) as G. apply Rle_trans with (2 := G).
  rewrite ulp_neq_0 by lra.
  apply Rle_trans with (bpow radix2 (-43) / 2)%R.
  - change (-43)%Z with (-44 + 1)%Z. rewrite bpow_plus. change (bpow radix2 1) with 2%R. lra.
  - apply Rmult_le_compat_r; [lra|]. apply bpow_le. unfold cexp.
    assert (10 <= mag radix2 x)%Z.
    { apply mag_ge_bpow. rewrite Rabs_pos_eq by lra. change (bpow radix2 (10 - 1)) with (IZR 512). lra. }
    unfold SpecFloat.fexp, SpecFloat.emin. lia.
Qed.

Lemma settles_usual lo hi : usual lo -> usual hi -> settles 150 lo hi.
Proof.
  intros Ul Uh. apply usual_R in Ul, Uh. destruct Ul as [Fl Bl], Uh as [Fh Bh].
  apply (settles_gap _ _ spaced_512 145); auto; try lra.
  apply Rle_lt_trans with (bpow radix2 12 * bpow radix2 (-58))%R.
  - apply Rmult_le_compat; [apply Rabs_pos| apply pow_le; lra | | apply (pow34 29)].
    change (bpow radix2 12) with 4096%R. apply Rabs_le. lra.
  - rewrite <- bpow_plus. apply bpow_lt. lia.
Qed.

Lemma bis_usual (go : f64 -> bool) (f : f64 -> res f64) (up : f64 -> bool) k x v hi lo :
  go B754_nan = false -> (forall x, nd (f x)) -> usual lo -> usual hi ->
  (160 <= Z.of_nat k)%Z -> nd (bis (N := NF) k go f up (x, v, hi, lo)).
Proof.
  intros G Nf Ul Uh Hk. apply (bis_settles go f up G Nf _ lo hi (settles_usual lo hi Ul Uh)). lia.
Qed.

(** Mid points lie between the ends. *)
Definition between (a b x : f64) : Prop :=
  is_finite x = true /\ (B2R a <= B2R x <= B2R b)%R.
Lemma mid_between a b x y : (Rabs (B2R a) <= bpow radix2 1022)%R -> (Rabs (B2R b) <= bpow radix2 1022)%R ->
  between a b x -> between a b y -> between a b (mid x y).
Proof.
  intros Ha Hb [Fx Bx] [Fy By].
  assert (Fm : is_finite (mid x y) = true).
  { unfold mid. pose proof (Bplus_correct prec emax Hprec Hmax mode_NE x y Fx Fy) as P.
    change (round radix2 fexp64 (round_mode mode_NE)) with rnd in P.
    assert (S : (Rabs (rnd (B2R x + B2R y)) <= bpow radix2 1023)%R).
    { apply abs_round_le_generic; [apply fexp_correct; reflexivity | apply valid_rnd_N | |].
      - apply generic_format_bpow. unfold SpecFloat.fexp, SpecFloat.emin. lia.
      - apply Rabs_le_inv in Ha. apply Rabs_le_inv in Hb.
        change 1023%Z with (1022 + 1)%Z. rewrite bpow_plus. change (bpow radix2 1) with 2%R.
        apply Rabs_le. lra. }
    assert (S2 : (Rabs (rnd (B2R x + B2R y)) < bpow radix2 1024)%R).
    { apply Rle_lt_trans with (1 := S). apply bpow_lt. lia. }
    rewrite Rlt_bool_true in P by exact S2. destruct P as (P1 & P2 & _).
    pose proof (Bdiv_correct prec emax Hprec Hmax mode_NE (Bplus mode_NE x y) (flit 2%dec)) as Q.
    change (round radix2 fexp64 (round_mode mode_NE)) with rnd in Q.
    rewrite two_eq, P1 in Q. specialize (Q ltac:(lra)).
    rewrite Rlt_bool_true in Q by (apply half_lt; exact S2). destruct Q as (_ & Q & _). congruence. }
  split; [exact Fm|]. rewrite mid_finite by assumption.
  destruct (Rle_or_lt (B2R x) (B2R y)) as [O|O].
  - pose proof (rmid_between _ _ (fmt x) (fmt y) O). lra.
  - rewrite rmid_comm. pose proof (rmid_between _ _ (fmt y) (fmt x) ltac:(lra)). lra.
Qed.
End F64.
