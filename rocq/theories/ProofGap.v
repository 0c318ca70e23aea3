(** * Loops that stop when their bracket is narrow: they end in binary64. *)
From Coq Require Import ZArith Reals Bool List Lia Lra SpecFloat.
From Flocq Require Import Core BinarySingleNaN.
From Verif Require Import Py ExactReal Float64 ProofSettle ProofBisect.
Open Scope R_scope.

(** Ends of moderate size. *)
Definition modest (x : f64) : Prop := is_finite x = true /\ Rabs (B2R x) <= bpow radix2 28.

Lemma ulp_modest x : Rabs x <= bpow radix2 28 -> ulp radix2 fexp64 x <= bpow radix2 (-24).
Proof.
  intros H. apply Rle_trans with (ulp radix2 fexp64 (bpow radix2 28)).
  - rewrite <- ulp_abs. apply ulp_le_pos; try typeclasses eauto; [apply Rabs_pos | exact H].
  - rewrite ulp_bpow. apply bpow_le. unfold SpecFloat.fexp, SpecFloat.emin. lia.
Qed.

(** The mid point shrinks the bracket, or the bracket is already narrow. *)
Lemma rmid_step a b : format a -> format b -> Rabs a <= bpow radix2 28 -> Rabs b <= bpow radix2 28 -> a <= b ->
  b - a <= bpow radix2 (-24) \/
  (rmid a b - a <= 3 / 4 * (b - a) /\ b - rmid a b <= 3 / 4 * (b - a)).
Proof.
  intros Fa Fb Ha Hb O. pose proof (rmid_between a b Fa Fb O) as [M1 M2].
  assert (E : Rabs (rmid a b - (a + b) / 2) <= / 2 * ulp radix2 fexp64 (rmid a b)).
  { rewrite rmid_once by assumption. apply error_le_half_ulp_round; try typeclasses eauto. }
  apply Rabs_le_inv in E.
  destruct (Req_dec (rmid a b) a) as [Q|Q].
  { left. rewrite Q in E. pose proof (ulp_modest a Ha). lra. }
  destruct (Req_dec (rmid a b) b) as [Q'|Q'].
  { left. rewrite Q' in E. pose proof (ulp_modest b Hb). lra. }
  right. apply rmid_contract; try assumption. lra.
Qed.

Lemma mid_modest lo hi : modest lo -> modest hi -> modest (mid lo hi) /\
  B2R (mid lo hi) = rmid (B2R lo) (B2R hi).
Proof.
  intros [Fl Hl] [Fh Hh].
  assert (X : bpow radix2 28 <= bpow radix2 1022) by (apply bpow_le; lia).
  set (big := flit 268435456%dec).
  assert (Eb : B2R big = bpow radix2 28).
  { change (B2R big) with (F2R (Float radix2 4503599627370496 (-24))). unfold F2R; simpl. lra. }
  assert (Em : B2R (Bopp big) = - bpow radix2 28) by (rewrite B2R_Bopp, Eb; reflexivity).
  apply Rabs_le_inv in Hl, Hh.
  assert (Pb : 0 <= bpow radix2 28) by apply bpow_ge_0.
  destruct (mid_between (Bopp big) big lo hi) as [Fm Bm].
  - rewrite Em, Rabs_Ropp, Rabs_pos_eq by assumption. exact X.
  - rewrite Eb, Rabs_pos_eq by assumption. exact X.
  - split; [exact Fl | rewrite Em, Eb; exact Hl].
  - split; [exact Fh | rewrite Em, Eb; exact Hh].
  - split; [|apply mid_finite; assumption].
    split; [exact Fm|]. rewrite Em, Eb in Bm. apply Rabs_le. exact Bm.
Qed.

(** The computed width of a narrow bracket. *)
Definition wide (e lo hi : f64) : bool := Bltb e (Babs (Bminus mode_NE hi lo)).

Lemma wide_narrow e lo hi : modest lo -> modest hi -> is_finite e = true -> bpow radix2 (-24) <= B2R e ->
  Rabs (B2R hi - B2R lo) <= bpow radix2 (-24) -> wide e lo hi = false.
Proof.
  intros [Fl Hl] [Fh Hh] Fe He G. unfold wide.
  pose proof (Bminus_correct prec emax Hprec Hmax mode_NE hi lo Fh Fl) as P.
  change (round radix2 fexp64 (round_mode mode_NE)) with rnd in P.
  assert (S : Rabs (rnd (B2R hi - B2R lo)) <= bpow radix2 (-24)).
  { apply abs_round_le_generic; [apply fexp_correct; reflexivity | apply valid_rnd_N | | exact G].
    apply generic_format_bpow. unfold SpecFloat.fexp, SpecFloat.emin. lia. }
  rewrite Rlt_bool_true in P by (apply Rle_lt_trans with (1 := S); apply bpow_lt; lia).
  destruct P as (P1 & P2 & _).
  rewrite Bltb_correct by (rewrite ?is_finite_Babs; assumption).
  rewrite B2R_Babs, P1. apply Rlt_bool_false. lra.
Qed.

Lemma gap_ends {S : Type} (c : S -> res bool) (b : S -> res (flow S)) (br : S -> f64 * f64) (e : f64) :
  is_finite e = true -> bpow radix2 (-24) <= B2R e ->
  (forall s, nd (c s)) ->
  (forall s, wide e (fst (br s)) (snd (br s)) = false -> c s = Ok false) ->
  (forall s, nd (b s)) ->
  (forall s s', b s = Ok (Next s') ->
     br s' = (fst (br s), mid (fst (br s)) (snd (br s))) \/ br s' = (mid (fst (br s)) (snd (br s)), snd (br s))) ->
  forall n s, modest (fst (br s)) -> modest (snd (br s)) ->
  Rabs (B2R (snd (br s)) - B2R (fst (br s))) * (3 / 4) ^ n <= bpow radix2 (-24) ->
  forall k, (n + 2 <= k)%nat -> nd (while k c b s).
Proof.
  intros Fe He Nc Hc Nb Hb.
  assert (Stop : forall s k, modest (fst (br s)) -> modest (snd (br s)) ->
    Rabs (B2R (snd (br s)) - B2R (fst (br s))) <= bpow radix2 (-24) -> (1 <= k)%nat -> nd (while k c b s)).
  { intros s k Ml Mh G Hk. destruct k as [|k]; [lia|]. cbn [while].
    rewrite Hc by (apply wide_narrow; assumption). discriminate. }
  induction n as [|n IH]; intros s Ml Mh G k Hk.
  { apply Stop; try assumption; [|lia]. rewrite pow_O, Rmult_1_r in G. exact G. }
  destruct k as [|k]; [lia|]. 
  set (lo := fst (br s)) in *. set (hi := snd (br s)) in *.
  assert (P : Rabs (B2R hi - B2R lo) <= bpow radix2 (-24) \/
     (Rabs (B2R (mid lo hi) - B2R lo) <= 3 / 4 * Rabs (B2R hi - B2R lo) /\
      Rabs (B2R hi - B2R (mid lo hi)) <= 3 / 4 * Rabs (B2R hi - B2R lo))).
  { destruct (mid_modest lo hi Ml Mh) as [_ Em]. rewrite Em.
    destruct Ml as [_ Ml], Mh as [_ Mh].
    destruct (Rle_or_lt (B2R lo) (B2R hi)) as [O|O].
    - pose proof (rmid_between _ _ (fmt lo) (fmt hi) O).
      destruct (rmid_step _ _ (fmt lo) (fmt hi) Ml Mh O) as [N|[N1 N2]]; [left|right];
        rewrite ?Rabs_pos_eq by lra; lra.
    - rewrite rmid_comm. assert (O' : B2R hi <= B2R lo) by lra.
      pose proof (rmid_between _ _ (fmt hi) (fmt lo) O').
      rewrite !(Rabs_minus_sym _ (B2R lo)), !(Rabs_minus_sym (B2R hi)).
      destruct (rmid_step _ _ (fmt hi) (fmt lo) Mh Ml O') as [N|[N1 N2]]; [left|right];
        rewrite ?Rabs_pos_eq by lra; lra. }
  destruct P as [P|[P1 P2]]; [apply Stop; try assumption; lia|].
  cbn [while]. specialize (Nc s). destruct (c s) as [[|]|er] eqn:Ec; [|discriminate|cbn; intros X; apply Nc; congruence].
  cbn [bind]. specialize (Nb s). destruct (b s) as [[s'|s']|er] eqn:Eb; [|discriminate|cbn; intros X; apply Nb; congruence].
  cbn [bind]. destruct (mid_modest lo hi Ml Mh) as [Mm _].
  assert (Q : 0 <= (3 / 4) ^ n) by (apply pow_le; lra).
  rewrite <- tech_pow_Rmult in G.
  destruct (Hb s s' Eb) as [E|E]; fold lo hi in E; apply IH; rewrite ?E; cbn [fst snd]; try assumption; try lia.
  - apply Rle_trans with (2 := G). rewrite <- Rmult_assoc, (Rmult_comm _ (3 / 4)).
    apply Rmult_le_compat_r; assumption.
  - apply Rle_trans with (2 := G). rewrite <- Rmult_assoc, (Rmult_comm _ (3 / 4)).
    apply Rmult_le_compat_r; assumption.
Qed.

Lemma modest_bound lo hi : modest lo -> modest hi ->
  Rabs (B2R hi - B2R lo) * (3 / 4) ^ 135 <= bpow radix2 (-24).
Proof.
  intros [_ Hl] [_ Hh].
  apply Rle_trans with (bpow radix2 29 * bpow radix2 (-54)).
  - apply Rmult_le_compat; [apply Rabs_pos| apply pow_le; lra | | apply (pow34 27)].
    apply Rabs_le_inv in Hl, Hh. change 29%Z with (28 + 1)%Z. rewrite bpow_plus. change (bpow radix2 1) with 2.
    apply Rabs_le. lra.
  - rewrite <- bpow_plus. apply bpow_le. lia.
Qed.
