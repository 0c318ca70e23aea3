(** Ranges, NaN and qualities: any arithmetic, then exact and binary64. *)
From Coq Require Import ZArith Reals Lra Lia List Bool.
From Flocq Require Import Core BinarySingleNaN.
From Verif Require Import Py ModState ModConstants ModUnits ModSelect ModRegion4 ModXSteam ExactReal
  Float64 SpecUnits SpecApi SpecRange ProofUnits ProofGeneric ProofFloat.
Import ListNotations.

Section Any.
Context {N : Num} {F : Fuel}.
Definition is_density (f : fn1) : bool :=
  match f with F_rhoV_p | F_rhoL_p | F_rhoV_t | F_rhoL_t => true | _ => false end.
Lemma gate f lo hi us x x' : range1 f = Some (lo, hi) ->
  (is_density f = true -> div #1%num nan = Ok nan) ->
  code_to (fst (sig1 f)) us x = Ok x' ->
  ((lit lo <? x') && (x' <? lit hi))%num = false -> run1 f us x = Ok nan.
Proof.
  intros G Hd E H.
  destruct f; try discriminate G; injection G as <- <-; cbn [run1 sig1 fst code_to] in *;
  (unfold hV_t, hV_p, hL_t, hL_p, rhoV_t, rhoL_t, rhoV_p, rhoL_p, vV_t, vV_p, vL_t, vL_p, sV_t, sV_p,
    sL_t, sL_p, uV_t, uV_p, uL_t, uL_p, CpV_t, CpV_p, CpL_t, CpL_p, CvV_t, CvV_p, CvL_t, CvL_p,
    wV_t, wV_p, wL_t, wL_p, psat_t, tsat_p, tsat_s, psat_s); try rewrite E; cbn [bind];
   try (unfold vV_t, vV_p, vL_t, vL_p; rewrite E; cbn [bind]);
   first [rewrite H | rewrite andb_comm, H]; cbn [bind];  try reflexivity; auto.
Qed.

(** A number no comparison accepts. *)
Definition nan_like (x : num) : Prop :=
  forall y, (x <? y)%num = false /\ (y <? x)%num = false /\ (x <=? y)%num = false /\ (y <=? x)%num = false.
Lemma region_pT_nan p T : nan_like p \/ nan_like T -> region_pT p T = Ok 0%Z.
Proof.
  intros H. unfold region_pT.
  assert (E1 : ((T >? #1073.15) && (p <? #50.0) && (T <? #2273.15) && (p >? #0.000611))%num = false).
  { destruct H as [H|H].
    - destruct (H #50.0%num) as (-> & _). now rewrite !andb_false_r.
    - destruct (H #1073.15%num) as (_ & -> & _). reflexivity. }
  assert (E2 : ((T <=? #1073.15) && (T >? #273.15) && (p <=? #100) && (p >? #0.000611))%num = false).
  { destruct H as [H|H].
    - destruct (H #100%num) as (_ & _ & -> & _). now rewrite !andb_false_r.
    - destruct (H #1073.15%num) as (_ & _ & -> & _). reflexivity. }
  now rewrite E1, E2.
Qed.
Lemma pt_nan f us p t p' T' : direct_pt f = true ->
  (f = F_rho_pt -> div #1%num nan = Ok nan) ->
  code_to Qp us p = Ok p' -> code_to QT us t = Ok T' -> nan_like p' \/ nan_like T' ->
  run2 f us p t = Ok nan.
Proof.
  intros Hf Hd Ep Et H. cbn [code_to] in *.
  destruct f; try discriminate Hf; cbn [run2];
  (unfold h_pt, v_pt, s_pt, u_pt, Cp_pt, Cv_pt, w_pt, my_pt, rho_pt, v_pt); rewrite Ep, Et; cbn [bind];
  rewrite (region_pT_nan _ _ H); cbn [bind existsb Z.eqb orb]; try reflexivity; auto.
Qed.

(** Quality *)
Lemma h_px_raises us p x p' : toSIunit_p us p = Ok p' ->
  ((#0.0 <=? x) && (x <=? #1.0))%num = false -> h_px us p x = Err ValueError.
Proof. intros E H. unfold h_px. rewrite E; cbn [bind]. unfold toSIunit_x. now rewrite H. Qed.
Lemma h_tx_raises us t x T : toSIunit_T us t = Ok T ->
  ((#0.0 <=? x) && (x <=? #1.0))%num = false -> h_tx us t x = Err ValueError.
Proof. intros E H. unfold h_tx. rewrite E; cbn [bind]. unfold toSIunit_x. now rewrite H. Qed.

(** A NaN enthalpy or entropy never gets past the converter of quality. *)
Definition nan_laws : Prop :=
  nan_like nan /\
  (forall y, sub nan y = nan /\ mul nan y = nan /\ add nan y = nan /\ sub y nan = nan) /\
  (forall y, div nan y = Ok nan \/ exists e, div nan y = Err e).
Lemma quality_nan f us p y p' : nan_laws -> of_quality f = true ->
  toSIunit_p us p = Ok p' -> ((#0.000611657 <? p') && (p' <? #22.06395))%num = true ->
  code_to (snd (fst (sig2 f))) us y = Ok nan -> exists e, run2 f us p y = Err e.
Proof.
  intros (NL & NA & ND) Hf Ep H Ey.
  assert (X : forall y, (nan <? y)%num = false) by (intros z; apply (NL z)).
  assert (Y : forall y, (y <? nan)%num = false) by (intros z; apply (NL z)).
  assert (Q : forall (r : res num) (k : num -> res num), (exists e, r = Err e) \/ r = Ok nan ->
     (exists e, k nan = Err e) -> exists e, (let* x := r in k x) = Err e).
  { intros r k [(e & ->) | ->] K; cbn [bind]; eauto. }
  assert (FX : exists e, fromSIunit_x us nan = Err e).
  { unfold fromSIunit_x. destruct (NL #0.0%num) as (_ & _ & _ & ->). cbn [andb]. eauto. }
  assert (FV : exists e, fromSIunit_vx us nan = Err e).
  { unfold fromSIunit_vx. destruct (NL #0.0%num) as (_ & _ & _ & ->). cbn [andb]. eauto. }
  assert (ND' : forall y, (exists e, div nan y = Err e) \/ div nan y = Ok nan) by (intros z; destruct (ND z); auto).
  assert (XH : (exists e, x4_ph p' nan = Err e) \/ x4_ph p' nan = Ok nan).
  { unfold x4_ph. destruct (h4V_p p'); cbn [bind]; [|eauto]. destruct (h4L_p p'); cbn [bind]; [|eauto].
    rewrite X, Y. rewrite (proj1 (NA _)). apply ND'. }
  assert (XS : (exists e, x4_ps p' nan = Err e) \/ x4_ps p' nan = Ok nan).
  { unfold x4_ps.
    match goal with |- context [bind ?e _] => destruct e as [[a b]|] end; cbn [bind]; [|eauto].
    rewrite X, Y. rewrite (proj1 (NA _)). apply ND'. }
  destruct f; try discriminate Hf; cbn [run2 sig2 fst snd code_to] in *;
  unfold x_ph, x_ps, vx_ph, vx_ps; rewrite Ep, Ey; cbn [bind]; rewrite H.
  - apply Q; [exact XH | exact FX].
  - apply Q; [exact XS | exact FX].
  - match goal with |- context [bind ?e _] => destruct e as [[a b]|] end; cbn [bind]; [|eauto].
    apply Q; [exact XH|]. destruct (NA b) as (_ & -> & _). destruct (NA #1%num) as (_ & _ & _ & ->).
    destruct (NA a) as (_ & -> & _). apply Q; [apply ND' | exact FV].
  - match goal with |- context [bind ?e _] => destruct e as [[a b]|] end; cbn [bind]; [|eauto].
    apply Q; [exact XS|]. destruct (NA b) as (_ & -> & _). destruct (NA #1%num) as (_ & _ & _ & ->).
    destruct (NA a) as (_ & -> & _). apply Q; [apply ND' | exact FV].
Qed.

Lemma density1 f g us x : volume1 f = Some g -> run1 f us x = (let* v := run1 g us x in div #1%num v).
Proof. destruct f; try discriminate; intros [= <-]; reflexivity. Qed.
Lemma density2 f g us x y : volume2 f = Some g ->
  run2 f us x y = (let* v := run2 g us x y in div #1%num v).
Proof. destruct f; try discriminate; intros [= <-]; reflexivity. Qed.
End Any.

Section Real.
Context {F : Fuel}.
Open Scope R_scope.
Lemma range_R f lo hi us x : range1 f = Some (lo, hi) ->
  (forall y, x = Fin y -> ~ D lo < to_si us (fst (sig1 f)) y < D hi) -> run1 f us x = Ok NaN.
Proof.
  intros G H. apply (gate (N := RNum) f lo hi us x (si us (fst (sig1 f)) x)); try assumption.
  - intros _. reflexivity.
  - apply code_to_spec. destruct f; try discriminate G; reflexivity.
  - destruct x as [y|]; [|reflexivity]. specialize (H y eq_refl). cbn [si lift1 ltb RNum lit cmp].
    destruct (Rltb_spec (D lo) (to_si us (fst (sig1 f)) y)); [|reflexivity].
    destruct (Rltb_spec (to_si us (fst (sig1 f)) y) (D hi)); [|reflexivity]. exfalso; apply H; split; assumption.
Qed.
Lemma nan_like_R : nan_like (N := RNum) NaN.
Proof. intros [y|]; repeat split; reflexivity. Qed.
Lemma pt_nan_R f us p t : direct_pt f = true -> p = NaN \/ t = NaN -> run2 f us p t = Ok NaN.
Proof.
  intros Hf H. apply (pt_nan (N := RNum) f us p t (si us Qp p) (si us QT t)); try assumption.
  - reflexivity.
  - now apply code_to_spec.
  - now apply code_to_spec.
  - destruct H as [-> | ->]; [left|right]; exact nan_like_R.
Qed.
Lemma fraction_dec (x : xr) : ~ is_fraction x ->
  ((lit 0.0%dec <=? x) && (x <=? lit 1.0%dec))%num = false.
Proof.
  intros H. destruct x as [r|]; [|reflexivity]. cbn [leb RNum lit cmp].
  destruct (Rleb_spec (D 0.0%dec) r); [|reflexivity].
  destruct (Rleb_spec r (D 1.0%dec)); [|reflexivity]. exfalso. apply H. exists r.
  split; [reflexivity|]. unfold D in *; cbn [dec_e dec_m] in *; lra.
Qed.
Lemma quality_R us y x : ~ is_fraction x -> h_px us y x = Err ValueError /\ h_tx us y x = Err ValueError.
Proof.
  intros H. apply fraction_dec in H. split.
  - eapply (h_px_raises (N := RNum)); [|exact H]. apply (code_to_spec us Qp y); reflexivity.
  - eapply (h_tx_raises (N := RNum)); [|exact H]. apply (code_to_spec us QT y); reflexivity.
Qed.
Lemma nan_laws_R : nan_laws (N := RNum).
Proof.
  split; [exact nan_like_R|]. split.
  - intros [y|]; repeat split.
  - intros [y|]; [|left; reflexivity]. cbn. destruct (Reqb y 0); eauto.
Qed.
Lemma quality_nan_R f us p : of_quality f = true -> 0.000611657 < to_si us Qp p < 22.06395 ->
  exists e, run2 f us (Fin p) NaN = Err e.
Proof.
  intros Hf H. apply (quality_nan (N := RNum) f us _ _ (si us Qp (Fin p)) nan_laws_R Hf).
  - apply (code_to_spec us Qp). reflexivity.
  - cbn [si lift1 ltb RNum lit cmp]. rewrite !Rltb_true; [reflexivity | |]; unfold D; cbn [dec_e dec_m]; lra.
  - change (@nan RNum) with (si us (snd (fst (sig2 f))) NaN). apply code_to_spec.
    destruct f; try discriminate Hf; reflexivity.
Qed.
Lemma recip (v : res xr) : reciprocal v (let* v := v in div (Num := RNum) (lit 1%dec) v).
Proof.
  destruct v as [[x|]|e]; cbn [bind]; try reflexivity.
  unfold reciprocal. cbn [div RNum lit]. unfold xdiv.
  destruct (Reqb_spec x 0) as [E|E]; [left; auto | right]. split; [exact E|].
  eexists. split; [reflexivity|]. unfold D; cbn [dec_e dec_m]. field. exact E.
Qed.
Lemma density1_R f g us x : volume1 f = Some g -> reciprocal (run1 g us x) (run1 f us x).
Proof. intros H. rewrite (density1 f g us x H). apply recip. Qed.
Lemma density2_R f g us x y : volume2 f = Some g -> reciprocal (run2 g us x y) (run2 f us x y).
Proof. intros H. rewrite (density2 f g us x y H). apply recip. Qed.
Lemma p_hrho_R us h rho r : p_hrho us h rho = Ok r -> r = user us Qp (Fin 10).
Proof.
  intros H. apply (p_hrho_const (N := RNum) us h rho r nan_law_R) in H.
  change (fromSIunit_p us (lit 10%dec)) with (code_from (N := RNum) Qp us (Fin (D 10%dec))) in H.
  rewrite code_from_spec in H by reflexivity. injection H as <-. reflexivity.
Qed.
(** the converters of quality and volume fraction *)
Lemma fraction_conv us x :
  (is_fraction x -> toSIunit_x us x = Ok x /\ fromSIunit_x us x = Ok x /\
                    toSIunit_vx us x = Ok x /\ fromSIunit_vx us x = Ok x) /\
  (~ is_fraction x -> toSIunit_x us x = Err ValueError /\ fromSIunit_x us x = Err ValueError /\
                    toSIunit_vx us x = Err ValueError /\ fromSIunit_vx us x = Err ValueError).
Proof.
  unfold toSIunit_x, fromSIunit_x, toSIunit_vx, fromSIunit_vx. split; intros H.
  - destruct H as (r & -> & H). cbn [leb RNum lit cmp]. rewrite !Rleb_true; [repeat split | |];
    unfold D; cbn [dec_e dec_m]; lra.
  - rewrite (fraction_dec x H). repeat split.
Qed.
End Real.

Section Float.
Variable L : libm.
Context {F : Fuel}.
Notation FN := (FNum L).
Open Scope R_scope.

Lemma lit_finite d : bpow radix2 (-1000) <= Rabs (D d) <= bpow radix2 1000 ->
  B2R (flit d) = rnd (D d) /\ is_finite (flit d) = true.
Proof.
  intros H. apply flit_correct. apply bpow_lt_1024, rnd_small.
  eapply Rle_trans; [apply H|]. apply bpow_le. lia.
Qed.
Lemma Bltb_inf_l (x : f64) : is_finite x = true -> Bltb (B754_infinity false) x = false.
Proof. now destruct x as [[]|[]| |[]]. Qed.
Lemma Bltb_inf_r (x : f64) : is_finite x = true -> Bltb x (B754_infinity true) = false.
Proof. now destruct x as [[]|[]| |[]]. Qed.
Lemma between_dec lo hi (x : f64) : is_finite (flit lo) = true -> is_finite (flit hi) = true ->
  B2R (flit lo) = rnd (D lo) -> B2R (flit hi) = rnd (D hi) -> ~ fbetween lo hi x ->
  Bltb (flit lo) x && Bltb x (flit hi) = false.
Proof.
  intros F1 F2 E1 E2 H. destruct (is_finite x) eqn:Fx.
  - rewrite !Bltb_correct by assumption. rewrite E1, E2.
    destruct (Rlt_bool_spec (rnd (D lo)) (B2R x)); [|reflexivity].
    destruct (Rlt_bool_spec (B2R x) (rnd (D hi))); [|reflexivity].
    exfalso. apply H. split; auto.
  - destruct x as [s|[]| |]; try discriminate Fx.
    + rewrite Bltb_inf_r by assumption. reflexivity.
    + rewrite Bltb_inf_l by assumption. apply andb_false_r.
    + rewrite Bltb_nan_r. reflexivity.
Qed.
Lemma range_lits f lo hi : range1 f = Some (lo, hi) ->
  (B2R (flit lo) = rnd (D lo) /\ is_finite (flit lo) = true) /\
  (B2R (flit hi) = rnd (D hi) /\ is_finite (flit hi) = true).
Proof.
  intros G.
  assert (B1 : bpow radix2 (-1000) <= / 1000000).
  { apply Rle_trans with (bpow radix2 (-20)); [apply bpow_le; lia|].
    change (bpow radix2 (-20)) with (/ 1048576). lra. }
  assert (B2 : 1000 <= bpow radix2 1000).
  { apply Rle_trans with (bpow radix2 10); [change (bpow radix2 10) with 1024; lra | apply bpow_le; lia]. }
  destruct f; try discriminate G; injection G as <- <-;
  split; apply lit_finite; unfold D; cbn [dec_e dec_m];
  (split; [eapply Rle_trans; [exact B1|] | eapply Rle_trans; [|exact B2]]);
  unfold Rabs; destruct Rcase_abs; lra.
Qed.

Lemma range_F f lo hi us x x' : range1 f = Some (lo, hi) ->
  code_to (N := FN) (fst (sig1 f)) us x = Ok x' -> ~ fbetween lo hi x' -> run1 (N := FN) f us x = Ok B754_nan.
Proof.
  intros G E H. destruct (range_lits f lo hi G) as ((E1 & F1) & (E2 & F2)).
  apply (gate (N := FN) f lo hi us x x'); try assumption.
  - intros _. cbn [div FNum nan]. unfold fdiv. cbn [lit FNum]. now rewrite Bdiv_nan_r.
  - now apply between_dec.
Qed.
Lemma nan_like_F : nan_like (N := FN) (B754_nan : f64).
Proof.
  intros y. cbn [ltb leb FNum]. repeat split; first [apply Bltb_nan_l | apply Bltb_nan_r | apply Bleb_nan_l | apply Bleb_nan_r].
Qed.
Lemma pt_nan_F f us (p t : f64) : direct_pt f = true -> p = B754_nan \/ t = B754_nan ->
  run2 (N := FN) f us p t = Ok B754_nan.
Proof.
  intros Hf H. destruct (code_to_ok L Qp us p) as (p' & Ep). destruct (code_to_ok L QT us t) as (T' & Et).
  apply (pt_nan (N := FN) f us p t p' T'); try assumption.
  - intros _. cbn [div FNum nan]. unfold fdiv. cbn [lit FNum]. now rewrite Bdiv_nan_r.
  - destruct H as [-> | ->]; [left|right].
    + rewrite code_to_nan in Ep. injection Ep as <-. exact nan_like_F.
    + rewrite code_to_nan in Et. injection Et as <-. exact nan_like_F.
Qed.
Lemma sat_nan_F f lo hi us : range1 f = Some (lo, hi) -> run1 (N := FN) f us (B754_nan : f64) = Ok B754_nan.
Proof.
  intros G. apply (range_F f lo hi us _ B754_nan); try assumption.
  - apply code_to_nan.
  - intros [H _]. discriminate H.
Qed.
Lemma lit_0 : flit 0.0%dec = fzero. Proof. reflexivity. Qed.
Lemma lit_1 : is_finite (flit 1.0%dec) = true /\ B2R (flit 1.0%dec) = 1.
Proof.
  assert (E : rnd (D 1.0%dec) = 1).
  { replace (D 1.0%dec) with (bpow radix2 0) by (unfold D; cbn [dec_e dec_m]; cbn; lra).
    unfold rnd. rewrite round_generic; [reflexivity | apply valid_rnd_N | apply generic_format_bpow; cbn; lia]. }
  destruct (flit_correct 1.0%dec) as [A B].
  { rewrite E, Rabs_R1. change 1 with (bpow radix2 0). apply bpow_lt. lia. }
  now rewrite A, E.
Qed.
Lemma f_fraction_dec (x : f64) : ~ f_fraction x -> Bleb (flit 0.0%dec) x && Bleb x (flit 1.0%dec) = false.
Proof.
  intros H. destruct lit_1 as [F1 E1]. rewrite lit_0. destruct (is_finite x) eqn:Fx.
  - rewrite !Bleb_correct by (assumption || reflexivity). rewrite E1. cbn [fzero B2R].
    destruct (Rle_bool_spec 0 (B2R x)); [|reflexivity].
    destruct (Rle_bool_spec (B2R x) 1); [|reflexivity].
    exfalso. apply H. split; auto.
  - destruct x as [s|[]| |]; try discriminate Fx; try reflexivity.
Qed.
Lemma quality_F us (y x : f64) : ~ f_fraction x ->
  h_px (N := FN) us y x = Err ValueError /\ h_tx (N := FN) us y x = Err ValueError.
Proof.
  intros H. apply f_fraction_dec in H. split.
  - destruct (code_to_ok L Qp us y) as (p' & Ep). exact (h_px_raises (N := FN) us y x p' Ep H).
  - destruct (code_to_ok L QT us y) as (p' & Ep). exact (h_tx_raises (N := FN) us y x p' Ep H).
Qed.
Lemma nan_laws_F : nan_laws (N := FN).
Proof.
  split; [exact nan_like_F|]. split.
  - intros y. repeat split. apply Bminus_nan_r.
  - intros y. cbn [div FNum nan]. unfold fdiv. destruct (Beqb y fzero); eauto.
Qed.
Lemma quality_nan_F f us (p p' : f64) : of_quality f = true ->
  toSIunit_p (N := FN) us p = Ok p' -> fbetween 0.000611657%dec 22.06395%dec p' ->
  exists e, run2 (N := FN) f us p B754_nan = Err e.
Proof.
  intros Hf E (Fp & H). destruct (range_lits F_tsat_p _ _ eq_refl) as ((E1 & F1) & (E2 & F2)).
  apply (quality_nan (N := FN) f us p _ p' nan_laws_F Hf E).
  - cbn [ltb FNum lit]. rewrite !Bltb_correct by assumption. rewrite E1, E2.
    rewrite !Rlt_bool_true by apply H. reflexivity.
  - apply code_to_nan.
Qed.
End Float.
