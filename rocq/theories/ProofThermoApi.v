(** Energy and derivatives, for the functions of the code and for the API. *)
From Coq Require Import ZArith Reals Lra Lia List Bool.
From Coquelicot Require Import Coquelicot.
From Verif Require Import Py ExactReal ModState ModConstants ModUnits ModBorders ModRegion1 ModRegion2
  ModRegion3 ModRegion4 ModRegion5 ModSelect ModXSteam SpecUnits SpecApi SpecThermo ProofUnits
  ProofCovariance RealSum ProofEos ProofThermo ProofSat ProofSatApi.
Import ListNotations.
Open Scope R_scope.

(** ** Where a region number comes from *)
Lemma B23p_closed T : B23p_T (Fin T) = Ok (Fin (p23 T)).
Proof.
  unfold B23p_T. cbn [powz RNum]. rewrite xpowz_nn by lia. rewrite pw2.
  cbn [bind add sub mul lit RNum lift2].
  apply f_equal, f_equal. unfold p23, D; cbn [dec_e dec_m]. lra.
Qed.

Definition reg (p T : R) : Z :=
  if Rltb 1073.15 T then if Rltb p 50 && Rltb T 2273.15 && Rltb 0.000611 p then 5%Z else 0%Z
  else if Rltb 273.15 T && Rleb p 100 && Rltb 0.000611 p then
    if Rltb 623.15 T then
      if Rltb (p23 T) p then
        if Rltb T 647.096 && Rltb (Rabs (p - p4R T)) 0.00001 then 4%Z else 3%Z
      else 2%Z
    else if Rltb (Rabs (p - p4R T)) 0.00001 then 4%Z
    else if Rltb (p4R T) p then 1%Z else 2%Z
  else 0%Z.

Ltac dlit := unfold D; cbn [dec_e dec_m].
Lemma D_50 : D 50.0%dec = 50. Proof. dlit; lra. Qed.

Lemma region_pT_reg p T : region_pT (Fin p) (Fin T) = Ok (reg p T).
Proof.
  unfold region_pT, reg; cbv zeta. cbn [ltb leb RNum lit cmp].
  change (D 1073.15%dec) with 1073.15; change (D 2273.15%dec) with 2273.15;
  change (D 0.000611%dec) with 0.000611; change (D 273.15%dec) with 273.15;
  change (D 623.15%dec) with 623.15; change (D 647.096%dec) with 647.096;
  change (D 100%dec) with 100; change (D 0.00001%dec) with 0.00001; rewrite D_50.
  destruct (Rltb_spec 1073.15 T) as [A|A].
  - rewrite (Rleb_false T 1073.15) by lra.
    rewrite (Rltb_true 273.15 T) by lra. cbn [andb].
    destruct (Rltb p 50), (Rltb T 2273.15), (Rltb 0.000611 p); reflexivity.
  - rewrite (Rleb_true T 1073.15) by lra. cbn [andb].
    destruct (Rltb_spec 273.15 T) as [B|B]; [cbn [andb]|reflexivity].
    destruct (Rleb p 100 && Rltb 0.000611 p); [|reflexivity].
    destruct (Rltb_spec 623.15 T) as [C|C].
    + rewrite B23p_closed. cbn [bind cmp].
      destruct (Rltb (p23 T) p); [|reflexivity].
      destruct (Rltb_spec T 647.096) as [E|E]; [cbn [andb]|reflexivity].
      rewrite p4_closed by lra. cbn [bind sub fabs RNum lift1 lift2 cmp].
      now destruct (Rltb (Rabs (p - p4R T)) _).
    + rewrite p4_closed by lra. cbn [bind sub fabs RNum lift1 lift2 cmp].
      destruct (Rltb (Rabs (p - p4R T)) _); [reflexivity|].
      now destruct (Rltb (p4R T) p).
Qed.

Lemma psatR_eq T : 273.1 < T < 647.096 -> psatR T = p4R T.
Proof. intros H. unfold psatR. now rewrite psat_bare. Qed.

Lemma reg_map p T : if97_region psatR p T (reg p T).
Proof.
  unfold if97_region, in_range, at_saturation, reg.
  assert (P : 273.15 < T -> T < 647.096 -> psatR T = p4R T) by (intros; apply psatR_eq; lra).
  destruct (Rltb_spec 1073.15 T) as [A|A].
  { destruct (Rltb_spec p 50); destruct (Rltb_spec T 2273.15); destruct (Rltb_spec 0.000611 p);
    cbn [andb]; first [ do 6 right; left; repeat split; lra | do 7 right; repeat split; lra ]. }
  destruct (Rltb_spec 273.15 T) as [B|B]; destruct (Rleb_spec p 100); destruct (Rltb_spec 0.000611 p);
    cbn [andb]; try (do 7 right; repeat split; lra).
  destruct (Rltb_spec 623.15 T) as [C|C].
  - destruct (Rltb_spec (p23 T) p); [|do 2 right; left; repeat split; lra].
    destruct (Rltb_spec T 647.096); cbn [andb].
    + rewrite P by lra. destruct (Rltb_spec (Rabs (p - p4R T)) 0.00001).
      * do 5 right; left; repeat split; lra.
      * do 3 right; left; repeat split; try lra.
    + do 3 right; left; repeat split; lra.
  - rewrite P by lra. destruct (Rltb_spec (Rabs (p - p4R T)) 0.00001) as [E|E].
    + do 4 right; left; repeat split; lra.
    + assert (p <> p4R T).
      { intros ->. apply E. rewrite Rminus_diag_eq by reflexivity. rewrite Rabs_R0. lra. }
      destruct (Rltb_spec (p4R T) p); [left | right; left]; repeat split; lra.
Qed.
Lemma if97_unique psat p T r r' : if97_region psat p T r -> if97_region psat p T r' -> r = r'.
Proof.
  unfold if97_region, in_range, at_saturation. set (d := Rabs (p - psat T)).
  intros H H'.
  destruct H as [H|[H|[H|[H|[H|[H|[H|H]]]]]]]; destruct H as [-> H];
  destruct H' as [H'|[H'|[H'|[H'|[H'|[H'|[H'|H']]]]]]]; destruct H' as [-> H'];
  try reflexivity; exfalso; lra.
Qed.
Lemma region_map p T r :
  region_pT (Fin p) (Fin T) = Ok r <-> if97_region psatR p T r.
Proof.
  rewrite region_pT_reg. split.
  - intros [= <-]. apply reg_map.
  - intros H. now rewrite (if97_unique _ _ _ _ _ H (reg_map p T)).
Qed.
Lemma region_map_nan x y : x = NaN \/ y = NaN -> region_pT x y = Ok 0%Z.
Proof.
  intros [-> | ->]; [destruct y as [T|] | destruct x as [p|]]; unfold region_pT; cbn [ltb leb RNum lit cmp];
  rewrite ?andb_false_r; cbn [andb]; try reflexivity.
Qed.

Lemma region_1 p T : region_pT (Fin p) (Fin T) = Ok 1%Z -> 273.15 < T <= 623.15 /\ 0.000611 < p <= 100.
Proof. rewrite region_map. unfold if97_region, in_range. intuition (try discriminate); lra. Qed.
Lemma region_2 p T : region_pT (Fin p) (Fin T) = Ok 2%Z -> 273.15 < T <= 1073.15 /\ 0.000611 < p <= 100.
Proof. rewrite region_map. unfold if97_region, in_range. intuition (try discriminate); lra. Qed.
Lemma region_5 p T : region_pT (Fin p) (Fin T) = Ok 5%Z -> 1073.15 < T < 2273.15 /\ 0.000611 < p < 50.
Proof. rewrite region_map. unfold if97_region, in_range. intuition (try discriminate); lra. Qed.

(** ** Functions that agree near a point *)
Definition near (f g : R -> R -> R) (x y : R) : Prop :=
  exists eps, 0 < eps /\ forall x' y', Rabs (x' - x) < eps -> Rabs (y' - y) < eps -> f x' y' = g x' y'.
Lemma near_at f g x y : near f g x y -> f x y = g x y.
Proof. intros (e & He & H). apply H; rewrite Rminus_diag_eq, Rabs_R0 by reflexivity; lra. Qed.
Lemma near_1 f g x y : near f g x y -> locally x (fun x' => g x' y = f x' y).
Proof.
  intros (e & He & H). exists (mkposreal e He). intros z Hz. symmetry. apply H.
  - exact Hz. - rewrite Rminus_diag_eq, Rabs_R0 by reflexivity; lra.
Qed.
Lemma near_2 f g x y : near f g x y -> locally y (fun y' => g x y' = f x y').
Proof.
  intros (e & He & H). exists (mkposreal e He). intros z Hz. symmetry. apply H.
  - rewrite Rminus_diag_eq, Rabs_R0 by reflexivity; lra. - exact Hz.
Qed.
Lemma near_d1 f g x y l : near f g x y -> is_derive (fun x => g x y) x l -> is_derive (fun x => f x y) x l.
Proof. intros H. apply is_derive_ext_loc. now apply near_1. Qed.
Lemma near_d2 f g x y l : near f g x y -> is_derive (fun y => g x y) y l -> is_derive (fun y => f x y) y l.
Proof. intros H. apply is_derive_ext_loc. now apply near_2. Qed.

Lemma near_D1 f g x y : near f g x y -> Derive (fun x => f x y) x = Derive (fun x => g x y) x.
Proof. intros H. symmetry. apply Derive_ext_loc. now apply near_1. Qed.
Lemma near_D2 f g x y : near f g x y -> Derive (fun y => f x y) y = Derive (fun y => g x y) y.
Proof. intros H. symmetry. apply Derive_ext_loc. now apply near_2. Qed.

Lemma gibbs_near v h s cp v' h' s' cp' p T :
  near v v' p T -> near h h' p T -> near s s' p T -> near cp cp' p T ->
  one_gibbs_function v' h' s' cp' p T -> one_gibbs_function v h s cp p T.
Proof.
  intros Hv Hh Hs Hc (vT & vp & D1 & D2 & D3 & D4 & D5 & D6). exists vT, vp.
  rewrite (near_at _ _ _ _ Hc), (near_at _ _ _ _ Hv).
  splits; [exact (near_d2 v v' p T _ Hv D1) | exact (near_d1 v v' p T _ Hv D2)
    | exact (near_d2 h h' p T _ Hh D3) | exact (near_d2 s s' p T _ Hs D4)
    | exact (near_d1 s s' p T _ Hs D5) | exact (near_d1 h h' p T _ Hh D6)].
Qed.
Lemma cv_near v cp v' cp' p T c : near v v' p T -> near cp cp' p T ->
  cv_follows v' cp' p T c -> cv_follows v cp p T c.
Proof.
  intros Hv Hc. unfold cv_follows. cbv zeta.
  rewrite (near_D1 _ _ _ _ Hv), (near_D2 _ _ _ _ Hv).
  now rewrite (near_at _ _ _ _ Hc).
Qed.
Lemma w_near v cp v' cp' p T c : near v v' p T -> near cp cp' p T ->
  w_follows v' cp' p T c -> w_follows v cp p T c.
Proof.
  intros Hv Hc. unfold w_follows. cbv zeta.
  rewrite (near_D1 _ _ _ _ Hv), (near_D2 _ _ _ _ Hv).
  now rewrite (near_at _ _ _ _ Hc), (near_at _ _ _ _ Hv).
Qed.

(** an open rectangle *)
Lemma near_box (P : R -> R -> Prop) f g x y a b c d : a < x < b -> c < y < d ->
  (forall x y, a < x < b -> c < y < d -> f x y = g x y) -> near f g x y.
Proof.
  intros Hx Hy H. exists (Rmin (Rmin (x - a) (b - x)) (Rmin (y - c) (d - y))). split.
  - repeat apply Rmin_glb_lt; lra.
  - intros x' y' Hx' Hy'.
    assert (A1 := Rmin_l (Rmin (x - a) (b - x)) (Rmin (y - c) (d - y))).
    assert (A2 := Rmin_r (Rmin (x - a) (b - x)) (Rmin (y - c) (d - y))).
    assert (A3 := Rmin_l (x - a) (b - x)). assert (A4 := Rmin_r (x - a) (b - x)).
    assert (A5 := Rmin_l (y - c) (d - y)). assert (A6 := Rmin_r (y - c) (d - y)).
    apply Rabs_def2 in Hx'. apply Rabs_def2 in Hy'. apply H; lra.
Qed.

(** ** Regions 1, 2, 5: the code's functions *)
Ltac setD1 f H :=
  match goal with |- context [Derive f ?x] => rewrite (is_derive_unique f x _ H : Derive f x = _) end.
Ltac setD2 f H :=
  match goal with |- context [Derive (fun y => f y) ?x] =>
    rewrite (is_derive_unique (fun y => f y) x _ H : Derive (fun y => f y) x = _) end.
Ltac box lo hi lo' hi' :=
  apply (near_box (fun _ _ => True)) with (a := lo) (b := hi) (c := lo') (d := hi');
  try lra; intros x y Hx Hy; unfold real2.

Section R1.
Variables (p T : R).
Hypothesis (H : dom1 p T).
Lemma near_v1 : near (real2 v1_pT) v1R p T.
Proof. unfold dom1 in H. box 0 117.363 0 1134.2. now rewrite (proj1 (eos1 x y (conj Hx Hy))). Qed.
Lemma near_h1 : near (real2 h1_pT) h1R p T.
Proof. unfold dom1 in H. box 0 117.363 0 1134.2. now rewrite (proj1 (proj2 (eos1 x y (conj Hx Hy)))). Qed.
Lemma near_s1 : near (real2 s1_pT) s1R p T.
Proof. unfold dom1 in H. box 0 117.363 0 1134.2. now rewrite (proj1 (proj2 (proj2 (proj2 (eos1 x y (conj Hx Hy)))))). Qed.
Lemma near_Cp1 : near (real2 Cp1_pT) Cp1R p T.
Proof. unfold dom1 in H. box 0 117.363 0 1134.2. now rewrite (proj2 (proj2 (proj2 (proj2 (eos1 x y (conj Hx Hy)))))). Qed.
Lemma gibbs1 : one_gibbs_function (real2 v1_pT) (real2 h1_pT) (real2 s1_pT) (real2 Cp1_pT) p T.
Proof.
  eapply gibbs_near; [apply near_v1|apply near_h1|apply near_s1|apply near_Cp1|].
  destruct (thermo1 p T H) as (D1 & D2 & D3 & D4 & D5 & D6). exists (v1T p T), (v1p p T). now splits.
Qed.
Lemma cv1 c : Cv1_pT (Fin p) (Fin T) = Ok (Fin c) -> cv_follows (real2 v1_pT) (real2 Cp1_pT) p T c.
Proof.
  intros E. eapply cv_near; [apply near_v1|apply near_Cp1|].
  destruct (thermo1 p T H) as (_ & _ & D3 & D4 & _). unfold cv_follows; cbv zeta.
  setD2 (v1R p) D3. setD1 (fun p => v1R p T) D4. now apply Cv1_thermo.
Qed.
Lemma w1 c : w1_pT (Fin p) (Fin T) = Ok (Fin c) -> w_follows (real2 v1_pT) (real2 Cp1_pT) p T c.
Proof.
  intros E. eapply w_near; [apply near_v1|apply near_Cp1|].
  destruct (thermo1 p T H) as (_ & _ & D3 & D4 & _). unfold w_follows; cbv zeta.
  setD2 (v1R p) D3. setD1 (fun p => v1R p T) D4. now apply w1_thermo.
Qed.
End R1.

Section R2.
Variables (p T : R).
Hypothesis (H : dom2 p T).
Lemma near_v2 : near (real2 v2_pT) v2R p T.
Proof. unfold dom2 in H. box 0 (p + 1) 0 1080. now rewrite (proj1 (eos2 x y (conj (proj1 Hx) Hy))). Qed.
Lemma near_h2 : near (real2 h2_pT) h2R p T.
Proof. unfold dom2 in H. box 0 (p + 1) 0 1080. now rewrite (proj1 (proj2 (eos2 x y (conj (proj1 Hx) Hy)))). Qed.
Lemma near_s2 : near (real2 s2_pT) s2R p T.
Proof. unfold dom2 in H. box 0 (p + 1) 0 1080. now rewrite (proj1 (proj2 (proj2 (proj2 (eos2 x y (conj (proj1 Hx) Hy)))))). Qed.
Lemma near_Cp2 : near (real2 Cp2_pT) Cp2R p T.
Proof. unfold dom2 in H. box 0 (p + 1) 0 1080. now rewrite (proj2 (proj2 (proj2 (proj2 (eos2 x y (conj (proj1 Hx) Hy)))))). Qed.
Lemma gibbs2 : one_gibbs_function (real2 v2_pT) (real2 h2_pT) (real2 s2_pT) (real2 Cp2_pT) p T.
Proof.
  eapply gibbs_near; [apply near_v2|apply near_h2|apply near_s2|apply near_Cp2|].
  destruct (thermo2 p T H) as (D1 & D2 & D3 & D4 & D5 & D6). exists (v2T p T), (v2p p T). now splits.
Qed.
Lemma cv2 c : Cv2_pT (Fin p) (Fin T) = Ok (Fin c) -> cv_follows (real2 v2_pT) (real2 Cp2_pT) p T c.
Proof.
  intros E. eapply cv_near; [apply near_v2|apply near_Cp2|].
  destruct (thermo2 p T H) as (_ & _ & D3 & D4 & _). unfold cv_follows; cbv zeta.
  setD2 (v2R p) D3. setD1 (fun p => v2R p T) D4. now apply Cv2_thermo.
Qed.
Lemma w2 c : w2_pT (Fin p) (Fin T) = Ok (Fin c) -> w_follows (real2 v2_pT) (real2 Cp2_pT) p T c.
Proof.
  intros E. eapply w_near; [apply near_v2|apply near_Cp2|].
  destruct (thermo2 p T H) as (_ & _ & D3 & D4 & _). unfold w_follows; cbv zeta.
  setD2 (v2R p) D3. setD1 (fun p => v2R p T) D4. now apply w2_thermo.
Qed.
End R2.

Section R5.
Variables (p T : R).
Hypothesis (H : dom5 p T).
Lemma near_v5 : near (real2 v5_pT) v5R p T.
Proof. unfold dom5 in H. box 0 (p + 1) 0 (T + 1). now rewrite (proj1 (eos5 x y (conj (proj1 Hx) (proj1 Hy)))). Qed.
Lemma near_h5 : near (real2 h5_pT) h5R p T.
Proof. unfold dom5 in H. box 0 (p + 1) 0 (T + 1). now rewrite (proj1 (proj2 (eos5 x y (conj (proj1 Hx) (proj1 Hy))))). Qed.
Lemma near_s5 : near (real2 s5_pT) s5R p T.
Proof. unfold dom5 in H. box 0 (p + 1) 0 (T + 1). now rewrite (proj1 (proj2 (proj2 (proj2 (eos5 x y (conj (proj1 Hx) (proj1 Hy))))))). Qed.
Lemma near_Cp5 : near (real2 Cp5_pT) Cp5R p T.
Proof. unfold dom5 in H. box 0 (p + 1) 0 (T + 1). now rewrite (proj2 (proj2 (proj2 (proj2 (eos5 x y (conj (proj1 Hx) (proj1 Hy))))))). Qed.
Lemma gibbs5 : one_gibbs_function (real2 v5_pT) (real2 h5_pT) (real2 s5_pT) (real2 Cp5_pT) p T.
Proof.
  eapply gibbs_near; [apply near_v5|apply near_h5|apply near_s5|apply near_Cp5|].
  destruct (thermo5 p T H) as (D1 & D2 & D3 & D4 & D5 & D6). exists (v5T p T), (v5p p T). now splits.
Qed.
Lemma cv5 c : Cv5_pT (Fin p) (Fin T) = Ok (Fin c) -> cv_follows (real2 v5_pT) (real2 Cp5_pT) p T c.
Proof.
  intros E. eapply cv_near; [apply near_v5|apply near_Cp5|].
  destruct (thermo5 p T H) as (_ & _ & D3 & D4 & _). unfold cv_follows; cbv zeta.
  setD2 (v5R p) D3. setD1 (fun p => v5R p T) D4. now apply Cv5_thermo.
Qed.
Lemma w5 c : w5_pT (Fin p) (Fin T) = Ok (Fin c) -> w_follows (real2 v5_pT) (real2 Cp5_pT) p T c.
Proof.
  intros E. eapply w_near; [apply near_v5|apply near_Cp5|].
  destruct (thermo5 p T H) as (_ & _ & D3 & D4 & _). unfold w_follows; cbv zeta.
  setD2 (v5R p) D3. setD1 (fun p => v5R p T) D4. now apply w5_thermo.
Qed.
End R5.

(** ** Region 3 *)
Section R3.
Variables (rho T : R).
Hypothesis (H : dom3 rho T).
Lemma near_p3 : near (real2 p3_rhoT) p3R rho T.
Proof. unfold dom3 in H. box 0 (rho + 1) 0 (T + 1). now rewrite (proj1 (eos3 x y (conj (proj1 Hx) (proj1 Hy)))). Qed.
Lemma near_h3 : near (real2 h3_rhoT) h3R rho T.
Proof. unfold dom3 in H. box 0 (rho + 1) 0 (T + 1). now rewrite (proj1 (proj2 (eos3 x y (conj (proj1 Hx) (proj1 Hy))))). Qed.
Lemma near_u3 : near (real2 u3_rhoT) u3R rho T.
Proof. unfold dom3 in H. box 0 (rho + 1) 0 (T + 1). now rewrite (proj1 (proj2 (proj2 (eos3 x y (conj (proj1 Hx) (proj1 Hy)))))). Qed.
Lemma near_s3 : near (real2 s3_rhoT) s3R rho T.
Proof. unfold dom3 in H. box 0 (rho + 1) 0 (T + 1). now rewrite (proj1 (proj2 (proj2 (proj2 (eos3 x y (conj (proj1 Hx) (proj1 Hy))))))). Qed.
Lemma near_Cv3 : near (real2 Cv3_rhoT) Cv3R rho T.
Proof. unfold dom3 in H. box 0 (rho + 1) 0 (T + 1). now rewrite (proj2 (proj2 (proj2 (proj2 (eos3 x y (conj (proj1 Hx) (proj1 Hy))))))). Qed.
Lemma helmholtz3 :
  one_helmholtz_function (real2 p3_rhoT) (real2 u3_rhoT) (real2 h3_rhoT) (real2 s3_rhoT) (real2 Cv3_rhoT) rho T.
Proof.
  destruct (thermo3 rho T H) as (D1 & D2 & D3 & D4 & D5 & D6).
  unfold one_helmholtz_function.
  rewrite (near_at _ _ _ _ near_h3), (near_at _ _ _ _ near_u3), (near_at _ _ _ _ near_p3), (near_at _ _ _ _ near_Cv3).
  split.
  - destruct (side3 _ _ H) as (Q1 & Q2 & Q3 & Q4 & Q5 & Q6 & Q7 & Q8).
    unfold h3R, u3R, p3R, ta. field. lra.
  - exists (p3T rho T), (p3rho rho T). splits;
    [ exact (near_d2 _ _ _ _ _ near_p3 D3) | exact (near_d1 _ _ _ _ _ near_p3 D4)
    | exact (near_d2 _ _ _ _ _ near_u3 D1) | exact (near_d2 _ _ _ _ _ near_s3 D2)
    | exact (near_d1 _ _ _ _ _ near_s3 D5) | exact (near_d1 _ _ _ _ _ near_u3 D6)].
Qed.
Lemma cp3 c : Cp3_rhoT (Fin rho) (Fin T) = Ok (Fin c) ->
  cp_follows_rho (real2 p3_rhoT) (real2 Cv3_rhoT) rho T c.
Proof.
  intros E. destruct (thermo3 rho T H) as (_ & _ & D3 & D4 & _).
  unfold cp_follows_rho; cbv zeta. rewrite (near_D1 _ _ _ _ near_p3), (near_D2 _ _ _ _ near_p3), (near_at _ _ _ _ near_Cv3).
  setD2 (p3R rho) D3. setD1 (fun rho => p3R rho T) D4. now apply Cp3_thermo.
Qed.
Lemma w3 c : w3_rhoT (Fin rho) (Fin T) = Ok (Fin c) ->
  w_follows_rho (real2 p3_rhoT) (real2 Cv3_rhoT) rho T c.
Proof.
  intros E. destruct (thermo3 rho T H) as (_ & _ & D3 & D4 & _).
  unfold w_follows_rho; cbv zeta. rewrite (near_D1 _ _ _ _ near_p3), (near_D2 _ _ _ _ near_p3), (near_at _ _ _ _ near_Cv3).
  setD2 (p3R rho) D3. setD1 (fun rho => p3R rho T) D4. now apply w3_thermo.
Qed.
End R3.

(** ** The API in (p,T) *)
Section Api.
Context {F : Fuel}.
Lemma dom_1 p T : region_pT (Fin p) (Fin T) = Ok 1%Z -> dom1 p T.
Proof. intros H; apply region_1 in H; unfold dom1; lra. Qed.
Lemma dom_2 p T : region_pT (Fin p) (Fin T) = Ok 2%Z -> dom2 p T.
Proof. intros H; apply region_2 in H; unfold dom2; lra. Qed.
Lemma dom_5 p T : region_pT (Fin p) (Fin T) = Ok 5%Z -> dom5 p T.
Proof. intros H; apply region_5 in H; unfold dom5; lra. Qed.

(** What the (p,T) functions return where the region is 1, 2 or 5. *)
Definition pick {A} (r : Z) (x1 x2 x5 : A) : A :=
  if Z.eqb r 1 then x1 else if Z.eqb r 2 then x2 else x5.
Lemma bindok (e : res xr) : (let* x := e in Ok x) = e. Proof. now destruct e. Qed.
Lemma api_pT p T r : region_pT p T = Ok r -> (r = 1 \/ r = 2 \/ r = 5)%Z ->
  v_pt BARE p T = pick r v1_pT v2_pT v5_pT p T /\
  h_pt BARE p T = pick r h1_pT h2_pT h5_pT p T /\
  s_pt BARE p T = pick r s1_pT s2_pT s5_pT p T /\
  u_pt BARE p T = pick r u1_pT u2_pT u5_pT p T /\
  Cp_pt BARE p T = pick r Cp1_pT Cp2_pT Cp5_pT p T /\
  Cv_pt BARE p T = pick r Cv1_pT Cv2_pT Cv5_pT p T /\
  w_pt BARE p T = pick r w1_pT w2_pT w5_pT p T.
Proof.
  intros H Hr. unfold v_pt, h_pt, s_pt, u_pt, Cp_pt, Cv_pt, w_pt; bare; rewrite H; cbn [bind].
  destruct Hr as [-> | [-> | ->]]; cbn [Z.eqb Pos.eqb pick]; bare; rewrite !bindok; repeat split.
Qed.

Lemma inside_at r p T : inside r p T -> region_pT (Fin p) (Fin T) = Ok r.
Proof. intros (e & He & H). apply H; rewrite Rminus_diag_eq, Rabs_R0 by reflexivity; lra. Qed.
Lemma inside_near r p T (f g : xr -> xr -> res xr) : inside r p T ->
  (forall p' T', region_pT (Fin p') (Fin T') = Ok r -> f (Fin p') (Fin T') = g (Fin p') (Fin T')) ->
  near (real2 f) (real2 g) p T.
Proof. intros (e & He & H) Hf. exists e. split; [easy|]. intros. unfold real2. now rewrite Hf by auto. Qed.


Lemma answers_api r p T : single_phase r -> region_pT (Fin p) (Fin T) = Ok r ->
  answers (v_pt BARE (Fin p) (Fin T)) /\ answers (h_pt BARE (Fin p) (Fin T)) /\
  answers (s_pt BARE (Fin p) (Fin T)) /\ answers (u_pt BARE (Fin p) (Fin T)) /\
  answers (Cp_pt BARE (Fin p) (Fin T)).
Proof.
  intros Hr H. destruct (api_pT _ _ _ H Hr) as (-> & -> & -> & -> & -> & _).
  unfold answers.
  destruct Hr as [-> | [-> | ->]]; cbn [pick Z.eqb Pos.eqb].
  - destruct (eos1 p T (dom_1 _ _ H)) as (-> & -> & -> & -> & ->). repeat split; eauto.
  - destruct (eos2 p T (dom_2 _ _ H)) as (-> & -> & -> & -> & ->). repeat split; eauto.
  - destruct (eos5 p T (dom_5 _ _ H)) as (-> & -> & -> & -> & ->). repeat split; eauto.
Qed.

Lemma gibbs_api r p T : single_phase r -> inside r p T ->
  one_gibbs_function (real2 (v_pt BARE)) (real2 (h_pt BARE)) (real2 (s_pt BARE)) (real2 (Cp_pt BARE)) p T.
Proof.
  intros Hr Hi. pose proof (inside_at _ _ _ Hi) as H.
  apply gibbs_near with (real2 (pick r (@v1_pT RNum) (@v2_pT RNum) (@v5_pT RNum))) (real2 (pick r (@h1_pT RNum) (@h2_pT RNum) (@h5_pT RNum)))
     (real2 (pick r (@s1_pT RNum) (@s2_pT RNum) (@s5_pT RNum))) (real2 (pick r (@Cp1_pT RNum) (@Cp2_pT RNum) (@Cp5_pT RNum))).
  1-4: apply (inside_near r); [easy|]; intros p' T' H'; now destruct (api_pT _ _ _ H' Hr) as (? & ? & ? & ? & ? & _).
  destruct Hr as [-> | [-> | ->]]; cbn [pick Z.eqb Pos.eqb].
  - apply gibbs1, dom_1, H. - apply gibbs2, dom_2, H. - apply gibbs5, dom_5, H.
Qed.
Lemma cv_api r p T c : single_phase r -> inside r p T -> Cv_pt BARE (Fin p) (Fin T) = Ok (Fin c) ->
  cv_follows (real2 (v_pt BARE)) (real2 (Cp_pt BARE)) p T c.
Proof.
  intros Hr Hi E. pose proof (inside_at _ _ _ Hi) as H.
  apply cv_near with (real2 (pick r (@v1_pT RNum) (@v2_pT RNum) (@v5_pT RNum))) (real2 (pick r (@Cp1_pT RNum) (@Cp2_pT RNum) (@Cp5_pT RNum))).
  1-2: apply (inside_near r); [easy|]; intros p' T' H'; now destruct (api_pT _ _ _ H' Hr) as (? & ? & ? & ? & ? & _).
  destruct (api_pT _ _ _ H Hr) as (_ & _ & _ & _ & _ & E' & _). rewrite E' in E. clear E'.
  destruct Hr as [-> | [-> | ->]]; cbn [pick Z.eqb Pos.eqb] in *.
  - exact (cv1 p T (dom_1 _ _ H) c E). - exact (cv2 p T (dom_2 _ _ H) c E). - exact (cv5 p T (dom_5 _ _ H) c E).
Qed.
Lemma w_api r p T c : single_phase r -> inside r p T -> w_pt BARE (Fin p) (Fin T) = Ok (Fin c) ->
  w_follows (real2 (v_pt BARE)) (real2 (Cp_pt BARE)) p T c.
Proof.
  intros Hr Hi E. pose proof (inside_at _ _ _ Hi) as H.
  apply w_near with (real2 (pick r (@v1_pT RNum) (@v2_pT RNum) (@v5_pT RNum))) (real2 (pick r (@Cp1_pT RNum) (@Cp2_pT RNum) (@Cp5_pT RNum))).
  1-2: apply (inside_near r); [easy|]; intros p' T' H'; now destruct (api_pT _ _ _ H' Hr) as (? & ? & ? & ? & ? & _).
  destruct (api_pT _ _ _ H Hr) as (_ & _ & _ & _ & _ & _ & E'). rewrite E' in E. clear E'.
  destruct Hr as [-> | [-> | ->]]; cbn [pick Z.eqb Pos.eqb] in *.
  - exact (w1 p T (dom_1 _ _ H) c E). - exact (w2 p T (dom_2 _ _ H) c E). - exact (w5 p T (dom_5 _ _ H) c E).
Qed.

(** u = h - p v *)
Lemma energy_bare r p T : single_phase r -> region_pT (Fin p) (Fin T) = Ok r ->
  exists u h v, u_pt BARE (Fin p) (Fin T) = Ok (Fin u) /\ h_pt BARE (Fin p) (Fin T) = Ok (Fin h) /\
    v_pt BARE (Fin p) (Fin T) = Ok (Fin v) /\ u = h - 1000 * p * v.
Proof.
  intros Hr H. destruct (api_pT _ _ _ H Hr) as (-> & -> & _ & -> & _).
  destruct Hr as [-> | [-> | ->]]; cbn [pick Z.eqb Pos.eqb].
  - pose proof (dom_1 _ _ H) as K. destruct (eos1 p T K) as (-> & -> & -> & _).
    do 3 eexists. repeat split. unfold u1R, h1R, v1R. unfold dom1 in K. field. lra.
  - pose proof (dom_2 _ _ H) as K. destruct (eos2 p T K) as (-> & -> & -> & _).
    do 3 eexists. repeat split. unfold u2R, h2R, v2R. unfold dom2 in K. field. lra.
  - pose proof (dom_5 _ _ H) as K. destruct (eos5 p T K) as (-> & -> & -> & _).
    do 3 eexists. repeat split. unfold u5R, h5R, v5R. unfold dom5 in K. field. lra.
Qed.
Lemma energy us r p t : single_phase r ->
  region_pT (Fin (to_si us Qp p)) (Fin (to_si us QT t)) = Ok r ->
  exists u h v, u_pt us (Fin p) (Fin t) = Ok (Fin u) /\ h_pt us (Fin p) (Fin t) = Ok (Fin h) /\
    v_pt us (Fin p) (Fin t) = Ok (Fin v) /\
    to_si us Qu u = to_si us Qh h - 1000 * to_si us Qp p * to_si us Qv v.
Proof.
  intros Hr H. destruct (energy_bare r _ _ Hr H) as (u & h & v & E1 & E2 & E3 & E4).
  exists (to_user us Qu u), (to_user us Qh h), (to_user us Qv v).
  pose proof (via2 F_u_pt us (Fin p) (Fin t) ltac:(discriminate)) as V1.
  pose proof (via2 F_h_pt us (Fin p) (Fin t) ltac:(discriminate)) as V2.
  pose proof (via2 F_v_pt us (Fin p) (Fin t) ltac:(discriminate)) as V3.
  cbn [run2 sig2 fst snd si lift1] in V1, V2, V3. rewrite V1, V2, V3, E1, E2, E3.
  repeat split. now rewrite !to_si_to_user.
Qed.
End Api.
