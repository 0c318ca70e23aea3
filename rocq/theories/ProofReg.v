(** The region found from (p,h) or (p,s) is the region found from (p,T). *)
From Coq Require Import ZArith Reals Lra Lia List Bool.
From Interval Require Import Tactic.
From Verif Require Import Py ExactReal ModState ModConstants ModUnits ModRegion1 ModRegion2 ModRegion3 ModRegion4
  ModRegion5 ModBorders ModSelect ModXSteam SpecUnits SpecApi SpecRange SpecThermo ProofUnits ProofCovariance
  RealSum ProofEos ProofThermo ProofSat ProofSatApi ProofThermoApi ProofMisc ProofWet
  BoundEos Bound1 Bound2 Bound5 BoundPh ProofSigns ProofMono ProofWetApi ProofWet2.
Open Scope R_scope.

Lemma below_sat p T : 0.000611657 <= p < 16.529 -> zone1 p T -> T <= T4R p.
Proof.
  intros Hp [HT Hz]. pose proof (T4_range p Hp) as R. pose proof (p4_T4R p Hp) as E.
  destruct (Rle_dec T (T4R p)); [easy|]. pose proof (p4_incr (T4R p) T ltac:(lra) ltac:(lra) ltac:(lra)). lra.
Qed.
Lemma above_sat p T : 0.000611657 <= p < 16.529 -> region_pT (Fin p) (Fin T) = Ok 2%Z -> T4R p < T.
Proof.
  intros Hp Hr. pose proof (T4_range p Hp) as R. pose proof (p4_T4R p Hp) as E.
  apply region_zone2 in Hr. destruct Hr as (_ & [(A & B) | A]); [|lra].
  destruct (Rlt_dec (T4R p) T); [easy|].
  pose proof (p4_le T (T4R p) ltac:(lra) ltac:(lra) ltac:(lra)). lra.
Qed.

Section Low.
Variables (p T : R).
Hypothesis Hp : 0.000611657 <= p < 16.529.
Lemma between1 : region_pT (Fin p) (Fin T) = Ok 1%Z -> h1R p 273.15 <= h1R p T <= hL p /\ s1R p 273.15 <= s1R p T <= sL p.
Proof.
  intros Hr. pose proof (region_zone1 _ _ Hr) as Z. pose proof (below_sat p T Hp Z) as B.
  apply region_1 in Hr. pose proof (T4_range p Hp) as R. pose proof (p4_T4R p Hp) as E.
  assert (h1R p 273.15 <= h1R p T /\ s1R p 273.15 <= s1R p T).
  { destruct (Rle_lt_or_eq_dec 273.15 T ltac:(lra)) as [L| <-]; [|lra].
    destruct (rise1 p 273.15 T L (path1_T p 273.15 T Z ltac:(lra))). lra. }
  assert (h1R p T <= hL p /\ s1R p T <= sL p); [|lra].
  unfold hL, sL. destruct (Rle_lt_or_eq_dec _ _ B) as [B'| <-]; [|lra].
  assert (Z' : zone1 p (T4R p)) by (unfold zone1; lra).
  destruct (rise1 p T (T4R p) B' (path1_T p T (T4R p) Z' ltac:(lra))). lra.
Qed.
Lemma between2 : region_pT (Fin p) (Fin T) = Ok 2%Z ->
  hV p < h2R p T <= h2R p 1073.15 /\ sV p < s2R p T <= s2R p 1073.15.
Proof.
  intros Hr. pose proof (above_sat p T Hp Hr) as B. pose proof (T4_range p Hp) as R. pose proof (p4_T4R p Hp) as E.
  assert (K : T <= 1073.15) by (apply region_zone2 in Hr; lra).
  assert (A : h2R p T <= h2R p 1073.15 /\ s2R p T <= s2R p 1073.15).
  { destruct (Rle_lt_or_eq_dec _ _ K) as [K'| ->]; [|lra].
    destruct (rise2 p T 1073.15 K' (path2_T p T 1073.15 Hr ltac:(lra))). lra. }
  assert (A' : h2R p (T4R p) < h2R p T /\ s2R p (T4R p) < s2R p T).
  { apply rise2; [easy|]. intros x Hx. apply zone2_ok. split; [lra|].
    destruct (Rle_dec x 623.15).
    - left. pose proof (p4_le (T4R p) x ltac:(lra) ltac:(lra) ltac:(lra)). lra.
    - pose proof (p23_le 623.15 x ltac:(lra) ltac:(lra)). pose proof psat_623. pose proof p4_623_15.
      pose proof (p4_le (T4R p) 623.15 ltac:(lra) ltac:(lra) ltac:(lra)).
      assert (16.529 <= p23R 623.15) by (unfold p23R; lra).
      destruct (Rle_dec x 863.15); [right; left | right; right]; lra. }
  unfold hV, sV. lra.
Qed.
End Low.

Section Api.
Context {F : Fuel}.
Lemma agree_ph p T r : 0.000611657 <= p < 16.529 -> r = 1%Z \/ r = 2%Z -> region_pT (Fin p) (Fin T) = Ok r ->
  exists h, h_pt BARE (Fin p) (Fin T) = Ok (Fin h) /\ region_ph (Fin p) (Fin h) = Ok r.
Proof.
  intros Hp Hr H.
  assert (Hs : single_phase r) by (unfold single_phase; tauto).
  destruct (api_pT _ _ _ H Hs) as (_ & -> & _).
  pose proof (above_low p Hp) as A. pose proof (hot_low p Hp) as K. pose proof (cold_low p Hp) as C.
  destruct Hr as [-> | ->]; cbn [pick Z.eqb Pos.eqb].
  - destruct (eos1 p T (dom_1 _ _ H)) as (_ & -> & _). eexists. split; [reflexivity|].
    rewrite (region_ph_low p Hp). unfold regph. destruct (between1 p T Hp H) as [B _].
    repeat cases1; try reflexivity; exfalso; lra.
  - destruct (eos2 p T (dom_2 _ _ H)) as (_ & -> & _). eexists. split; [reflexivity|].
    rewrite (region_ph_low p Hp). unfold regph. destruct (between2 p T Hp H) as [B _].
    repeat cases1; try reflexivity; exfalso; lra.
Qed.
Lemma agree_ps p T r : 0.000611657 <= p < 16.529 -> r = 1%Z \/ r = 2%Z -> region_pT (Fin p) (Fin T) = Ok r ->
  exists s, s_pt BARE (Fin p) (Fin T) = Ok (Fin s) /\ (0 <= s -> region_ps (Fin p) (Fin s) = Ok r).
Proof.
  intros Hp Hr H.
  assert (Hs : single_phase r) by (unfold single_phase; tauto).
  destruct (api_pT _ _ _ H Hs) as (_ & _ & -> & _).
  pose proof (above_low p Hp) as A. pose proof (hot_low p Hp) as K. pose proof (proj2 (edge_ok p ltac:(lra))) as E.
  destruct Hr as [-> | ->]; cbn [pick Z.eqb Pos.eqb].
  - destruct (eos1 p T (dom_1 _ _ H)) as (_ & _ & _ & -> & _). eexists. split; [reflexivity|]. intros P.
    rewrite (region_ps_low p Hp). unfold regps. destruct (between1 p T Hp H) as [_ B].
    repeat cases1; try reflexivity; exfalso; lra.
  - destruct (eos2 p T (dom_2 _ _ H)) as (_ & _ & _ & -> & _). eexists. split; [reflexivity|]. intros P.
    rewrite (region_ps_low p Hp). unfold regps. destruct (between2 p T Hp H) as [_ B].
    repeat cases1; try reflexivity; exfalso; lra.
Qed.
End Api.

(** ** Region 5 *)
Lemma region5_intro p T : 1073.15 < T < 2273.15 -> 0.000611 < p < 50 -> region_pT (Fin p) (Fin T) = Ok 5%Z.
Proof. intros. apply region_map. unfold if97_region, in_range. tauto. Qed.
Section Api5.
Context {F : Fuel}.
Lemma agree_ph5 p T : 0.000611657 <= p < 16.529 -> region_pT (Fin p) (Fin T) = Ok 5%Z ->
  exists h h0, h_pt BARE (Fin p) (Fin T) = Ok (Fin h) /\ h2_pT (Fin p) (Fin 1073.15) = Ok (Fin h0) /\
    (h0 < h -> region_ph (Fin p) (Fin h) = Ok (if Rltb 10 p then 0%Z else 5%Z)) /\
    (2804.4 + 45.1768 * Rpower.ln p - 20.158 * p + 50 < h <= h0 -> region_ph (Fin p) (Fin h) = Ok 2%Z).
Proof.
  intros Hp H. assert (Hs : single_phase 5) by (unfold single_phase; tauto).
  destruct (api_pT _ _ _ H Hs) as (_ & -> & _). cbn [pick Z.eqb Pos.eqb].
  destruct (eos5 p T (dom_5 _ _ H)) as (_ & -> & _).
  destruct (eos2 p 1073.15) as (_ & -> & _); [unfold dom2; lra|]. do 2 eexists.
  split; [reflexivity|]. split; [reflexivity|].
  pose proof (above_low p Hp) as A. pose proof (hot_low p Hp) as K. pose proof (cold_low p Hp) as C.
  pose proof (coarse_low p Hp) as Co. unfold hV0 in Co.
  rewrite (region_ph_low p Hp). unfold regph. apply region_5 in H.
  assert (h5R p T < h5R p 2273.15) by (apply rise5; [lra|]; intros; apply path5; lra).
  split; intros B; repeat cases1; try reflexivity; exfalso; lra.
Qed.
Lemma seam5 : h5R 10 1073.155 < h2R 10 1073.15.
Proof. reals. interval with (i_prec 80). Qed.
Lemma seam5' : 3900 < h5R 10 1073.155.
Proof. reals. interval with (i_prec 80). Qed.
Lemma seam_refuted : exists p T h, region_pT (Fin p) (Fin T) = Ok 5%Z /\ h_pt BARE (Fin p) (Fin T) = Ok (Fin h) /\
  region_ph (Fin p) (Fin h) = Ok 2%Z.
Proof.
  assert (R5 : region_pT (Fin 10) (Fin 1073.155) = Ok 5%Z) by (apply region5_intro; lra).
  assert (Hp : 0.000611657 <= 10 < 16.529) by lra.
  destruct (agree_ph5 10 1073.155 Hp R5) as (h & h0 & E & E0 & _ & K).
  exists 10, 1073.155, h. split; [exact R5|]. split; [exact E|]. apply K.
  assert (Hs : single_phase 5) by (unfold single_phase; tauto).
  destruct (api_pT _ _ _ R5 Hs) as (_ & E' & _). cbn [pick Z.eqb Pos.eqb] in E'. rewrite E' in E.
  destruct (eos5 10 1073.155 (dom_5 _ _ R5)) as (_ & E5 & _). rewrite E5 in E.
  destruct (eos2 10 1073.15) as (_ & E2 & _); [unfold dom2; lra|]. rewrite E2 in E0.
  apply (f_equal (fun r => match r with Ok x => x | _ => NaN end)) in E, E0.
  apply Fin_inj in E, E0. subst h h0.
  pose proof seam5. pose proof seam5'.
  assert (Rpower.ln 10 < 3) by interval. lra.
Qed.
End Api5.

(** ** The whole map below 16.529 MPa *)
Section Map.
Context {F : Fuel}.
Lemma sat_sym p : 0.000611657 < p < 16.529 ->
  hL_p BARE (Fin p) = Ok (Fin (hL p)) /\ hV_p BARE (Fin p) = Ok (Fin (hV p)) /\
  sL_p BARE (Fin p) = Ok (Fin (sL p)) /\ sV_p BARE (Fin p) = Ok (Fin (sV p)).
Proof. intros H. destruct (sat_low p H) as (A & B & C & D & _). auto. Qed.
Lemma map_ph p h : 0.000611657 < p < 16.529 -> exists h0 hl hv h2 h5,
  h1_pT (Fin p) (Fin 273.15) = Ok (Fin h0) /\ hL_p BARE (Fin p) = Ok (Fin hl) /\ hV_p BARE (Fin p) = Ok (Fin hv) /\
  h2_pT (Fin p) (Fin 1073.15) = Ok (Fin h2) /\ h5_pT (Fin p) (Fin 2273.15) = Ok (Fin h5) /\
  h0 < hl < hv /\ hv < h2 /\
  (region_ph (Fin p) (Fin h) = Ok 1%Z <-> h0 <= h <= hl) /\
  (region_ph (Fin p) (Fin h) = Ok 4%Z <-> hl < h < hv) /\
  (region_ph (Fin p) (Fin h) = Ok 2%Z <-> hv <= h <= h2) /\
  (region_ph (Fin p) (Fin h) = Ok 5%Z <-> h2 < h < h5 /\ p <= 10) /\
  (region_ph (Fin p) (Fin h) = Ok 0%Z <-> h < h0 \/ h2 < h /\ (10 < p \/ h5 <= h)).
Proof.
  intros Hp. assert (Hp' : 0.000611657 <= p < 16.529) by lra.
  destruct (sat_sym p Hp) as (-> & -> & _).
  destruct (eos1 p 273.15) as (_ & -> & _); [unfold dom1; lra|].
  destruct (eos2 p 1073.15) as (_ & -> & _); [unfold dom2; lra|].
  destruct (eos5 p 2273.15) as (_ & -> & _); [unfold dom5; lra|].
  do 5 eexists. repeat (split; [reflexivity|]).
  pose proof (above_low p Hp') as A. pose proof (hot_low p Hp') as K. pose proof (cold_low p Hp') as C.
  rewrite (region_ph_low p Hp'). unfold regph.
  split; [lra|]. split; [lra|].
  repeat cases1; repeat split; intros; try discriminate; try lra; try reflexivity; exfalso; lra.
Qed.
Lemma map_ps p s : 0.000611657 < p < 16.529 -> exists sl sv s2 s5,
  sL_p BARE (Fin p) = Ok (Fin sl) /\ sV_p BARE (Fin p) = Ok (Fin sv) /\
  s2_pT (Fin p) (Fin 1073.15) = Ok (Fin s2) /\ s5_pT (Fin p) (Fin 2273.15) = Ok (Fin s5) /\
  sl < sv < s2 /\ s2 < s5 /\
  (region_ps (Fin p) (Fin s) = Ok 1%Z <-> 0 <= s <= sl) /\
  (region_ps (Fin p) (Fin s) = Ok 4%Z <-> 0 <= s /\ sl < s <= sv) /\
  (region_ps (Fin p) (Fin s) = Ok 2%Z <-> 0 <= s /\ sv < s <= s2) /\
  (region_ps (Fin p) (Fin s) = Ok 5%Z <-> 0 <= s /\ s2 < s <= s5 /\ p <= 10) /\
  (region_ps (Fin p) (Fin s) = Ok 0%Z <-> s < 0 \/ s5 < s \/ s2 < s /\ 10 < p).
Proof.
  intros Hp. assert (Hp' : 0.000611657 <= p < 16.529) by lra.
  destruct (sat_sym p Hp) as (_ & _ & -> & ->).
  destruct (eos2 p 1073.15) as (_ & _ & _ & -> & _); [unfold dom2; lra|].
  destruct (eos5 p 2273.15) as (_ & _ & _ & -> & _); [unfold dom5; lra|].
  do 4 eexists. repeat (split; [reflexivity|]).
  pose proof (above_low p Hp') as A. pose proof (hot_low p Hp') as K. pose proof (proj2 (edge_ok p ltac:(lra))) as E.
  rewrite (region_ps_low p Hp'). unfold regps.
  split; [lra|]. split; [lra|].
  repeat cases1; repeat split; intros; try discriminate; try lra; try reflexivity; exfalso; lra.
Qed.
End Map.
