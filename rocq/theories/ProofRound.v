(** Proofs for C47, region 1: temperature from (p,h) and (p,s), pressure from (h,s). *)
From Coq Require Import ZArith Reals Lra Lia List Bool.
From Coquelicot Require Import Coquelicot.
From Interval Require Import Tactic.
From Verif Require Import Py ModState ModUnits ModRegion1 ModRegion2 ModRegion4 ModRegion5 ModBorders ModSelect ModXSteam ExactReal RealSum SpecUnits SpecApi SpecThermo
  ProofUnits ProofCovariance ProofEos ProofThermo ProofThermoApi ProofSat ProofSatApi ProofMono ProofMisc ProofWet ProofWetApi BoundPh ProofReg
  Bound2 ProofAgree ProofBack ProofBackS BoundR1.
Open Scope R_scope.

(** ** Intermediate values *)
Lemma reach (f f' : R -> R) a b y : a <= b -> (forall x, a <= x <= b -> is_derive f x (f' x)) -> f a <= y <= f b ->
  exists x, a <= x <= b /\ f x = y.
Proof.
  intros H Hd [[A|A] B]; [|exists a; split; [lra | exact A]]. destruct B as [B|B]; [|exists b; split; [lra | easy]].
  destruct H as [H|H]; [|subst; lra].
  destruct (Ranalysis5.IVT_interv (fun x => f x - y) a b) as [r [R1 R2]]; [|lra|lra|lra|exists r; split; [exact R1 | lra]].
  intros x Hx. apply continuity_pt_minus; [|apply derivable_continuous_pt, derivable_pt_const].
  apply derivable_continuous_pt. exists (f' x). now apply is_derive_Reals, Hd.
Qed.

Ltac splitif := match goal with |- (if ?b then _ else _) = _ -> _ => destruct b end; cbn [bind].
(** ** What region_ph = 1 means *)
Lemma p4_62316 : 16.5293 < p4R 623.16. Proof. unfold p4R, be, qA, qB, qC, th. interval with (i_prec 80). Qed.
Lemma T4_mid p : 0.000611657 <= p < 16.5292 -> T4_p (Fin p) = Ok (Fin (T4R p)) /\ 273.15 < T4R p < 623.16 /\ p4R (T4R p) = p.
Proof.
  intros H. destruct (p4_T4 p) as (E & R & I); [lra|]. pose proof p4_ends as (P1 & _).
  pose proof p4_62316. split; [exact E|]. split; [|exact I].
  split; apply Rnot_le_lt; intros [L|L].
  - pose proof (p4_incr (T4R p) 273.15 ltac:(lra) L ltac:(lra)). lra.
  - rewrite L in I. lra.
  - pose proof (p4_incr 623.16 (T4R p) ltac:(lra) L ltac:(lra)). lra.
  - rewrite <- L in I. lra.
Qed.
Lemma ph_range {F : Fuel} p h : region_ph (Fin p) (Fin h) <> Ok 0%Z -> 0.000611657 <= p <= 100 /\ h1R p 273.15 <= h.
Proof.
  intros K. assert (Hp : 0.000611657 <= p <= 100).
  { revert K. unfold region_ph. cmps. cbn [orb]. undec. repeat (cases1; try (intros K; now destruct K)); lra. }
  split; [exact Hp|]. apply Rnot_lt_le. intros L. apply K. pose proof (edge_ok p ltac:(lra)) as [E _].
  unfold region_ph. rewrite D_273. destruct (eos1 p 273.15) as (_ & Eh & _); [unfold dom1; lra|]. rewrite Eh.
  cmps. cbn [add mul RNum lit lift2 cmp]. undec. rewrite (Rltb_true h) by lra. cbn [bind]. rewrite Rltb_true by lra. reflexivity.
Qed.
Lemma ph_1 {F : Fuel} p h : region_ph (Fin p) (Fin h) = Ok 1%Z ->
  exists T, 273.15 <= T <= 623.16 /\ 0.000611657 <= p <= 100 /\ p4R T <= p /\ h1R p T = h.
Proof.
  intros H. destruct (ph_range p h) as [Hp Hh]; [now rewrite H|].
  assert (B : exists b, 273.15 <= b <= 623.16 /\ p4R b <= p /\ h <= h1R p b).
  { revert H. unfold region_ph. rewrite D_273, D_1073, D_2273. destruct (eos1 p 273.15) as (_ & Eh & _); [unfold dom1; lra|]. rewrite Eh.
    cmps. cbn [add mul RNum lit lift2 cmp]. pose proof (edge_ok p ltac:(lra)) as [E _].
    replace (if Rltb h (D 0.963%dec * p + D 2.2%dec) then _ else _) with (Ok (Proceed tt) : res (outcome Z unit)).
    2: { cbn [bind]. undec. repeat cases1; try reflexivity; exfalso; lra. }
    cbn [bind]. change (D 16.5292%dec) with 16.5292. destruct (Rltb_spec p 16.5292) as [L|L].
    - destruct (T4_mid p) as (ET & RT & I); [lra|]. rewrite ET. cbn [bind].
      pose proof (coarse_ok (T4R p) ltac:(lra)) as [C _]. rewrite I in C.
      replace (log (Num := RNum) (Fin p)) with (Ok (Fin (Rpower.ln p)) : res xr) by (symmetry; apply xlog_Fin; lra).
      cbn [bind add mul sub fabs RNum lit lift1 lift2].
      replace (D 109.6635%dec * Rpower.ln p + D 40.3481%dec * p + D 734.58%dec) with (hL0 p) by (unfold hL0; undec; lra).
      destruct (eos1 p (T4R p)) as (_ & Ea & _); [unfold dom1; lra|]. rewrite Ea.
      destruct (eos2 p (T4R p)) as (_ & E2 & _); [unfold dom2; lra|]. rewrite E2.
      destruct (eos2 p 1073.15) as (_ & Eh2 & _); [unfold dom2; lra|]. rewrite Eh2.
      destruct (eos5 p 2273.15) as (_ & Eh5 & _); [unfold dom5; lra|]. rewrite Eh5.
      cbn [bind cmp]. unfold Rabs. undec. intros K. exists (T4R p). split; [lra|]. split; [lra|]. revert K.
      destruct (Rcase_abs (h - hL0 p)); repeat (cases1; cbn [bind cmp]); intros K; try discriminate K; lra.
    - change (D 623.15%dec) with 623.15. destruct (eos1 p 623.15) as (_ & Eb & _); [unfold dom1; lra|]. rewrite Eb.
      cbn [bind cmp]. destruct (Rltb_spec h (h1R p 623.15)) as [L'|L'].
      + intros _. exists 623.15. pose proof p4_ends as (_ & _ & _ & Q & _). split; [lra|]. split; [|lra].
        assert (p4R 623.15 < 16.5292) by (unfold p4R, be, qA, qB, qC, th; interval with (i_prec 80)). lra.
      + intros K. exfalso. revert K. destruct (@B23T_p RNum _) as [q|]; cbn [bind]; [|discriminate].
        destruct (@h2_pT RNum _ q) as [q'|]; cbn [bind]; [|discriminate]. splitif.
        * destruct (@p3sat_h RNum _) as [q2|]; cbn [bind]; [|discriminate]. splitif; discriminate.
        * destruct (eos2 p 1073.15) as (_ & Eh2 & _); [unfold dom2; lra|]. rewrite Eh2. cbn [bind]. splitif; discriminate. }
  destruct B as (b & Hb & Hs & Hh').
  destruct (reach (fun T => h1R p T) (fun T => Cp1R p T) 273.15 b h) as (T & HT & E).
  - lra.
  - intros x Hx. apply thermo1. unfold dom1. lra.
  - lra.
  - exists T. split; [lra|]. split; [exact Hp|]. split; [|exact E].
    destruct (proj2 HT) as [L|L]; [|now subst]. pose proof (p4_incr T b ltac:(lra) L ltac:(lra)). lra.
Qed.

(** ** What region_ps = 1 means.  At exactly 16.529 MPa the code answers 1 for all of region 4. *)
Lemma s1_273_15 p T : 0.0006 <= p <= 100 -> T = 273 -> s1R p T < 0. Proof. intros H ->. now apply s1_cold. Qed.
Lemma ps_1 {F : Fuel} p s : p <> 16.529 -> region_ps (Fin p) (Fin s) = Ok 1%Z ->
  exists T, 273 <= T <= 623.16 /\ 0.000611657 <= p <= 100 /\ p4R T <= p + 0.0002 /\ s1R p T = s.
Proof.
  intros N H. assert (B : 0.000611657 <= p <= 100 /\ 0 <= s /\ exists b, 273.15 <= b <= 623.16 /\ p4R b <= p + 0.0002 /\ s <= s1R p b).
  { revert H. unfold region_ps, or_else, and_then. rewrite D_273, D_1073, D_2273. change (lit (Num := RNum) 623.15%dec) with (Fin 623.15).
    cmps. cbn [cmp bind]. change (D 0.000611657%dec) with 0.000611657. change (D 100%dec) with 100. change (D 16.529%dec) with 16.529.
    change (D 10%dec) with 10. change (D 0%dec) with 0.
    destruct (Rltb_spec p 0.000611657) as [L1|L1]; [cbn [bind orb]; discriminate|].
    destruct (Rltb_spec 100 p) as [L2|L2]; [cbn [bind orb]; discriminate|]. cbn [bind orb].
    destruct (eos1 p 273.15) as (_ & _ & _ & Es & _); [unfold dom1; lra|]. rewrite Es.
    destruct (eos2 p 1073.15) as (_ & _ & _ & Es2 & _); [unfold dom2; lra|]. rewrite Es2.
    destruct (eos5 p 2273.15) as (_ & _ & _ & Es5 & _); [unfold dom5; lra|]. rewrite Es5.
    destruct (eos1 p 623.15) as (_ & _ & _ & Es3 & _); [unfold dom1; lra|]. rewrite Es3. cbn [bind cmp].
    destruct (Rltb_spec s 0) as [L3|L3]; [cbn [bind orb]; discriminate|]. cbn [bind orb].
    destruct (Rltb_spec (s5R p 2273.15) s) as [L4|L4]; [cbn [bind orb]; discriminate|]. cbn [bind].
    destruct (Rltb_spec (s2R p 1073.15) s) as [L5|L5].
    { destruct (Rleb_spec p 10); discriminate. }
    destruct (Rltb_spec 16.529 p) as [L6|L6].
    - destruct (@B23T_p RNum _) as [q|]; cbn [bind]; [|discriminate].
      destruct (@s2_pT RNum _ q) as [q'|]; cbn [bind]; [|discriminate]. splitif; [cbn [bind orb]; discriminate|]. cbn [bind cmp].
      destruct (Rltb_spec (s1R p 623.15) s) as [L7|L7]; cbn [andb bind].
      + destruct (@p3sat_s RNum _) as [q2|]; cbn [bind]; [|discriminate]. splitif; discriminate.
      + intros _. split; [lra|]. split; [lra|]. exists 623.15. split; [lra|]. split; [|lra].
        assert (p4R 623.15 < 16.5292) by (unfold p4R, be, qA, qB, qC, th; interval with (i_prec 80)). lra.
    - destruct (T4_mid p) as (ET & RT & I); [lra|]. rewrite ET. cbn [bind].
      destruct (eos1 p (T4R p)) as (_ & _ & _ & Ea & _); [unfold dom1; lra|]. rewrite Ea.
      destruct (eos2 p (T4R p)) as (_ & _ & _ & Eb & _); [unfold dom2; lra|]. rewrite Eb. cbn [bind cmp].
      destruct (Rltb_spec (s2R p (T4R p)) s) as [L7|L7]; [cbn [bind orb]; discriminate|]. cbn [andb bind].
      rewrite Rltb_true by lra. cbn [bind cmp]. destruct (Rltb_spec (s1R p (T4R p)) s) as [L8|L8]; cbn [bind]; [cbn [bind orb]; discriminate|].
      intros _. split; [lra|]. split; [lra|]. exists (T4R p). split; [lra|]. split; [lra|]. lra. }
  destruct B as (Hp & Hs0 & b & Hb & Hs & Hs').
  pose proof (s1_cold p ltac:(lra)) as C0.
  destruct (reach (fun T => s1R p T) (fun T => Cp1R p T / T) 273 b s) as (T & HT & E).
  - lra.
  - intros x Hx. apply thermo1. unfold dom1. lra.
  - lra.
  - exists T. split; [lra|]. split; [exact Hp|]. split; [|exact E].
    destruct (proj2 HT) as [L|L]; [|now subst]. pose proof (p4_incr T b ltac:(lra) L ltac:(lra)). lra.
Qed.

(** ** The calls *)
Lemma Fin_si us q x : si us q (Fin x) = Fin (to_si us q x). Proof. reflexivity. Qed.
Section Api.
Context {F : Fuel}.
Lemma t_ph_1 p h : region_ph (Fin p) (Fin h) = Ok 1%Z -> t_ph BARE (Fin p) (Fin h) = Ok (Fin (T1h p h)).
Proof.
  intros H. unfold t_ph. rewrite to_p, to_h. cbn [bind]. rewrite !si_BARE, H. cbn [bind Z.eqb Pos.eqb].
  destruct (ph_range p h) as [Hp _]; [now rewrite H|].
  rewrite T1_ph_closed. cbn [bind]. now rewrite from_T, user_BARE.
Qed.
Lemma t_ps_1 p s : region_ps (Fin p) (Fin s) = Ok 1%Z -> t_ps BARE (Fin p) (Fin s) = Ok (Fin (T1s p s)).
Proof.
  intros H. unfold t_ps. rewrite to_p, to_s. cbn [bind]. rewrite !si_BARE, H. cbn [bind Z.eqb Pos.eqb].
  rewrite T1_ps_closed. cbn [bind]. now rewrite from_T, user_BARE.
Qed.
Lemma p_hs_1 h s : region_hs (Fin h) (Fin s) = Ok 1%Z -> p_hs BARE (Fin h) (Fin s) = Ok (Fin (p1hs h s)).
Proof.
  intros H. unfold p_hs. rewrite to_h, to_s. cbn [bind]. rewrite !si_BARE, H. cbn [bind Z.eqb Pos.eqb].
  rewrite p1_hs_closed. cbn [bind]. now rewrite from_p, user_BARE.
Qed.
End Api.

Lemma eos1h p t : dom1 p t -> h1_pT (Fin p) (Fin t) = Ok (Fin (h1R p t)).
Proof. intros H. exact (proj1 (proj2 (eos1 p t H))). Qed.
Lemma eos1s p t : dom1 p t -> s1_pT (Fin p) (Fin t) = Ok (Fin (s1R p t)).
Proof. intros H. exact (proj1 (proj2 (proj2 (proj2 (eos1 p t H))))). Qed.
Lemma back1h p t : 273 <= t <= 623.16 -> 0.0006 <= p <= 100 -> p4R t <= p + 0.0002 -> Rabs (T1h p (h1R p t) - t) <= 0.025.
Proof. intros A B C. exact (proj1 (back1 p t A B C)). Qed.
Lemma back1s p t : 273 <= t <= 623.16 -> 0.0006 <= p <= 100 -> p4R t <= p + 0.0002 -> Rabs (T1s p (s1R p t) - t) <= 0.025.
Proof. intros A B C. exact (proj1 (proj2 (back1 p t A B C))). Qed.
Lemma back1p p t : 273 <= t <= 623.16 -> 0.0006 <= p <= 100 -> p4R t <= p + 0.0002 ->
  Rabs (p1hs (h1R p t) (s1R p t) - p) <= 0.015.
Proof. intros A B C. exact (proj2 (proj2 (back1 p t A B C))). Qed.

Section Units.
Context {F : Fuel}.
Lemma call_t_ph us p h T : t_ph BARE (si us Qp (Fin p)) (si us Qh (Fin h)) = Ok (Fin T) ->
  exists t, t_ph us (Fin p) (Fin h) = Ok (Fin t) /\ to_si us QT t = T.
Proof.
  intros H. pose proof (run2_units F_t_ph us (Fin p) (Fin h) ltac:(discriminate)) as U. cbn [run2 sig2 fst snd] in U.
  rewrite U, H. exists (to_user us QT T). split; [reflexivity|].
  assert (K := si_user us QT (Fin T)). cbn in K. now injection K.
Qed.
Lemma call_t_ps us p h T : t_ps BARE (si us Qp (Fin p)) (si us Qs (Fin h)) = Ok (Fin T) ->
  exists t, t_ps us (Fin p) (Fin h) = Ok (Fin t) /\ to_si us QT t = T.
Proof.
  intros H. pose proof (run2_units F_t_ps us (Fin p) (Fin h) ltac:(discriminate)) as U. cbn [run2 sig2 fst snd] in U.
  rewrite U, H. exists (to_user us QT T). split; [reflexivity|].
  assert (K := si_user us QT (Fin T)). cbn in K. now injection K.
Qed.
Lemma call_p_hs us h s P : p_hs BARE (si us Qh (Fin h)) (si us Qs (Fin s)) = Ok (Fin P) ->
  exists p, p_hs us (Fin h) (Fin s) = Ok (Fin p) /\ to_si us Qp p = P.
Proof.
  intros H. pose proof (run2_units F_p_hs us (Fin h) (Fin s) ltac:(discriminate)) as U. cbn [run2 sig2 fst snd] in U.
  rewrite U, H. exists (to_user us Qp P). split; [reflexivity|].
  assert (K := si_user us Qp (Fin P)). cbn in K. now injection K.
Qed.
Lemma back_si us q x : exists y, to_si us q y = x.
Proof. exists (to_user us q x). assert (K := si_user us q (Fin x)). cbn in K. now injection K. Qed.

Lemma from_ph_1 us p h : region_ph (si us Qp (Fin p)) (si us Qh (Fin h)) = Ok 1%Z ->
  exists t t', h1_pT (si us Qp (Fin p)) (si us QT (Fin t)) = Ok (si us Qh (Fin h)) /\ t_ph us (Fin p) (Fin h) = Ok (Fin t') /\
    273.15 <= to_si us QT t <= 623.16 /\ Rabs (to_si us QT t' - to_si us QT t) <= 0.025.
Proof.
  rewrite !Fin_si. intros H. destruct (ph_1 _ _ H) as (T & HT & Hp & Hs & E).
  destruct (call_t_ph us p h _ (t_ph_1 _ _ H)) as (t' & Et' & S'). destruct (back_si us QT T) as (t & St).
  exists t, t'. rewrite Fin_si, St, S', <- E.
  split; [apply eos1h; unfold dom1; lra|]. split; [exact Et'|]. split; [lra|].
  apply back1h; lra.
Qed.
Lemma from_ps_1 us p s : to_si us Qp p <> 16.529 -> region_ps (si us Qp (Fin p)) (si us Qs (Fin s)) = Ok 1%Z ->
  exists t t', s1_pT (si us Qp (Fin p)) (si us QT (Fin t)) = Ok (si us Qs (Fin s)) /\ t_ps us (Fin p) (Fin s) = Ok (Fin t') /\
    273 <= to_si us QT t <= 623.16 /\ Rabs (to_si us QT t' - to_si us QT t) <= 0.025.
Proof.
  rewrite !Fin_si. intros N H. destruct (ps_1 _ _ N H) as (T & HT & Hp & Hs & E).
  destruct (call_t_ps us p s _ (t_ps_1 _ _ H)) as (t' & Et' & S'). destruct (back_si us QT T) as (t & St).
  exists t, t'. rewrite Fin_si, St, S', <- E.
  split; [apply eos1s; unfold dom1; lra|]. split; [exact Et'|]. split; [lra|].
  apply back1s; lra.
Qed.

(** There and back *)
Lemma zone_1 p T : region_pT (Fin p) (Fin T) = Ok 1%Z -> 273.15 <= T <= 623.15 /\ p4R T < p <= 100.
Proof.
  intros H. apply region_map in H. unfold if97_region, in_range in H.
  destruct H as [H|[H|[H|[H|[H|[H|[H|H]]]]]]]; try (exfalso; destruct H as [H _]; discriminate).
  destruct H as (_ & R & L & S & _). rewrite psatR_eq in S by lra. lra.
Qed.
Lemma high_ph_1 p T : 16.5292 <= p <= 100 -> 273.15 <= T < 623.15 -> region_ph (Fin p) (Fin (h1R p T)) = Ok 1%Z.
Proof.
  intros Hp HT. assert (P4 : p4R 623.15 < 16.5292) by (unfold p4R, be, qA, qB, qC, th; interval with (i_prec 80)).
  assert (HZ : zone1 p 623.15) by (unfold zone1; lra).
  assert (A := proj1 (rise1 p T 623.15 ltac:(lra) (path1_T p T 623.15 HZ ltac:(lra)))).
  assert (B : h1R p 273.15 <= h1R p T).
  { destruct (proj1 HT) as [L|L]; [|rewrite <- L; lra]. left. apply rise1; [exact L|].
    intros x Hx. apply (path1_T p 273.15 623.15 HZ); lra. }
  unfold region_ph. rewrite D_273. destruct (eos1 p 273.15) as (_ & Eh & _); [unfold dom1; lra|]. rewrite Eh.
  change (lit (Num := RNum) 623.15%dec) with (Fin 623.15). destruct (eos1 p 623.15) as (_ & Eb & _); [unfold dom1; lra|]. rewrite Eb.
  cmps. cbn [add mul RNum lit lift2 cmp].
  replace (if Rltb (h1R p T) (D 0.963%dec * p + D 2.2%dec) then _ else _) with (Ok (Proceed tt) : res (outcome Z unit)).
  2: { cbn [bind]. undec. repeat cases1; try reflexivity; exfalso; lra. }
  cbn [bind]. cbn [bind cmp]. rewrite (Rltb_true (h1R p T) (h1R p 623.15)) by lra. reflexivity.
Qed.
Lemma select_ph_1 p T : 0.000611657 <= p < 16.529 \/ 16.5292 <= p /\ T < 623.15 -> region_pT (Fin p) (Fin T) = Ok 1%Z ->
  h_pt BARE (Fin p) (Fin T) = Ok (Fin (h1R p T)) /\ region_ph (Fin p) (Fin (h1R p T)) = Ok 1%Z.
Proof.
  intros Hp H. pose proof (zone_1 _ _ H) as Z.
  assert (E : h_pt BARE (Fin p) (Fin T) = Ok (Fin (h1R p T))).
  { destruct (api_pT _ _ _ H) as (_ & -> & _); [tauto|]. cbn [pick Z.eqb Pos.eqb]. apply eos1h. unfold dom1.
    pose proof (p4_pos T ltac:(lra)). lra. }
  split; [exact E|]. destruct Hp as [Hp|Hp].
  - destruct (ProofReg.agree_ph p T 1%Z Hp (or_introl eq_refl) H) as (h & Eh & K). rewrite E in Eh. injection Eh as <-. exact K.
  - apply high_ph_1; lra.
Qed.
Lemma there_ph_1 us p t h : region_pT (si us Qp (Fin p)) (si us QT (Fin t)) = Ok 1%Z ->
  0.000611657 <= to_si us Qp p < 16.529 \/ 16.5292 <= to_si us Qp p /\ to_si us QT t < 623.15 ->
  h_pt us (Fin p) (Fin t) = Ok (Fin h) ->
  exists t', t_ph us (Fin p) (Fin h) = Ok (Fin t') /\ Rabs (to_si us QT t' - to_si us QT t) <= 0.025.
Proof.
  rewrite !Fin_si. intros H Hp E. destruct (select_ph_1 _ _ Hp H) as [Eh R].
  pose proof (run2_units F_h_pt us (Fin p) (Fin t) ltac:(discriminate)) as U. cbn [run2 sig2 fst snd] in U. rewrite E in U. symmetry in U.
  apply map_inv in U. rewrite !Fin_si, Eh in U. injection U as U.
  rewrite U in R. destruct (call_t_ph us p h _ (t_ph_1 _ _ R)) as (t' & Et & St). exists t'. split; [exact Et|].
  rewrite St, <- U. pose proof (zone_1 _ _ H). apply back1h; lra.
Qed.
Lemma there_ps_1 us p t s : region_pT (si us Qp (Fin p)) (si us QT (Fin t)) = Ok 1%Z -> 
  s_pt us (Fin p) (Fin t) = Ok (Fin s) ->
  0.000611657 <= to_si us Qp p < 16.529 /\ 0 <= to_si us Qs s \/ region_ps (si us Qp (Fin p)) (si us Qs (Fin s)) = Ok 1%Z ->
  exists t', t_ps us (Fin p) (Fin s) = Ok (Fin t') /\ Rabs (to_si us QT t' - to_si us QT t) <= 0.025.
Proof.
  rewrite !Fin_si. intros H E Hr. pose proof (zone_1 _ _ H) as Z.
  assert (Es : s_pt BARE (Fin (to_si us Qp p)) (Fin (to_si us QT t)) = Ok (Fin (s1R (to_si us Qp p) (to_si us QT t)))).
  { destruct (api_pT _ _ _ H) as (_ & _ & -> & _); [tauto|]. cbn [pick Z.eqb Pos.eqb]. apply eos1s. unfold dom1.
    pose proof (p4_pos (to_si us QT t) ltac:(lra)). lra. }
  pose proof (run2_units F_s_pt us (Fin p) (Fin t) ltac:(discriminate)) as U. cbn [run2 sig2 fst snd] in U. rewrite E in U. symmetry in U.
  apply map_inv in U. rewrite !Fin_si, Es in U. injection U as U.
  assert (R : region_ps (Fin (to_si us Qp p)) (Fin (to_si us Qs s)) = Ok 1%Z).
  { destruct Hr as [[Hp S]|R]; [|exact R].
    destruct (ProofReg.agree_ps _ _ 1%Z Hp (or_introl eq_refl) H) as (s' & Es' & K). rewrite Es in Es'. injection Es' as <-.
    rewrite U in K. now apply K. }
  destruct (call_t_ps us p s _ (t_ps_1 _ _ R)) as (t' & Et & St). exists t'. split; [exact Et|].
  rewrite St, <- U.
  pose proof (p4_le 273.15 (to_si us QT t) ltac:(lra) ltac:(lra) ltac:(lra)) as L0.
  assert (0.000611 < p4R 273.15) by (unfold p4R, be, qA, qB, qC, th; interval). apply back1s; lra.
Qed.
Lemma there_hs_1 us p t h s : region_pT (si us Qp (Fin p)) (si us QT (Fin t)) = Ok 1%Z ->
  h_pt us (Fin p) (Fin t) = Ok (Fin h) -> s_pt us (Fin p) (Fin t) = Ok (Fin s) ->
  region_hs (si us Qh (Fin h)) (si us Qs (Fin s)) = Ok 1%Z ->
  exists p', p_hs us (Fin h) (Fin s) = Ok (Fin p') /\ Rabs (to_si us Qp p' - to_si us Qp p) <= 0.015.
Proof.
  rewrite !Fin_si. intros H E E' R. pose proof (zone_1 _ _ H) as Z.
  assert (Es : s_pt BARE (Fin (to_si us Qp p)) (Fin (to_si us QT t)) = Ok (Fin (s1R (to_si us Qp p) (to_si us QT t))) /\
               h_pt BARE (Fin (to_si us Qp p)) (Fin (to_si us QT t)) = Ok (Fin (h1R (to_si us Qp p) (to_si us QT t)))).
  { destruct (api_pT _ _ _ H) as (_ & -> & -> & _); [tauto|]. cbn [pick Z.eqb Pos.eqb].
    pose proof (p4_pos (to_si us QT t) ltac:(lra)). split; [apply eos1s | apply eos1h]; unfold dom1; lra. }
  destruct Es as [Es Eh].
  pose proof (run2_units F_s_pt us (Fin p) (Fin t) ltac:(discriminate)) as U. cbn [run2 sig2 fst snd] in U. rewrite E' in U. symmetry in U.
  apply map_inv in U. rewrite !Fin_si, Es in U. injection U as U.
  pose proof (run2_units F_h_pt us (Fin p) (Fin t) ltac:(discriminate)) as V. cbn [run2 sig2 fst snd] in V. rewrite E in V. symmetry in V.
  apply map_inv in V. rewrite !Fin_si, Eh in V. injection V as V.
  destruct (call_p_hs us h s _ (p_hs_1 _ _ R)) as (p' & Ep & Sp). exists p'. split; [exact Ep|].
  rewrite Sp, <- U, <- V.
  pose proof (p4_le 273.15 (to_si us QT t) ltac:(lra) ltac:(lra) ltac:(lra)) as L0.
  assert (0.000611 < p4R 273.15) by (unfold p4R, be, qA, qB, qC, th; interval). apply back1p; lra.
Qed.
End Units.
