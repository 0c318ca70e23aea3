(** * C17: no function of the model runs out of fuel in binary64. *)
From Coq Require Import ZArith Reals Bool List Lia Lra.
From Flocq Require Import Core BinarySingleNaN.
From Verif Require Import Py ModState ModUnits ModBorders ModRegion1 ModRegion2 ModRegion3 ModRegion4 ModRegion5 ModSelect ModTransport ModR14 ModXSteam ModR4 ModXSteamHW.
From Verif Require Import Float64 ProofSettle ProofBisect ProofLoops ProofGap SpecUnits SpecApi SpecLoops.

Lemma nd_let {A B} (a : A) (k : A -> res B) : (forall x, nd (k x)) -> nd (let x := a in k x).
Proof. intros H. exact (H a). Qed.
Ltac nd_ := repeat (match goal with
 | |- nd (let x := ?a in @?k x) => apply (nd_let a k); intros ?; cbv beta
 | |- nd (Ok _) => discriminate
 | |- nd (Err _) => discriminate
 | |- nd (bind _ _) => apply nd_bind; [|intros]
 | |- nd (for_each _ _ _) => apply nd_for; intros
 | |- nd (local _) => apply nd_local
 | |- nd (item _ _) => apply nd_item
 | |- nd (or_else _ _) => unfold or_else
 | |- nd (and_then _ _) => unfold and_then
 | |- nd (div _ _) => apply nd_div
 | |- nd (powf _ _) => apply nd_powf
 | |- nd (powz _ _) => apply nd_powz
 | |- nd (log _) => apply nd_log
 | |- nd (exp _) => apply nd_exp
 | |- nd (sqrt _) => apply nd_sqrt
 | |- nd (if ?b then _ else _) => destruct b
 | |- nd ((match ?x with _ => _ end) _) => destruct x
 | |- nd (match ?x with _ => _ end) => destruct x
 | |- _ => solve [auto with nd]
 end).

Create HintDb nd discriminated.
#[local] Hint Constants Opaque : nd.
#[local] Hint Variables Opaque : nd.
Section F64.
Context (L : libm) (F : Fuel) (HF : (160 <= Z.of_nat fuel)%Z).
#[local] Existing Instance FNum.
Lemma nd_found r : nd r -> nd (found (N := FNum L) r).
Proof. intros H. unfold found. apply nd_bind; [exact H|]. intros [[[x v] hi] lo]. apply nd_local. Qed.
Lemma nan_stop (t e : f64) : Bltb e (Babs (Bminus mode_NE t B754_nan)) = false.
Proof. destruct t as [s|s| |s m k Hb]; destruct e as [s'|s'| |s' m' k' Hb']; reflexivity. Qed.
Ltac usual := split; [|split]; vm_compute; reflexivity.
Lemma nd_B23p_T : forall T, nd (B23p_T (N := FNum L) T).
Proof. intros T. unfold B23p_T. nd_. Qed.
#[local] Hint Resolve nd_B23p_T : nd.
Lemma nd_B23T_p : forall p, nd (B23T_p (N := FNum L) p).
Proof. intros p. unfold B23T_p. nd_. Qed.
#[local] Hint Resolve nd_B23T_p : nd.
Lemma nd_p3sat_h : forall h, nd (p3sat_h (N := FNum L) h).
Proof. intros h. unfold p3sat_h. nd_. Qed.
#[local] Hint Resolve nd_p3sat_h : nd.
Lemma nd_p3sat_s : forall s, nd (p3sat_s (N := FNum L) s).
Proof. intros s. unfold p3sat_s. nd_. Qed.
#[local] Hint Resolve nd_p3sat_s : nd.
Lemma nd_hB13_s : forall s, nd (hB13_s (N := FNum L) s).
Proof. intros s. unfold hB13_s. nd_. Qed.
#[local] Hint Resolve nd_hB13_s : nd.
Lemma nd_TB23_hs : forall h s, nd (TB23_hs (N := FNum L) h s).
Proof. intros h s. unfold TB23_hs. nd_. Qed.
#[local] Hint Resolve nd_TB23_hs : nd.
Lemma nd_v1_pT : forall p T, nd (v1_pT (N := FNum L) p T).
Proof. intros p T. unfold v1_pT. nd_. Qed.
#[local] Hint Resolve nd_v1_pT : nd.
Lemma nd_h1_pT : forall p T, nd (h1_pT (N := FNum L) p T).
Proof. intros p T. unfold h1_pT. nd_. Qed.
#[local] Hint Resolve nd_h1_pT : nd.
Lemma nd_u1_pT : forall p T, nd (u1_pT (N := FNum L) p T).
Proof. intros p T. unfold u1_pT. nd_. Qed.
#[local] Hint Resolve nd_u1_pT : nd.
Lemma nd_s1_pT : forall p T, nd (s1_pT (N := FNum L) p T).
Proof. intros p T. unfold s1_pT. nd_. Qed.
#[local] Hint Resolve nd_s1_pT : nd.
Lemma nd_Cp1_pT : forall p T, nd (Cp1_pT (N := FNum L) p T).
Proof. intros p T. unfold Cp1_pT. nd_. Qed.
#[local] Hint Resolve nd_Cp1_pT : nd.
Lemma nd_Cv1_pT : forall p T, nd (Cv1_pT (N := FNum L) p T).
Proof. intros p T. unfold Cv1_pT. nd_. Qed.
#[local] Hint Resolve nd_Cv1_pT : nd.
Lemma nd_w1_pT : forall p T, nd (w1_pT (N := FNum L) p T).
Proof. intros p T. unfold w1_pT. nd_. Qed.
#[local] Hint Resolve nd_w1_pT : nd.
Lemma nd_T1_ph : forall p h, nd (T1_ph (N := FNum L) p h).
Proof. intros p h. unfold T1_ph. nd_. Qed.
#[local] Hint Resolve nd_T1_ph : nd.
Lemma nd_T1_ps : forall p s, nd (T1_ps (N := FNum L) p s).
Proof. intros p s. unfold T1_ps. nd_. Qed.
#[local] Hint Resolve nd_T1_ps : nd.
Lemma nd_p1_hs : forall h s, nd (p1_hs (N := FNum L) h s).
Proof. intros h s. unfold p1_hs. nd_. Qed.
#[local] Hint Resolve nd_p1_hs : nd.
Lemma nd_v2_pT : forall p T, nd (v2_pT (N := FNum L) p T).
Proof. intros p T. unfold v2_pT. nd_. Qed.
#[local] Hint Resolve nd_v2_pT : nd.
Lemma nd_h2_pT : forall p T, nd (h2_pT (N := FNum L) p T).
Proof. intros p T. unfold h2_pT. nd_. Qed.
#[local] Hint Resolve nd_h2_pT : nd.
Lemma nd_u2_pT : forall p T, nd (u2_pT (N := FNum L) p T).
Proof. intros p T. unfold u2_pT. nd_. Qed.
#[local] Hint Resolve nd_u2_pT : nd.
Lemma nd_s2_pT : forall p T, nd (s2_pT (N := FNum L) p T).
Proof. intros p T. unfold s2_pT. nd_. Qed.
#[local] Hint Resolve nd_s2_pT : nd.
Lemma nd_Cp2_pT : forall p T, nd (Cp2_pT (N := FNum L) p T).
Proof. intros p T. unfold Cp2_pT. nd_. Qed.
#[local] Hint Resolve nd_Cp2_pT : nd.
Lemma nd_Cv2_pT : forall p T, nd (Cv2_pT (N := FNum L) p T).
Proof. intros p T. unfold Cv2_pT. nd_. Qed.
#[local] Hint Resolve nd_Cv2_pT : nd.
Lemma nd_w2_pT : forall p T, nd (w2_pT (N := FNum L) p T).
Proof. intros p T. unfold w2_pT. nd_. Qed.
#[local] Hint Resolve nd_w2_pT : nd.
Lemma nd_T2_ph : forall p h, nd (T2_ph (N := FNum L) p h).
Proof. intros p h. unfold T2_ph. nd_. Qed.
#[local] Hint Resolve nd_T2_ph : nd.
Lemma nd_T2_ps : forall p s, nd (T2_ps (N := FNum L) p s).
Proof. intros p s. unfold T2_ps. nd_. Qed.
#[local] Hint Resolve nd_T2_ps : nd.
Lemma nd_p2_hs : forall h s, nd (p2_hs (N := FNum L) h s).
Proof. intros h s. unfold p2_hs. nd_. Qed.
#[local] Hint Resolve nd_p2_hs : nd.
Lemma nd_p3_rhoT : forall rho T, nd (p3_rhoT (N := FNum L) rho T).
Proof. intros rho T. unfold p3_rhoT. nd_. Qed.
#[local] Hint Resolve nd_p3_rhoT : nd.
Lemma nd_u3_rhoT : forall rho T, nd (u3_rhoT (N := FNum L) rho T).
Proof. intros rho T. unfold u3_rhoT. nd_. Qed.
#[local] Hint Resolve nd_u3_rhoT : nd.
Lemma nd_h3_rhoT : forall rho T, nd (h3_rhoT (N := FNum L) rho T).
Proof. intros rho T. unfold h3_rhoT. nd_. Qed.
#[local] Hint Resolve nd_h3_rhoT : nd.
Lemma nd_s3_rhoT : forall rho T, nd (s3_rhoT (N := FNum L) rho T).
Proof. intros rho T. unfold s3_rhoT. nd_. Qed.
#[local] Hint Resolve nd_s3_rhoT : nd.
Lemma nd_Cp3_rhoT : forall rho T, nd (Cp3_rhoT (N := FNum L) rho T).
Proof. intros rho T. unfold Cp3_rhoT. nd_. Qed.
#[local] Hint Resolve nd_Cp3_rhoT : nd.
Lemma nd_Cv3_rhoT : forall rho T, nd (Cv3_rhoT (N := FNum L) rho T).
Proof. intros rho T. unfold Cv3_rhoT. nd_. Qed.
#[local] Hint Resolve nd_Cv3_rhoT : nd.
Lemma nd_w3_rhoT : forall rho T, nd (w3_rhoT (N := FNum L) rho T).
Proof. intros rho T. unfold w3_rhoT. nd_. Qed.
#[local] Hint Resolve nd_w3_rhoT : nd.
Lemma nd_T3_ph : forall p h, nd (T3_ph (N := FNum L) p h).
Proof. intros p h. unfold T3_ph. nd_. Qed.
#[local] Hint Resolve nd_T3_ph : nd.
Lemma nd_v3_ph : forall p h, nd (v3_ph (N := FNum L) p h).
Proof. intros p h. unfold v3_ph. nd_. Qed.
#[local] Hint Resolve nd_v3_ph : nd.
Lemma nd_T3_ps : forall p s, nd (T3_ps (N := FNum L) p s).
Proof. intros p s. unfold T3_ps. nd_. Qed.
#[local] Hint Resolve nd_T3_ps : nd.
Lemma nd_v3_ps : forall p s, nd (v3_ps (N := FNum L) p s).
Proof. intros p s. unfold v3_ps. nd_. Qed.
#[local] Hint Resolve nd_v3_ps : nd.
Lemma nd_p3_hs : forall h s, nd (p3_hs (N := FNum L) h s).
Proof. intros h s. unfold p3_hs. nd_. Qed.
#[local] Hint Resolve nd_p3_hs : nd.
Lemma nd_T3_prho : forall p rho, nd (T3_prho (N := FNum L) p rho).
Proof. intros p rho. rewrite T3_prho_eq. nd_; apply nd_found, bis_usual; try usual; auto; [apply nan_stop|intros; first [apply nd_p3_rhoT | apply nd_bind; [apply nd_p3_rhoT | intros; apply nd_div]]]. Qed.
#[local] Hint Resolve nd_T3_prho : nd.
Lemma nd_p4_T : forall T, nd (p4_T (N := FNum L) T).
Proof. intros T. unfold p4_T. nd_. Qed.
#[local] Hint Resolve nd_p4_T : nd.
Lemma nd_T4_p : forall p, nd (T4_p (N := FNum L) p).
Proof. intros p. unfold T4_p. nd_. Qed.
#[local] Hint Resolve nd_T4_p : nd.
Lemma nd_h4_s : forall s, nd (h4_s (N := FNum L) s).
Proof. intros s. unfold h4_s. nd_. Qed.
#[local] Hint Resolve nd_h4_s : nd.
Lemma nd_p4_s : forall s, nd (p4_s (N := FNum L) s).
Proof. intros s. unfold p4_s. nd_. Qed.
#[local] Hint Resolve nd_p4_s : nd.
Lemma nd_h4L_p : forall p, nd (h4L_p (N := FNum L) p).
Proof. intros p. rewrite h4L_p_eq. nd_; apply nd_found, bis_usual; try usual; auto; [apply nan_stop|intros; first [apply nd_p3sat_h | apply nd_bind; [apply nd_p3sat_h | intros; apply nd_div]]]. Qed.
#[local] Hint Resolve nd_h4L_p : nd.
Lemma nd_h4V_p : forall p, nd (h4V_p (N := FNum L) p).
Proof. intros p. rewrite h4V_p_eq. nd_; apply nd_found, bis_usual; try usual; auto; [apply nan_stop|intros; first [apply nd_p3sat_h | apply nd_bind; [apply nd_p3sat_h | intros; apply nd_div]]]. Qed.
#[local] Hint Resolve nd_h4V_p : nd.
Lemma nd_x4_ph : forall p h, nd (x4_ph (N := FNum L) p h).
Proof. intros p h. unfold x4_ph. nd_. Qed.
#[local] Hint Resolve nd_x4_ph : nd.
Lemma nd_x4_ps : forall p s, nd (x4_ps (N := FNum L) p s).
Proof. intros p s. unfold x4_ps. nd_. Qed.
#[local] Hint Resolve nd_x4_ps : nd.
Lemma nd_T1_prho : forall p rho, (5300 <= Z.of_nat fuel)%Z -> nd (T1_prho (N := FNum L) p rho).
Proof. intros p rho. intros B. rewrite T1_prho_eq. nd_; apply nd_found, bis_any; auto; [apply nan_stop|intros; first [apply nd_v1_pT | apply nd_bind; [apply nd_v1_pT | intros; apply nd_div]]]. Qed.
#[local] Hint Resolve nd_T1_prho : nd.
Lemma nd_T2_prho : forall p rho, (5300 <= Z.of_nat fuel)%Z -> nd (T2_prho (N := FNum L) p rho).
Proof. intros p rho. intros B. rewrite T2_prho_eq. nd_; apply nd_found, bis_any; auto; [apply nan_stop|intros; first [apply nd_v2_pT | apply nd_bind; [apply nd_v2_pT | intros; apply nd_div]]]. Qed.
#[local] Hint Resolve nd_T2_prho : nd.
Lemma nd_h3_pT : forall p T, (5300 <= Z.of_nat fuel)%Z -> nd (h3_pT (N := FNum L) p T).
Proof. intros p T. intros B. rewrite h3_pT_eq. nd_; apply nd_found, bis_any; auto; [apply nan_stop|intros; first [apply nd_T3_ph | apply nd_bind; [apply nd_T3_ph | intros; apply nd_div]]]. Qed.
#[local] Hint Resolve nd_h3_pT : nd.
Lemma nd_h5_pT : forall p T, nd (h5_pT (N := FNum L) p T).
Proof. intros p T. unfold h5_pT. nd_. Qed.
#[local] Hint Resolve nd_h5_pT : nd.
Lemma nd_v5_pT : forall p T, nd (v5_pT (N := FNum L) p T).
Proof. intros p T. unfold v5_pT. nd_. Qed.
#[local] Hint Resolve nd_v5_pT : nd.
Lemma nd_u5_pT : forall p T, nd (u5_pT (N := FNum L) p T).
Proof. intros p T. unfold u5_pT. nd_. Qed.
#[local] Hint Resolve nd_u5_pT : nd.
Lemma nd_Cp5_pT : forall p T, nd (Cp5_pT (N := FNum L) p T).
Proof. intros p T. unfold Cp5_pT. nd_. Qed.
#[local] Hint Resolve nd_Cp5_pT : nd.
Lemma nd_s5_pT : forall p T, nd (s5_pT (N := FNum L) p T).
Proof. intros p T. unfold s5_pT. nd_. Qed.
#[local] Hint Resolve nd_s5_pT : nd.
Lemma nd_Cv5_pT : forall p T, nd (Cv5_pT (N := FNum L) p T).
Proof. intros p T. unfold Cv5_pT. nd_. Qed.
#[local] Hint Resolve nd_Cv5_pT : nd.
Lemma nd_w5_pT : forall p T, nd (w5_pT (N := FNum L) p T).
Proof. intros p T. unfold w5_pT. nd_. Qed.
#[local] Hint Resolve nd_w5_pT : nd.
Lemma nd_T5_ph : forall p h, nd (T5_ph (N := FNum L) p h).
Proof. intros p h. rewrite T5_ph_eq. nd_; apply nd_found, bis_usual; try usual; auto; [apply nan_stop|intros; first [apply nd_h5_pT | apply nd_bind; [apply nd_h5_pT | intros; apply nd_div]]]. Qed.
#[local] Hint Resolve nd_T5_ph : nd.
Lemma nd_T5_ps : forall p s, nd (T5_ps (N := FNum L) p s).
Proof. intros p s. rewrite T5_ps_eq. nd_; apply nd_found, bis_usual; try usual; auto; [apply nan_stop|intros; first [apply nd_s5_pT | apply nd_bind; [apply nd_s5_pT | intros; apply nd_div]]]. Qed.
#[local] Hint Resolve nd_T5_ps : nd.
Lemma nd_T5_prho : forall p rho, nd (T5_prho (N := FNum L) p rho).
Proof. intros p rho. rewrite T5_prho_eq. nd_; apply nd_found, bis_usual; try usual; auto; [apply nan_stop|intros; first [apply nd_v2_pT | apply nd_bind; [apply nd_v2_pT | intros; apply nd_div]]]. Qed.
#[local] Hint Resolve nd_T5_prho : nd.
Lemma nd_region_pT : forall p T, nd (region_pT (N := FNum L) p T).
Proof. intros p T. unfold region_pT. nd_. Qed.
#[local] Hint Resolve nd_region_pT : nd.
Lemma nd_region_ph : forall p h, nd (region_ph (N := FNum L) p h).
Proof. intros p h. unfold region_ph. nd_. Qed.
#[local] Hint Resolve nd_region_ph : nd.
Lemma nd_region_ps : forall p s, nd (region_ps (N := FNum L) p s).
Proof. intros p s. unfold region_ps. nd_. Qed.
#[local] Hint Resolve nd_region_ps : nd.
Lemma nd_region_hs : forall h s, nd (region_hs (N := FNum L) h s).
Proof. intros h s. unfold region_hs. nd_. Qed.
#[local] Hint Resolve nd_region_hs : nd.
Lemma nd_region_prho : forall p rho, nd (region_prho (N := FNum L) p rho).
Proof. intros p rho. unfold region_prho. nd_. Qed.
#[local] Hint Resolve nd_region_prho : nd.
Lemma nd_my_AllRegions_pT : forall p T, (5300 <= Z.of_nat fuel)%Z -> nd (my_AllRegions_pT (N := FNum L) p T).
Proof. intros p T. intros B. unfold my_AllRegions_pT. nd_. Qed.
#[local] Hint Resolve nd_my_AllRegions_pT : nd.
Lemma nd_my_AllRegions_ph : forall p h, nd (my_AllRegions_ph (N := FNum L) p h).
Proof. intros p h. unfold my_AllRegions_ph. nd_. Qed.
#[local] Hint Resolve nd_my_AllRegions_ph : nd.
Lemma nd_tc_ptrho : forall p T rho, nd (tc_ptrho (N := FNum L) p T rho).
Proof. intros p T rho. unfold tc_ptrho. nd_. Qed.
#[local] Hint Resolve nd_tc_ptrho : nd.
Lemma nd_Surface_Tension_T : forall T, nd (Surface_Tension_T (N := FNum L) T).
Proof. intros T. unfold Surface_Tension_T. nd_. Qed.
#[local] Hint Resolve nd_Surface_Tension_T : nd.
Lemma nd_pmelt_T_iceIh : forall T, nd (pmelt_T_iceIh (N := FNum L) T).
Proof. intros T. unfold pmelt_T_iceIh. nd_. Qed.
#[local] Hint Resolve nd_pmelt_T_iceIh : nd.
Lemma nd_pmelt_T_iceIII : forall T, nd (pmelt_T_iceIII (N := FNum L) T).
Proof. intros T. unfold pmelt_T_iceIII. nd_. Qed.
#[local] Hint Resolve nd_pmelt_T_iceIII : nd.
Lemma nd_pmelt_T_iceV : forall T, nd (pmelt_T_iceV (N := FNum L) T).
Proof. intros T. unfold pmelt_T_iceV. nd_. Qed.
#[local] Hint Resolve nd_pmelt_T_iceV : nd.
Lemma nd_pmelt_T_iceVI : forall T, nd (pmelt_T_iceVI (N := FNum L) T).
Proof. intros T. unfold pmelt_T_iceVI. nd_. Qed.
#[local] Hint Resolve nd_pmelt_T_iceVI : nd.
Lemma nd_pmelt_T_iceVII : forall T, nd (pmelt_T_iceVII (N := FNum L) T).
Proof. intros T. unfold pmelt_T_iceVII. nd_. Qed.
#[local] Hint Resolve nd_pmelt_T_iceVII : nd.
Lemma nd_psubl_T : forall T, nd (psubl_T (N := FNum L) T).
Proof. intros T. unfold psubl_T. nd_. Qed.
#[local] Hint Resolve nd_psubl_T : nd.
Lemma nd_toSIunit_p : forall us ins, nd (toSIunit_p (N := FNum L) us ins).
Proof. intros us ins. unfold toSIunit_p. nd_. Qed.
#[local] Hint Resolve nd_toSIunit_p : nd.
Lemma nd_fromSIunit_p : forall us ins, nd (fromSIunit_p (N := FNum L) us ins).
Proof. intros us ins. unfold fromSIunit_p. nd_. Qed.
#[local] Hint Resolve nd_fromSIunit_p : nd.
Lemma nd_toSIunit_T : forall us ins, nd (toSIunit_T (N := FNum L) us ins).
Proof. intros us ins. unfold toSIunit_T. nd_. Qed.
#[local] Hint Resolve nd_toSIunit_T : nd.
Lemma nd_fromSIunit_T : forall us ins, nd (fromSIunit_T (N := FNum L) us ins).
Proof. intros us ins. unfold fromSIunit_T. nd_. Qed.
#[local] Hint Resolve nd_fromSIunit_T : nd.
Lemma nd_toSIunit_h : forall us ins, nd (toSIunit_h (N := FNum L) us ins).
Proof. intros us ins. unfold toSIunit_h. nd_. Qed.
#[local] Hint Resolve nd_toSIunit_h : nd.
Lemma nd_fromSIunit_h : forall us ins, nd (fromSIunit_h (N := FNum L) us ins).
Proof. intros us ins. unfold fromSIunit_h. nd_. Qed.
#[local] Hint Resolve nd_fromSIunit_h : nd.
Lemma nd_toSIunit_v : forall us ins, nd (toSIunit_v (N := FNum L) us ins).
Proof. intros us ins. unfold toSIunit_v. nd_. Qed.
#[local] Hint Resolve nd_toSIunit_v : nd.
Lemma nd_fromSIunit_v : forall us ins, nd (fromSIunit_v (N := FNum L) us ins).
Proof. intros us ins. unfold fromSIunit_v. nd_. Qed.
#[local] Hint Resolve nd_fromSIunit_v : nd.
Lemma nd_toSIunit_s : forall us ins, nd (toSIunit_s (N := FNum L) us ins).
Proof. intros us ins. unfold toSIunit_s. nd_. Qed.
#[local] Hint Resolve nd_toSIunit_s : nd.
Lemma nd_fromSIunit_s : forall us ins, nd (fromSIunit_s (N := FNum L) us ins).
Proof. intros us ins. unfold fromSIunit_s. nd_. Qed.
#[local] Hint Resolve nd_fromSIunit_s : nd.
Lemma nd_toSIunit_u : forall us ins, nd (toSIunit_u (N := FNum L) us ins).
Proof. intros us ins. unfold toSIunit_u. nd_. Qed.
#[local] Hint Resolve nd_toSIunit_u : nd.
Lemma nd_fromSIunit_u : forall us ins, nd (fromSIunit_u (N := FNum L) us ins).
Proof. intros us ins. unfold fromSIunit_u. nd_. Qed.
#[local] Hint Resolve nd_fromSIunit_u : nd.
Lemma nd_toSIunit_Cp : forall us ins, nd (toSIunit_Cp (N := FNum L) us ins).
Proof. intros us ins. unfold toSIunit_Cp. nd_. Qed.
#[local] Hint Resolve nd_toSIunit_Cp : nd.
Lemma nd_fromSIunit_Cp : forall us ins, nd (fromSIunit_Cp (N := FNum L) us ins).
Proof. intros us ins. unfold fromSIunit_Cp. nd_. Qed.
#[local] Hint Resolve nd_fromSIunit_Cp : nd.
Lemma nd_toSIunit_Cv : forall us ins, nd (toSIunit_Cv (N := FNum L) us ins).
Proof. intros us ins. unfold toSIunit_Cv. nd_. Qed.
#[local] Hint Resolve nd_toSIunit_Cv : nd.
Lemma nd_fromSIunit_Cv : forall us ins, nd (fromSIunit_Cv (N := FNum L) us ins).
Proof. intros us ins. unfold fromSIunit_Cv. nd_. Qed.
#[local] Hint Resolve nd_fromSIunit_Cv : nd.
Lemma nd_toSIunit_w : forall us ins, nd (toSIunit_w (N := FNum L) us ins).
Proof. intros us ins. unfold toSIunit_w. nd_. Qed.
#[local] Hint Resolve nd_toSIunit_w : nd.
Lemma nd_fromSIunit_w : forall us ins, nd (fromSIunit_w (N := FNum L) us ins).
Proof. intros us ins. unfold fromSIunit_w. nd_. Qed.
#[local] Hint Resolve nd_fromSIunit_w : nd.
Lemma nd_toSIunit_tc : forall us ins, nd (toSIunit_tc (N := FNum L) us ins).
Proof. intros us ins. unfold toSIunit_tc. nd_. Qed.
#[local] Hint Resolve nd_toSIunit_tc : nd.
Lemma nd_fromSIunit_tc : forall us ins, nd (fromSIunit_tc (N := FNum L) us ins).
Proof. intros us ins. unfold fromSIunit_tc. nd_. Qed.
#[local] Hint Resolve nd_fromSIunit_tc : nd.
Lemma nd_toSIunit_st : forall us ins, nd (toSIunit_st (N := FNum L) us ins).
Proof. intros us ins. unfold toSIunit_st. nd_. Qed.
#[local] Hint Resolve nd_toSIunit_st : nd.
Lemma nd_fromSIunit_st : forall us ins, nd (fromSIunit_st (N := FNum L) us ins).
Proof. intros us ins. unfold fromSIunit_st. nd_. Qed.
#[local] Hint Resolve nd_fromSIunit_st : nd.
Lemma nd_toSIunit_x : forall us ins, nd (toSIunit_x (N := FNum L) us ins).
Proof. intros us ins. unfold toSIunit_x. nd_. Qed.
#[local] Hint Resolve nd_toSIunit_x : nd.
Lemma nd_fromSIunit_x : forall us ins, nd (fromSIunit_x (N := FNum L) us ins).
Proof. intros us ins. unfold fromSIunit_x. nd_. Qed.
#[local] Hint Resolve nd_fromSIunit_x : nd.
Lemma nd_toSIunit_vx : forall us ins, nd (toSIunit_vx (N := FNum L) us ins).
Proof. intros us ins. unfold toSIunit_vx. nd_. Qed.
#[local] Hint Resolve nd_toSIunit_vx : nd.
Lemma nd_fromSIunit_vx : forall us ins, nd (fromSIunit_vx (N := FNum L) us ins).
Proof. intros us ins. unfold fromSIunit_vx. nd_. Qed.
#[local] Hint Resolve nd_fromSIunit_vx : nd.
Lemma nd_toSIunit_my : forall us ins, nd (toSIunit_my (N := FNum L) us ins).
Proof. intros us ins. unfold toSIunit_my. nd_. Qed.
#[local] Hint Resolve nd_toSIunit_my : nd.
Lemma nd_fromSIunit_my : forall us ins, nd (fromSIunit_my (N := FNum L) us ins).
Proof. intros us ins. unfold fromSIunit_my. nd_. Qed.
#[local] Hint Resolve nd_fromSIunit_my : nd.
Lemma nd_tsat_p : forall us p, nd (tsat_p (N := FNum L) us p).
Proof. intros us p. unfold tsat_p. nd_. Qed.
#[local] Hint Resolve nd_tsat_p : nd.
Lemma nd_psat_t : forall us t, nd (psat_t (N := FNum L) us t).
Proof. intros us t. unfold psat_t. nd_. Qed.
#[local] Hint Resolve nd_psat_t : nd.
Lemma nd_v_ph : forall us p h, nd (v_ph (N := FNum L) us p h).
Proof. intros us p h. unfold v_ph. nd_. Qed.
#[local] Hint Resolve nd_v_ph : nd.
Lemma nd_t_ph : forall us p h, nd (t_ph (N := FNum L) us p h).
Proof. intros us p h. unfold t_ph. nd_. Qed.
#[local] Hint Resolve nd_t_ph : nd.
Lemma nd_h_ps : forall us p s, nd (h_ps (N := FNum L) us p s).
Proof. intros us p s. unfold h_ps. nd_. Qed.
#[local] Hint Resolve nd_h_ps : nd.
Lemma nd_my_ph : forall us p h, nd (my_ph (N := FNum L) us p h).
Proof. intros us p h. unfold my_ph. nd_. Qed.
#[local] Hint Resolve nd_my_ph : nd.
Lemma nd_Cp_pt : forall us p t, (5300 <= Z.of_nat fuel)%Z -> nd (Cp_pt (N := FNum L) us p t).
Proof. intros us p t. intros B. unfold Cp_pt. nd_. Qed.
#[local] Hint Resolve nd_Cp_pt : nd.
Lemma nd_Cp_ph : forall us p h, nd (Cp_ph (N := FNum L) us p h).
Proof. intros us p h. unfold Cp_ph. nd_. Qed.
#[local] Hint Resolve nd_Cp_ph : nd.
Lemma nd_my_pt : forall us p t, (5300 <= Z.of_nat fuel)%Z -> nd (my_pt (N := FNum L) us p t).
Proof. intros us p t. intros B. unfold my_pt. nd_. Qed.
#[local] Hint Resolve nd_my_pt : nd.
Lemma nd_v_pt : forall us p t, (5300 <= Z.of_nat fuel)%Z -> nd (v_pt (N := FNum L) us p t).
Proof. intros us p t. intros B. unfold v_pt. nd_. Qed.
#[local] Hint Resolve nd_v_pt : nd.
Lemma nd_tc_pt : forall us p t, (5300 <= Z.of_nat fuel)%Z -> nd (tc_pt (N := FNum L) us p t).
Proof. intros us p t. intros B. unfold tc_pt. nd_. Qed.
#[local] Hint Resolve nd_tc_pt : nd.
Lemma nd_tc_ph : forall us p h, nd (tc_ph (N := FNum L) us p h).
Proof. intros us p h. unfold tc_ph. nd_. Qed.
#[local] Hint Resolve nd_tc_ph : nd.
Lemma nd_specificGasConstant : forall us, nd (specificGasConstant (N := FNum L) us).
Proof. intros us. unfold specificGasConstant. nd_. Qed.
#[local] Hint Resolve nd_specificGasConstant : nd.
Lemma nd_criticalTemperatur : forall us, nd (criticalTemperatur (N := FNum L) us).
Proof. intros us. unfold criticalTemperatur. nd_. Qed.
#[local] Hint Resolve nd_criticalTemperatur : nd.
Lemma nd_criticalPressure : forall us, nd (criticalPressure (N := FNum L) us).
Proof. intros us. unfold criticalPressure. nd_. Qed.
#[local] Hint Resolve nd_criticalPressure : nd.
Lemma nd_criticalDensity : forall us, nd (criticalDensity (N := FNum L) us).
Proof. intros us. unfold criticalDensity. nd_. Qed.
#[local] Hint Resolve nd_criticalDensity : nd.
Lemma nd_triplePointTemperatur : forall us, nd (triplePointTemperatur (N := FNum L) us).
Proof. intros us. unfold triplePointTemperatur. nd_. Qed.
#[local] Hint Resolve nd_triplePointTemperatur : nd.
Lemma nd_triplePointPressure : forall us, nd (triplePointPressure (N := FNum L) us).
Proof. intros us. unfold triplePointPressure. nd_. Qed.
#[local] Hint Resolve nd_triplePointPressure : nd.
Lemma nd_zeroPointTemperature : forall us, nd (zeroPointTemperature (N := FNum L) us).
Proof. intros us. unfold zeroPointTemperature. nd_. Qed.
#[local] Hint Resolve nd_zeroPointTemperature : nd.
Lemma nd_tsat_s : forall us s, nd (tsat_s (N := FNum L) us s).
Proof. intros us s. unfold tsat_s. nd_. Qed.
#[local] Hint Resolve nd_tsat_s : nd.
Lemma nd_t_ps : forall us p s, nd (t_ps (N := FNum L) us p s).
Proof. intros us p s. unfold t_ps. nd_. Qed.
#[local] Hint Resolve nd_t_ps : nd.
Lemma nd_psat_s : forall us s, nd (psat_s (N := FNum L) us s).
Proof. intros us s. unfold psat_s. nd_. Qed.
#[local] Hint Resolve nd_psat_s : nd.
Lemma nd_hV_p : forall us p, nd (hV_p (N := FNum L) us p).
Proof. intros us p. unfold hV_p. nd_. Qed.
#[local] Hint Resolve nd_hV_p : nd.
Lemma nd_hL_p : forall us p, nd (hL_p (N := FNum L) us p).
Proof. intros us p. unfold hL_p. nd_. Qed.
#[local] Hint Resolve nd_hL_p : nd.
Lemma nd_hV_t : forall us t, nd (hV_t (N := FNum L) us t).
Proof. intros us t. unfold hV_t. nd_. Qed.
#[local] Hint Resolve nd_hV_t : nd.
Lemma nd_hL_t : forall us t, nd (hL_t (N := FNum L) us t).
Proof. intros us t. unfold hL_t. nd_. Qed.
#[local] Hint Resolve nd_hL_t : nd.
Lemma nd_h_pt : forall us p t, (5300 <= Z.of_nat fuel)%Z -> nd (h_pt (N := FNum L) us p t).
Proof. intros us p t. intros B. unfold h_pt. nd_. Qed.
#[local] Hint Resolve nd_h_pt : nd.
Lemma nd_h_px : forall us p x, nd (h_px (N := FNum L) us p x).
Proof. intros us p x. unfold h_px. nd_. Qed.
#[local] Hint Resolve nd_h_px : nd.
Lemma nd_h_prho : forall us p rho, (5300 <= Z.of_nat fuel)%Z -> nd (h_prho (N := FNum L) us p rho).
Proof. intros us p rho. intros B. unfold h_prho. nd_. Qed.
#[local] Hint Resolve nd_h_prho : nd.
Lemma nd_h_tx : forall us t x, nd (h_tx (N := FNum L) us t x).
Proof. intros us t x. unfold h_tx. nd_. Qed.
#[local] Hint Resolve nd_h_tx : nd.
Lemma nd_vV_p : forall us p, nd (vV_p (N := FNum L) us p).
Proof. intros us p. unfold vV_p. nd_. Qed.
#[local] Hint Resolve nd_vV_p : nd.
Lemma nd_vL_p : forall us p, nd (vL_p (N := FNum L) us p).
Proof. intros us p. unfold vL_p. nd_. Qed.
#[local] Hint Resolve nd_vL_p : nd.
Lemma nd_vV_t : forall us t, nd (vV_t (N := FNum L) us t).
Proof. intros us t. unfold vV_t. nd_. Qed.
#[local] Hint Resolve nd_vV_t : nd.
Lemma nd_vL_t : forall us t, nd (vL_t (N := FNum L) us t).
Proof. intros us t. unfold vL_t. nd_. Qed.
#[local] Hint Resolve nd_vL_t : nd.
Lemma nd_v_ps : forall us p s, nd (v_ps (N := FNum L) us p s).
Proof. intros us p s. unfold v_ps. nd_. Qed.
#[local] Hint Resolve nd_v_ps : nd.
Lemma nd_rhoV_p : forall us p, nd (rhoV_p (N := FNum L) us p).
Proof. intros us p. unfold rhoV_p. nd_. Qed.
#[local] Hint Resolve nd_rhoV_p : nd.
Lemma nd_rhoL_p : forall us p, nd (rhoL_p (N := FNum L) us p).
Proof. intros us p. unfold rhoL_p. nd_. Qed.
#[local] Hint Resolve nd_rhoL_p : nd.
Lemma nd_rhoV_t : forall us t, nd (rhoV_t (N := FNum L) us t).
Proof. intros us t. unfold rhoV_t. nd_. Qed.
#[local] Hint Resolve nd_rhoV_t : nd.
Lemma nd_rhoL_t : forall us t, nd (rhoL_t (N := FNum L) us t).
Proof. intros us t. unfold rhoL_t. nd_. Qed.
#[local] Hint Resolve nd_rhoL_t : nd.
Lemma nd_rho_pt : forall us p t, (5300 <= Z.of_nat fuel)%Z -> nd (rho_pt (N := FNum L) us p t).
Proof. intros us p t. intros B. unfold rho_pt. nd_. Qed.
#[local] Hint Resolve nd_rho_pt : nd.
Lemma nd_rho_ph : forall us p h, nd (rho_ph (N := FNum L) us p h).
Proof. intros us p h. unfold rho_ph. nd_. Qed.
#[local] Hint Resolve nd_rho_ph : nd.
Lemma nd_rho_ps : forall us p s, nd (rho_ps (N := FNum L) us p s).
Proof. intros us p s. unfold rho_ps. nd_. Qed.
#[local] Hint Resolve nd_rho_ps : nd.
Lemma nd_sV_p : forall us p, nd (sV_p (N := FNum L) us p).
Proof. intros us p. unfold sV_p. nd_. Qed.
#[local] Hint Resolve nd_sV_p : nd.
Lemma nd_sL_p : forall us p, nd (sL_p (N := FNum L) us p).
Proof. intros us p. unfold sL_p. nd_. Qed.
#[local] Hint Resolve nd_sL_p : nd.
Lemma nd_sV_t : forall us t, nd (sV_t (N := FNum L) us t).
Proof. intros us t. unfold sV_t. nd_. Qed.
#[local] Hint Resolve nd_sV_t : nd.
Lemma nd_sL_t : forall us t, nd (sL_t (N := FNum L) us t).
Proof. intros us t. unfold sL_t. nd_. Qed.
#[local] Hint Resolve nd_sL_t : nd.
Lemma nd_s_pt : forall us p t, (5300 <= Z.of_nat fuel)%Z -> nd (s_pt (N := FNum L) us p t).
Proof. intros us p t. intros B. unfold s_pt. nd_. Qed.
#[local] Hint Resolve nd_s_pt : nd.
Lemma nd_s_ph : forall us p h, nd (s_ph (N := FNum L) us p h).
Proof. intros us p h. unfold s_ph. nd_. Qed.
#[local] Hint Resolve nd_s_ph : nd.
Lemma nd_uV_p : forall us p, nd (uV_p (N := FNum L) us p).
Proof. intros us p. unfold uV_p. nd_. Qed.
#[local] Hint Resolve nd_uV_p : nd.
Lemma nd_uL_p : forall us p, nd (uL_p (N := FNum L) us p).
Proof. intros us p. unfold uL_p. nd_. Qed.
#[local] Hint Resolve nd_uL_p : nd.
Lemma nd_uV_t : forall us t, nd (uV_t (N := FNum L) us t).
Proof. intros us t. unfold uV_t. nd_. Qed.
#[local] Hint Resolve nd_uV_t : nd.
Lemma nd_uL_t : forall us t, nd (uL_t (N := FNum L) us t).
Proof. intros us t. unfold uL_t. nd_. Qed.
#[local] Hint Resolve nd_uL_t : nd.
Lemma nd_u_pt : forall us p t, (5300 <= Z.of_nat fuel)%Z -> nd (u_pt (N := FNum L) us p t).
Proof. intros us p t. intros B. unfold u_pt. nd_. Qed.
#[local] Hint Resolve nd_u_pt : nd.
Lemma nd_u_ph : forall us p h, nd (u_ph (N := FNum L) us p h).
Proof. intros us p h. unfold u_ph. nd_. Qed.
#[local] Hint Resolve nd_u_ph : nd.
Lemma nd_u_ps : forall us p s, nd (u_ps (N := FNum L) us p s).
Proof. intros us p s. unfold u_ps. nd_. Qed.
#[local] Hint Resolve nd_u_ps : nd.
Lemma nd_CpV_p : forall us p, nd (CpV_p (N := FNum L) us p).
Proof. intros us p. unfold CpV_p. nd_. Qed.
#[local] Hint Resolve nd_CpV_p : nd.
Lemma nd_CpL_p : forall us p, nd (CpL_p (N := FNum L) us p).
Proof. intros us p. unfold CpL_p. nd_. Qed.
#[local] Hint Resolve nd_CpL_p : nd.
Lemma nd_CpV_t : forall us t, nd (CpV_t (N := FNum L) us t).
Proof. intros us t. unfold CpV_t. nd_. Qed.
#[local] Hint Resolve nd_CpV_t : nd.
Lemma nd_CpL_t : forall us t, nd (CpL_t (N := FNum L) us t).
Proof. intros us t. unfold CpL_t. nd_. Qed.
#[local] Hint Resolve nd_CpL_t : nd.
Lemma nd_Cp_ps : forall us p s, nd (Cp_ps (N := FNum L) us p s).
Proof. intros us p s. unfold Cp_ps. nd_. Qed.
#[local] Hint Resolve nd_Cp_ps : nd.
Lemma nd_CvV_p : forall us p, nd (CvV_p (N := FNum L) us p).
Proof. intros us p. unfold CvV_p. nd_. Qed.
#[local] Hint Resolve nd_CvV_p : nd.
Lemma nd_CvL_p : forall us p, nd (CvL_p (N := FNum L) us p).
Proof. intros us p. unfold CvL_p. nd_. Qed.
#[local] Hint Resolve nd_CvL_p : nd.
Lemma nd_CvV_t : forall us t, nd (CvV_t (N := FNum L) us t).
Proof. intros us t. unfold CvV_t. nd_. Qed.
#[local] Hint Resolve nd_CvV_t : nd.
Lemma nd_CvL_t : forall us t, nd (CvL_t (N := FNum L) us t).
Proof. intros us t. unfold CvL_t. nd_. Qed.
#[local] Hint Resolve nd_CvL_t : nd.
Lemma nd_Cv_pt : forall us p t, (5300 <= Z.of_nat fuel)%Z -> nd (Cv_pt (N := FNum L) us p t).
Proof. intros us p t. intros B. unfold Cv_pt. nd_. Qed.
#[local] Hint Resolve nd_Cv_pt : nd.
Lemma nd_Cv_ph : forall us p h, nd (Cv_ph (N := FNum L) us p h).
Proof. intros us p h. unfold Cv_ph. nd_. Qed.
#[local] Hint Resolve nd_Cv_ph : nd.
Lemma nd_Cv_ps : forall us p s, nd (Cv_ps (N := FNum L) us p s).
Proof. intros us p s. unfold Cv_ps. nd_. Qed.
#[local] Hint Resolve nd_Cv_ps : nd.
Lemma nd_wV_p : forall us p, nd (wV_p (N := FNum L) us p).
Proof. intros us p. unfold wV_p. nd_. Qed.
#[local] Hint Resolve nd_wV_p : nd.
Lemma nd_wL_p : forall us p, nd (wL_p (N := FNum L) us p).
Proof. intros us p. unfold wL_p. nd_. Qed.
#[local] Hint Resolve nd_wL_p : nd.
Lemma nd_wV_t : forall us t, nd (wV_t (N := FNum L) us t).
Proof. intros us t. unfold wV_t. nd_. Qed.
#[local] Hint Resolve nd_wV_t : nd.
Lemma nd_wL_t : forall us t, nd (wL_t (N := FNum L) us t).
Proof. intros us t. unfold wL_t. nd_. Qed.
#[local] Hint Resolve nd_wL_t : nd.
Lemma nd_w_pt : forall us p t, (5300 <= Z.of_nat fuel)%Z -> nd (w_pt (N := FNum L) us p t).
Proof. intros us p t. intros B. unfold w_pt. nd_. Qed.
#[local] Hint Resolve nd_w_pt : nd.
Lemma nd_w_ph : forall us p h, nd (w_ph (N := FNum L) us p h).
Proof. intros us p h. unfold w_ph. nd_. Qed.
#[local] Hint Resolve nd_w_ph : nd.
Lemma nd_w_ps : forall us p s, nd (w_ps (N := FNum L) us p s).
Proof. intros us p s. unfold w_ps. nd_. Qed.
#[local] Hint Resolve nd_w_ps : nd.
Lemma nd_my_ps : forall us p s, nd (my_ps (N := FNum L) us p s).
Proof. intros us p s. unfold my_ps. nd_. Qed.
#[local] Hint Resolve nd_my_ps : nd.
Lemma nd_pr_pt : forall us p t, (5300 <= Z.of_nat fuel)%Z -> nd (pr_pt (N := FNum L) us p t).
Proof. intros us p t. intros B. unfold pr_pt. nd_. Qed.
#[local] Hint Resolve nd_pr_pt : nd.
Lemma nd_pr_ph : forall us p h, nd (pr_ph (N := FNum L) us p h).
Proof. intros us p h. unfold pr_ph. nd_. Qed.
#[local] Hint Resolve nd_pr_ph : nd.
Lemma nd_st_t : forall us t, nd (st_t (N := FNum L) us t).
Proof. intros us t. unfold st_t. nd_. Qed.
#[local] Hint Resolve nd_st_t : nd.
Lemma nd_st_p : forall us p, nd (st_p (N := FNum L) us p).
Proof. intros us p. unfold st_p. nd_. Qed.
#[local] Hint Resolve nd_st_p : nd.
Lemma nd_tcL_p : forall us p, nd (tcL_p (N := FNum L) us p).
Proof. intros us p. unfold tcL_p. nd_. Qed.
#[local] Hint Resolve nd_tcL_p : nd.
Lemma nd_tcV_p : forall us p, nd (tcV_p (N := FNum L) us p).
Proof. intros us p. unfold tcV_p. nd_. Qed.
#[local] Hint Resolve nd_tcV_p : nd.
Lemma nd_tcL_t : forall us t, nd (tcL_t (N := FNum L) us t).
Proof. intros us t. unfold tcL_t. nd_. Qed.
#[local] Hint Resolve nd_tcL_t : nd.
Lemma nd_tcV_t : forall us t, nd (tcV_t (N := FNum L) us t).
Proof. intros us t. unfold tcV_t. nd_. Qed.
#[local] Hint Resolve nd_tcV_t : nd.
Lemma nd_x_ph : forall us p h, nd (x_ph (N := FNum L) us p h).
Proof. intros us p h. unfold x_ph. nd_. Qed.
#[local] Hint Resolve nd_x_ph : nd.
Lemma nd_x_ps : forall us p s, nd (x_ps (N := FNum L) us p s).
Proof. intros us p s. unfold x_ps. nd_. Qed.
#[local] Hint Resolve nd_x_ps : nd.
Lemma nd_vx_ph : forall us p h, nd (vx_ph (N := FNum L) us p h).
Proof. intros us p h. unfold vx_ph. nd_. Qed.
#[local] Hint Resolve nd_vx_ph : nd.
Lemma nd_vx_ps : forall us p s, nd (vx_ps (N := FNum L) us p s).
Proof. intros us p s. unfold vx_ps. nd_. Qed.
#[local] Hint Resolve nd_vx_ps : nd.
Lemma nd_pmelt_t : forall us t hint, nd (pmelt_t (N := FNum L) us t hint).
Proof. intros us t hint. unfold pmelt_t. nd_. Qed.
#[local] Hint Resolve nd_pmelt_t : nd.
Lemma nd_psubl_t : forall us t, nd (psubl_t (N := FNum L) us t).
Proof. intros us t. unfold psubl_t. nd_. Qed.
#[local] Hint Resolve nd_psubl_t : nd.
Lemma nd_myHW_rhoT_R4 : forall rho T, nd (myHW_rhoT_R4 (N := FNum L) rho T).
Proof. intros rho T. unfold myHW_rhoT_R4. nd_. Qed.
#[local] Hint Resolve nd_myHW_rhoT_R4 : nd.
Lemma nd_tcHW_rhoT_R4 : forall rho T, nd (tcHW_rhoT_R4 (N := FNum L) rho T).
Proof. intros rho T. unfold tcHW_rhoT_R4. nd_. Qed.
#[local] Hint Resolve nd_tcHW_rhoT_R4 : nd.
Lemma nd_hw_criticalTemperatur : forall us, nd (hw_criticalTemperatur (N := FNum L) us).
Proof. intros us. unfold hw_criticalTemperatur. nd_. Qed.
#[local] Hint Resolve nd_hw_criticalTemperatur : nd.
Lemma nd_hw_criticalPressure : forall us, nd (hw_criticalPressure (N := FNum L) us).
Proof. intros us. unfold hw_criticalPressure. nd_. Qed.
#[local] Hint Resolve nd_hw_criticalPressure : nd.
Lemma nd_hw_criticalDensity : forall us, nd (hw_criticalDensity (N := FNum L) us).
Proof. intros us. unfold hw_criticalDensity. nd_. Qed.
#[local] Hint Resolve nd_hw_criticalDensity : nd.
Lemma nd_hw_my_rhoT : forall us rho T, nd (hw_my_rhoT (N := FNum L) us rho T).
Proof. intros us rho T. unfold hw_my_rhoT. nd_. Qed.
#[local] Hint Resolve nd_hw_my_rhoT : nd.
Lemma nd_hw_tc_rhoT : forall us rho T, nd (hw_tc_rhoT (N := FNum L) us rho T).
Proof. intros us rho T. unfold hw_tc_rhoT. nd_. Qed.
#[local] Hint Resolve nd_hw_tc_rhoT : nd.

(** The loop of p_hrho ends in its first round. *)
Lemma nd_p_hrho : forall us h rho, nd (p_hrho (N := FNum L) us h rho).
Proof.
  intros us h rho. unfold p_hrho. destruct (_ <=? _)%num; [discriminate|].
  do 4 (apply nd_bind; [solve [auto with nd]|]; intros).
  match goal with |- nd (bind ?r _) => pose proof (nd_v_ph us a2 a : nd r) as NV; destruct r as [v|e] eqn:E; [|exact NV] end.
  cbn [bind].
  match goal with |- nd (bind ?r _) => pose proof (nd_div L _ _ : nd r) as ND; destruct r as [w|e] eqn:E2; [|exact ND] end.
  cbn [bind]. apply nd_bind; [|intros [[[? ?] ?] ?]; discriminate].
  revert HF. destruct fuel as [|n]; [intros X; exfalso; now apply X|]. intros _. cbn [while bind].
  match goal with |- nd (if ?b then _ else _) => destruct b eqn:G; [|discriminate] end.
  rewrite E. cbn [bind]. rewrite E2. cbn [bind]. destruct (w =? w)%num eqn:Q; [discriminate|].
  exfalso. apply eqb_self in Q. subst w. cbn [fabs sub ltb lit FNum] in G. rewrite nan_stop in G. discriminate G.
Qed.
(** The loops of T4_hs end when their bracket is narrow. *)
Lemma modest_cmp (x : f64) : Bleb (Babs x) (flit 268435456%dec) = true -> modest x.
Proof.
  intros H. assert (Fx : is_finite x = true) by (destruct x as [s|s| |s m e Hb]; try reflexivity; try destruct s; discriminate H).
  split; [exact Fx|]. rewrite Bleb_correct in H by (rewrite ?is_finite_Babs; auto).
  rewrite B2R_Babs in H. revert H. case Rle_bool_spec; [|discriminate]. intros H _.
  apply Rle_trans with (1 := H). right.
  change (B2R (flit 268435456%dec)) with (F2R (Float radix2 4503599627370496 (-24))). unfold F2R; simpl. lra.
Qed.
Lemma nd_T4_hs : forall h s, (forall q, p3sat_h (N := FNum L) h = Ok q -> modest q \/ q = B754_nan) -> nd (T4_hs (N := FNum L) h s).
Proof.
  intros h s Hq. unfold T4_hs. destruct (_ && _)%bool; [nd_|].
  assert (HL : modest (flit 0.000611%dec)) by (apply modest_cmp; vm_compute; reflexivity).
  assert (HH : modest (flit 165.291642526045%dec)) by (apply modest_cmp; vm_compute; reflexivity).
  assert (EE : forall e, is_finite e = true -> Bleb (flit 5.9604644775390625e-08%dec) e = true -> (bpow radix2 (-24) <= B2R e)%R).
  { intros e Fe H. rewrite Bleb_correct in H by auto. revert H. case Rle_bool_spec; [|discriminate]. intros H _.
    apply Rle_trans with (2 := H). right.
    change (B2R (flit 5.9604644775390625e-08%dec)) with (F2R (Float radix2 4503599627370496 (-76))). unfold F2R; simpl. lra. }
  match goal with |- nd (bind ?r _) => assert (P : nd r /\ forall q, r = Ok (Some q) -> modest q \/ q = B754_nan) end.
  { destruct (_ && _)%bool.
    - set (W := while _ _ _ _).
      assert (N1 : nd W).
      { unfold W. apply (gap_ends _ _ (fun s => (snd s, snd (fst s))) (flit 0.0001%dec)) with (n := 135%nat).
        - reflexivity.
        - apply EE; vm_compute; reflexivity.
        - intros [[[[? ?] ?] ?] ?]. discriminate.
        - intros [[[[x y] z] hi] lo] X. unfold wide in X. cbn [fst snd] in X.
          cbn [ltb fabs sub lit FNum]. rewrite X. now rewrite andb_false_r.
        - intros [[[[x y] z] hi] lo]. nd_.
        - intros [[[[x y] z] hi] lo] s' E. revert E. cbn [div add lit FNum]. rewrite mid_div. cbn [bind fst snd].
          destruct (T4_p _) as [Ts|]; [|discriminate]. cbn [bind]. destruct (h1_pT _ _) as [hL|]; [|discriminate]. cbn [bind].
          match goal with |- context [if ?b then _ else _] => destruct b end; intros E; injection E as <-; cbn; auto.
        - exact HL. - exact HH. - apply modest_bound; [exact HL | exact HH].
        - lia. }
      split; [apply nd_bind; [exact N1|]; intros [[[[? ?] ?] ?] ?]; discriminate|].
      intros q. destruct W as [[[[[x y] z] hi] lo]|e] eqn:EW; [|discriminate]. cbn [bind]. intros E. injection E as ->.
      left. assert (I : modest hi /\ modest lo /\ forall m, Some q = Some m -> modest m); [|now apply I].
      revert EW. unfold W. generalize (flit (-1000)%dec).
      assert (G : forall n x0 y0 z0 hi0 lo0, modest hi0 -> modest lo0 -> (forall m, x0 = Some m -> modest m) ->
        forall x1 y1 z1 hi1 lo1,
        while n (fun '(PL, Ts, hL, High_Bound, Low_Bound) => Ok ((((fabs (hL - h)) >? #0.00001) && ((fabs (High_Bound - Low_Bound)) >? #0.0001))%num))
               (fun '(PL, Ts, hL, High_Bound, Low_Bound) =>
                 let* PL := div (Low_Bound + High_Bound)%num (#2)%num in
                 let* Ts := T4_p PL in
                 let* hL := h1_pT PL Ts in
                 if (hL >? h)%num then Ok (Next (Some PL, Some Ts, hL, PL, Low_Bound))
                 else Ok (Next (Some PL, Some Ts, hL, High_Bound, PL)))
          (x0, y0, z0, hi0, lo0) = Ok (x1, y1, z1, hi1, lo1) ->
        modest hi1 /\ modest lo1 /\ (forall m, x1 = Some m -> modest m)).
      { induction n as [|n IHn]; intros x0 y0 z0 hi0 lo0 M1 M2 M3 x1 y1 z1 hi1 lo1; [discriminate|].
        cbn [while bind]. match goal with |- context [if ?b then _ else _] => destruct b end.
        2:{ intros E; injection E as <- <- <- <- <-. auto. }
        cbn [div add lit FNum]. rewrite mid_div. cbn [bind].
        destruct (T4_p _) as [Ts|]; [|discriminate]. cbn [bind]. destruct (h1_pT _ _) as [hL|]; [|discriminate]. cbn [bind].
        pose proof (proj1 (mid_modest lo0 hi0 M2 M1)) as MM.
        match goal with |- context [if ?b then _ else _] => destruct b end; cbn [bind]; intros E;
          refine (IHn _ _ _ _ _ _ _ _ _ _ _ _ _ E); try assumption; intros m X; now injection X as <-. }
      intros v EW. refine (G _ _ _ _ _ _ HH HL _ _ _ _ _ _ EW). discriminate.
    - destruct (_ && _)%bool; [|destruct (_ && _)%bool].
      + split; [nd_|]. intros q E. apply Hq. revert E. destruct (p3sat_h h); [cbn|discriminate]. congruence.
      + split; [nd_|]. intros q E. apply Hq. revert E. destruct (p3sat_h h); [cbn|discriminate]. congruence.
      + split; [discriminate|]. discriminate. }
  destruct P as [P1 P2].
  match goal with |- nd (bind ?r _) => destruct r as [[q|]|e] eqn:E end; [|discriminate|cbn; intros X; apply P1; congruence].
  clear P1. specialize (P2 q eq_refl). clear E. cbn [bind local]. apply nd_bind; [|intros [[[? ?] ?] ?]; nd_].
  destruct P2 as [P2| ->].
  - apply (gap_ends _ _ (fun s => (snd s, snd (fst s))) (flit 0.0000001%dec)) with (n := 135%nat).
    + reflexivity.
    + apply EE; vm_compute; reflexivity.
    + intros [[[? ?] ?] ?]. discriminate.
    + intros [[[x z] hi] lo] X. unfold wide in X. cbn [fst snd] in X.
      cbn [ltb fabs sub lit FNum]. rewrite X. now rewrite andb_false_r.
    + intros [[[x z] hi] lo]. nd_.
    + intros [[[x z] hi] lo] s' E. revert E. cbn [div add lit FNum]. rewrite mid_div. cbn [bind fst snd].
      destruct (T4_p _) as [Ts|]; [|discriminate]. cbn [bind]. destruct (x4_ph _ _) as [xs|]; [|discriminate]. cbn [bind].
      match goal with |- context [bind ?r _] => destruct r as [[s4v s4L]|]; [|discriminate] end. cbn [bind].
      match goal with |- context [if ?b then _ else _] => destruct b end; intros E; injection E as <-; cbn; auto.
    + exact HL. + exact P2. + apply modest_bound; [exact HL | exact P2].
    + lia.
  - revert HF. destruct fuel as [|n]; [intros X; exfalso; now apply X|]. intros _. cbn [while bind].
    match goal with |- nd (if ?b then _ else _) => replace b with false; [discriminate|] end.
    symmetry. apply andb_false_r.
Qed.
Lemma tame_modest q : tame q -> modest q \/ q = B754_nan.
Proof. intros [H|H]; [left; now apply modest_cmp | now right]. Qed.
Definition hs_tame (us : unit_system) (h : f64) : Prop :=
  forall h' q, toSIunit_h (N := FNum L) us h = Ok h' -> p3sat_h (N := FNum L) h' = Ok q -> tame q.
Lemma nd_t_hs us h s : hs_tame us h -> nd (t_hs (N := FNum L) us h s).
Proof.
  intros H. unfold t_hs. pose proof (nd_toSIunit_h us h) as N1. specialize (H).
  destruct (toSIunit_h (N := FNum L) us h) as [h'|e] eqn:E; [|cbn; intros X; apply N1; congruence]. cbn [bind].
  pose proof (nd_T4_hs h') as X. specialize (fun s => X s (fun q E' => tame_modest q (H h' q E E'))). nd_.
Qed.
Lemma nd_p_hs us h s : hs_tame us h -> nd (p_hs (N := FNum L) us h s).
Proof.
  intros H. unfold p_hs. pose proof (nd_toSIunit_h us h) as N1.
  destruct (toSIunit_h (N := FNum L) us h) as [h'|e] eqn:E; [|cbn; intros X; apply N1; congruence]. cbn [bind].
  pose proof (nd_T4_hs h') as X. specialize (fun s => X s (fun q E' => tame_modest q (H h' q E E'))). nd_.
Qed.
Lemma nd_tc_hs us h s : hs_tame us h -> nd (tc_hs (N := FNum L) us h s).
Proof. intros H. unfold tc_hs. cbv zeta. apply nd_bind; [now apply nd_p_hs|intros p; nd_]. Qed.

Lemma ends_hs us f h s : of_hs f = true -> hs_tame us h -> nd (run2 (N := FNum L) f us h s).
Proof. destruct f; try discriminate; intros _ H; cbn [run2]; [apply nd_p_hs | apply nd_t_hs | apply nd_tc_hs]; exact H. Qed.
Lemma ends us c : asks_hs (N := FNum L) c = false -> (rounds (N := FNum L) c <= Z.of_nat fuel)%Z ->
  nd (answer (N := FNum L) us c).
Proof.
  destruct c as [f|f x|f x y|t hint|f|rho T|rho T]; cbn [answer asks_hs rounds]; intros A B.
  - destruct f; cbn [run0]; auto with nd.
  - destruct f; cbn [run1]; auto with nd.
  - destruct f; try discriminate A; cbn [open_bracket] in B; cbn [run2]; auto using nd_p_hrho with nd.
  - auto with nd.
  - destruct f; auto with nd.
  - auto with nd.
  - auto with nd.
Qed.
End F64.
