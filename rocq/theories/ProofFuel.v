(** * More fuel changes no answer. *)
From Coq Require Import ZArith Bool List Lia.
From Verif Require Import Py ModState ModUnits ModBorders ModRegion1 ModRegion2 ModRegion3 ModRegion4 ModRegion5 ModSelect ModTransport ModR14 ModXSteam ModR4 ModXSteamHW SpecUnits SpecApi.

(** [r'] is [r], unless [r] ran out of fuel. *)
Definition le {A} (r r' : res A) : Prop := r = Err Diverges \/ r' = r.
Lemma le_refl {A} (r : res A) : le r r. Proof. now right. Qed.
Lemma le_bind {A B} (r r' : res A) (k k' : A -> res B) : le r r' -> (forall a, le (k a) (k' a)) -> le (bind r k) (bind r' k').
Proof. intros [-> | ->] H; [now left|]. destruct r as [a|e]; [apply H|apply le_refl]. Qed.
Lemma le_for {X S} (l : list X) (b b' : S -> X -> res S) : (forall s x, le (b s x) (b' s x)) ->
  forall s, le (for_each l s b) (for_each l s b').
Proof. intros H. induction l as [|x l IH]; intros s; cbn; [apply le_refl|]. apply le_bind; auto. Qed.
Lemma le_while {S} n n' (c c' : S -> res bool) (b b' : S -> res (flow S)) : (n <= n')%nat ->
  (forall s, le (c s) (c' s)) -> (forall s, le (b s) (b' s)) -> forall s, le (while n c b s) (while n' c' b' s).
Proof.
  intros H Hc Hb. revert n' H. induction n as [|n IH]; intros n' H s; [now left|].
  destruct n' as [|n']; [lia|]. cbn [while]. apply le_bind; [apply Hc|]. intros [|]; [|apply le_refl].
  apply le_bind; [apply Hb|]. intros [s'|s']; [apply IH; lia|apply le_refl].
Qed.
Lemma le_let {A B} (a : A) (k k' : A -> res B) : (forall x, le (k x) (k' x)) -> le (let x := a in k x) (let x := a in k' x).
Proof. intros H. exact (H a). Qed.
Ltac le_ := repeat (match goal with
 | |- le ?a ?b => constr_eq a b; apply le_refl
 | |- le (let x := ?a in @?k x) (let y := _ in @?k' y) => apply (le_let a k k'); intros ?; cbv beta
 | |- le (bind _ _) (bind _ _) => apply le_bind; [|intros]
 | |- le (for_each _ _ _) _ => apply le_for; intros
 | |- le (while _ _ _ _) _ => apply le_while; [assumption| |]; intros
 | |- le (or_else _ _) _ => unfold or_else
 | |- le (and_then _ _) _ => unfold and_then
 | |- le (if ?b then _ else _) _ => destruct b
 | |- le ((match ?x with _ => _ end) _) _ => destruct x
 | |- le (match ?x with _ => _ end) _ => destruct x
 | |- _ => solve [auto with fl]
 end).
Create HintDb fl discriminated.
#[local] Hint Constants Opaque : fl.
#[local] Hint Variables Opaque : fl.
Section Any.
Context (N : Num) (F F' : Fuel) (HF : (@fuel F <= @fuel F')%nat).
Lemma le_T3_prho : forall p rho, le (T3_prho (F := F) p rho) (T3_prho (F := F') p rho).
Proof. intros p rho. unfold T3_prho. le_. Qed.
#[local] Hint Resolve le_T3_prho : fl.
Lemma le_h4L_p : forall p, le (h4L_p (F := F) p) (h4L_p (F := F') p).
Proof. intros p. unfold h4L_p. le_. Qed.
#[local] Hint Resolve le_h4L_p : fl.
Lemma le_h4V_p : forall p, le (h4V_p (F := F) p) (h4V_p (F := F') p).
Proof. intros p. unfold h4V_p. le_. Qed.
#[local] Hint Resolve le_h4V_p : fl.
Lemma le_x4_ph : forall p h, le (x4_ph (F := F) p h) (x4_ph (F := F') p h).
Proof. intros p h. unfold x4_ph. le_. Qed.
#[local] Hint Resolve le_x4_ph : fl.
Lemma le_x4_ps : forall p s, le (x4_ps (F := F) p s) (x4_ps (F := F') p s).
Proof. intros p s. unfold x4_ps. le_. Qed.
#[local] Hint Resolve le_x4_ps : fl.
Lemma le_T4_hs : forall h s, le (T4_hs (F := F) h s) (T4_hs (F := F') h s).
Proof. intros h s. unfold T4_hs. le_. Qed.
#[local] Hint Resolve le_T4_hs : fl.
Lemma le_T1_prho : forall p rho, le (T1_prho (F := F) p rho) (T1_prho (F := F') p rho).
Proof. intros p rho. unfold T1_prho. le_. Qed.
#[local] Hint Resolve le_T1_prho : fl.
Lemma le_T2_prho : forall p rho, le (T2_prho (F := F) p rho) (T2_prho (F := F') p rho).
Proof. intros p rho. unfold T2_prho. le_. Qed.
#[local] Hint Resolve le_T2_prho : fl.
Lemma le_h3_pT : forall p T, le (h3_pT (F := F) p T) (h3_pT (F := F') p T).
Proof. intros p T. unfold h3_pT. le_. Qed.
#[local] Hint Resolve le_h3_pT : fl.
Lemma le_T5_ph : forall p h, le (T5_ph (F := F) p h) (T5_ph (F := F') p h).
Proof. intros p h. unfold T5_ph. le_. Qed.
#[local] Hint Resolve le_T5_ph : fl.
Lemma le_T5_ps : forall p s, le (T5_ps (F := F) p s) (T5_ps (F := F') p s).
Proof. intros p s. unfold T5_ps. le_. Qed.
#[local] Hint Resolve le_T5_ps : fl.
Lemma le_T5_prho : forall p rho, le (T5_prho (F := F) p rho) (T5_prho (F := F') p rho).
Proof. intros p rho. unfold T5_prho. le_. Qed.
#[local] Hint Resolve le_T5_prho : fl.
Lemma le_region_prho : forall p rho, le (region_prho (F := F) p rho) (region_prho (F := F') p rho).
Proof. intros p rho. unfold region_prho. le_. Qed.
#[local] Hint Resolve le_region_prho : fl.
Lemma le_my_AllRegions_pT : forall p T, le (my_AllRegions_pT (F := F) p T) (my_AllRegions_pT (F := F') p T).
Proof. intros p T. unfold my_AllRegions_pT. le_. Qed.
#[local] Hint Resolve le_my_AllRegions_pT : fl.
Lemma le_my_AllRegions_ph : forall p h, le (my_AllRegions_ph (F := F) p h) (my_AllRegions_ph (F := F') p h).
Proof. intros p h. unfold my_AllRegions_ph. le_. Qed.
#[local] Hint Resolve le_my_AllRegions_ph : fl.
Lemma le_v_ph : forall us p h, le (v_ph (F := F) us p h) (v_ph (F := F') us p h).
Proof. intros us p h. unfold v_ph. le_. Qed.
#[local] Hint Resolve le_v_ph : fl.
Lemma le_t_ph : forall us p h, le (t_ph (F := F) us p h) (t_ph (F := F') us p h).
Proof. intros us p h. unfold t_ph. le_. Qed.
#[local] Hint Resolve le_t_ph : fl.
Lemma le_p_hs : forall us h s, le (p_hs (F := F) us h s) (p_hs (F := F') us h s).
Proof. intros us h s. unfold p_hs. le_. Qed.
#[local] Hint Resolve le_p_hs : fl.
Lemma le_h_ps : forall us p s, le (h_ps (F := F) us p s) (h_ps (F := F') us p s).
Proof. intros us p s. unfold h_ps. le_. Qed.
#[local] Hint Resolve le_h_ps : fl.
Lemma le_my_ph : forall us p h, le (my_ph (F := F) us p h) (my_ph (F := F') us p h).
Proof. intros us p h. unfold my_ph. le_. Qed.
#[local] Hint Resolve le_my_ph : fl.
Lemma le_Cp_pt : forall us p t, le (Cp_pt (F := F) us p t) (Cp_pt (F := F') us p t).
Proof. intros us p t. unfold Cp_pt. le_. Qed.
#[local] Hint Resolve le_Cp_pt : fl.
Lemma le_Cp_ph : forall us p h, le (Cp_ph (F := F) us p h) (Cp_ph (F := F') us p h).
Proof. intros us p h. unfold Cp_ph. le_. Qed.
#[local] Hint Resolve le_Cp_ph : fl.
Lemma le_my_pt : forall us p t, le (my_pt (F := F) us p t) (my_pt (F := F') us p t).
Proof. intros us p t. unfold my_pt. le_. Qed.
#[local] Hint Resolve le_my_pt : fl.
Lemma le_v_pt : forall us p t, le (v_pt (F := F) us p t) (v_pt (F := F') us p t).
Proof. intros us p t. unfold v_pt. le_. Qed.
#[local] Hint Resolve le_v_pt : fl.
Lemma le_tc_pt : forall us p t, le (tc_pt (F := F) us p t) (tc_pt (F := F') us p t).
Proof. intros us p t. unfold tc_pt. le_. Qed.
#[local] Hint Resolve le_tc_pt : fl.
Lemma le_tc_ph : forall us p h, le (tc_ph (F := F) us p h) (tc_ph (F := F') us p h).
Proof. intros us p h. unfold tc_ph. le_. Qed.
#[local] Hint Resolve le_tc_ph : fl.
Lemma le_t_ps : forall us p s, le (t_ps (F := F) us p s) (t_ps (F := F') us p s).
Proof. intros us p s. unfold t_ps. le_. Qed.
#[local] Hint Resolve le_t_ps : fl.
Lemma le_t_hs : forall us h s, le (t_hs (F := F) us h s) (t_hs (F := F') us h s).
Proof. intros us h s. unfold t_hs. le_. Qed.
#[local] Hint Resolve le_t_hs : fl.
Lemma le_p_hrho : forall us h rho, le (p_hrho (F := F) us h rho) (p_hrho (F := F') us h rho).
Proof. intros us h rho. unfold p_hrho. le_. Qed.
#[local] Hint Resolve le_p_hrho : fl.
Lemma le_hV_p : forall us p, le (hV_p (F := F) us p) (hV_p (F := F') us p).
Proof. intros us p. unfold hV_p. le_. Qed.
#[local] Hint Resolve le_hV_p : fl.
Lemma le_hL_p : forall us p, le (hL_p (F := F) us p) (hL_p (F := F') us p).
Proof. intros us p. unfold hL_p. le_. Qed.
#[local] Hint Resolve le_hL_p : fl.
Lemma le_hV_t : forall us t, le (hV_t (F := F) us t) (hV_t (F := F') us t).
Proof. intros us t. unfold hV_t. le_. Qed.
#[local] Hint Resolve le_hV_t : fl.
Lemma le_hL_t : forall us t, le (hL_t (F := F) us t) (hL_t (F := F') us t).
Proof. intros us t. unfold hL_t. le_. Qed.
#[local] Hint Resolve le_hL_t : fl.
Lemma le_h_pt : forall us p t, le (h_pt (F := F) us p t) (h_pt (F := F') us p t).
Proof. intros us p t. unfold h_pt. le_. Qed.
#[local] Hint Resolve le_h_pt : fl.
Lemma le_h_px : forall us p x, le (h_px (F := F) us p x) (h_px (F := F') us p x).
Proof. intros us p x. unfold h_px. le_. Qed.
#[local] Hint Resolve le_h_px : fl.
Lemma le_h_prho : forall us p rho, le (h_prho (F := F) us p rho) (h_prho (F := F') us p rho).
Proof. intros us p rho. unfold h_prho. le_. Qed.
#[local] Hint Resolve le_h_prho : fl.
Lemma le_h_tx : forall us t x, le (h_tx (F := F) us t x) (h_tx (F := F') us t x).
Proof. intros us t x. unfold h_tx. le_. Qed.
#[local] Hint Resolve le_h_tx : fl.
Lemma le_vV_p : forall us p, le (vV_p (F := F) us p) (vV_p (F := F') us p).
Proof. intros us p. unfold vV_p. le_. Qed.
#[local] Hint Resolve le_vV_p : fl.
Lemma le_vL_p : forall us p, le (vL_p (F := F) us p) (vL_p (F := F') us p).
Proof. intros us p. unfold vL_p. le_. Qed.
#[local] Hint Resolve le_vL_p : fl.
Lemma le_vV_t : forall us t, le (vV_t (F := F) us t) (vV_t (F := F') us t).
Proof. intros us t. unfold vV_t. le_. Qed.
#[local] Hint Resolve le_vV_t : fl.
Lemma le_vL_t : forall us t, le (vL_t (F := F) us t) (vL_t (F := F') us t).
Proof. intros us t. unfold vL_t. le_. Qed.
#[local] Hint Resolve le_vL_t : fl.
Lemma le_v_ps : forall us p s, le (v_ps (F := F) us p s) (v_ps (F := F') us p s).
Proof. intros us p s. unfold v_ps. le_. Qed.
#[local] Hint Resolve le_v_ps : fl.
Lemma le_rhoV_p : forall us p, le (rhoV_p (F := F) us p) (rhoV_p (F := F') us p).
Proof. intros us p. unfold rhoV_p. le_. Qed.
#[local] Hint Resolve le_rhoV_p : fl.
Lemma le_rhoL_p : forall us p, le (rhoL_p (F := F) us p) (rhoL_p (F := F') us p).
Proof. intros us p. unfold rhoL_p. le_. Qed.
#[local] Hint Resolve le_rhoL_p : fl.
Lemma le_rhoV_t : forall us t, le (rhoV_t (F := F) us t) (rhoV_t (F := F') us t).
Proof. intros us t. unfold rhoV_t. le_. Qed.
#[local] Hint Resolve le_rhoV_t : fl.
Lemma le_rhoL_t : forall us t, le (rhoL_t (F := F) us t) (rhoL_t (F := F') us t).
Proof. intros us t. unfold rhoL_t. le_. Qed.
#[local] Hint Resolve le_rhoL_t : fl.
Lemma le_rho_pt : forall us p t, le (rho_pt (F := F) us p t) (rho_pt (F := F') us p t).
Proof. intros us p t. unfold rho_pt. le_. Qed.
#[local] Hint Resolve le_rho_pt : fl.
Lemma le_rho_ph : forall us p h, le (rho_ph (F := F) us p h) (rho_ph (F := F') us p h).
Proof. intros us p h. unfold rho_ph. le_. Qed.
#[local] Hint Resolve le_rho_ph : fl.
Lemma le_rho_ps : forall us p s, le (rho_ps (F := F) us p s) (rho_ps (F := F') us p s).
Proof. intros us p s. unfold rho_ps. le_. Qed.
#[local] Hint Resolve le_rho_ps : fl.
Lemma le_sV_p : forall us p, le (sV_p (F := F) us p) (sV_p (F := F') us p).
Proof. intros us p. unfold sV_p. le_. Qed.
#[local] Hint Resolve le_sV_p : fl.
Lemma le_sL_p : forall us p, le (sL_p (F := F) us p) (sL_p (F := F') us p).
Proof. intros us p. unfold sL_p. le_. Qed.
#[local] Hint Resolve le_sL_p : fl.
Lemma le_sV_t : forall us t, le (sV_t (F := F) us t) (sV_t (F := F') us t).
Proof. intros us t. unfold sV_t. le_. Qed.
#[local] Hint Resolve le_sV_t : fl.
Lemma le_sL_t : forall us t, le (sL_t (F := F) us t) (sL_t (F := F') us t).
Proof. intros us t. unfold sL_t. le_. Qed.
#[local] Hint Resolve le_sL_t : fl.
Lemma le_s_pt : forall us p t, le (s_pt (F := F) us p t) (s_pt (F := F') us p t).
Proof. intros us p t. unfold s_pt. le_. Qed.
#[local] Hint Resolve le_s_pt : fl.
Lemma le_s_ph : forall us p h, le (s_ph (F := F) us p h) (s_ph (F := F') us p h).
Proof. intros us p h. unfold s_ph. le_. Qed.
#[local] Hint Resolve le_s_ph : fl.
Lemma le_uV_p : forall us p, le (uV_p (F := F) us p) (uV_p (F := F') us p).
Proof. intros us p. unfold uV_p. le_. Qed.
#[local] Hint Resolve le_uV_p : fl.
Lemma le_uL_p : forall us p, le (uL_p (F := F) us p) (uL_p (F := F') us p).
Proof. intros us p. unfold uL_p. le_. Qed.
#[local] Hint Resolve le_uL_p : fl.
Lemma le_uV_t : forall us t, le (uV_t (F := F) us t) (uV_t (F := F') us t).
Proof. intros us t. unfold uV_t. le_. Qed.
#[local] Hint Resolve le_uV_t : fl.
Lemma le_uL_t : forall us t, le (uL_t (F := F) us t) (uL_t (F := F') us t).
Proof. intros us t. unfold uL_t. le_. Qed.
#[local] Hint Resolve le_uL_t : fl.
Lemma le_u_pt : forall us p t, le (u_pt (F := F) us p t) (u_pt (F := F') us p t).
Proof. intros us p t. unfold u_pt. le_. Qed.
#[local] Hint Resolve le_u_pt : fl.
Lemma le_u_ph : forall us p h, le (u_ph (F := F) us p h) (u_ph (F := F') us p h).
Proof. intros us p h. unfold u_ph. le_. Qed.
#[local] Hint Resolve le_u_ph : fl.
Lemma le_u_ps : forall us p s, le (u_ps (F := F) us p s) (u_ps (F := F') us p s).
Proof. intros us p s. unfold u_ps. le_. Qed.
#[local] Hint Resolve le_u_ps : fl.
Lemma le_CpV_p : forall us p, le (CpV_p (F := F) us p) (CpV_p (F := F') us p).
Proof. intros us p. unfold CpV_p. le_. Qed.
#[local] Hint Resolve le_CpV_p : fl.
Lemma le_CpL_p : forall us p, le (CpL_p (F := F) us p) (CpL_p (F := F') us p).
Proof. intros us p. unfold CpL_p. le_. Qed.
#[local] Hint Resolve le_CpL_p : fl.
Lemma le_CpV_t : forall us t, le (CpV_t (F := F) us t) (CpV_t (F := F') us t).
Proof. intros us t. unfold CpV_t. le_. Qed.
#[local] Hint Resolve le_CpV_t : fl.
Lemma le_CpL_t : forall us t, le (CpL_t (F := F) us t) (CpL_t (F := F') us t).
Proof. intros us t. unfold CpL_t. le_. Qed.
#[local] Hint Resolve le_CpL_t : fl.
Lemma le_Cp_ps : forall us p s, le (Cp_ps (F := F) us p s) (Cp_ps (F := F') us p s).
Proof. intros us p s. unfold Cp_ps. le_. Qed.
#[local] Hint Resolve le_Cp_ps : fl.
Lemma le_CvV_p : forall us p, le (CvV_p (F := F) us p) (CvV_p (F := F') us p).
Proof. intros us p. unfold CvV_p. le_. Qed.
#[local] Hint Resolve le_CvV_p : fl.
Lemma le_CvL_p : forall us p, le (CvL_p (F := F) us p) (CvL_p (F := F') us p).
Proof. intros us p. unfold CvL_p. le_. Qed.
#[local] Hint Resolve le_CvL_p : fl.
Lemma le_CvV_t : forall us t, le (CvV_t (F := F) us t) (CvV_t (F := F') us t).
Proof. intros us t. unfold CvV_t. le_. Qed.
#[local] Hint Resolve le_CvV_t : fl.
Lemma le_CvL_t : forall us t, le (CvL_t (F := F) us t) (CvL_t (F := F') us t).
Proof. intros us t. unfold CvL_t. le_. Qed.
#[local] Hint Resolve le_CvL_t : fl.
Lemma le_Cv_pt : forall us p t, le (Cv_pt (F := F) us p t) (Cv_pt (F := F') us p t).
Proof. intros us p t. unfold Cv_pt. le_. Qed.
#[local] Hint Resolve le_Cv_pt : fl.
Lemma le_Cv_ph : forall us p h, le (Cv_ph (F := F) us p h) (Cv_ph (F := F') us p h).
Proof. intros us p h. unfold Cv_ph. le_. Qed.
#[local] Hint Resolve le_Cv_ph : fl.
Lemma le_Cv_ps : forall us p s, le (Cv_ps (F := F) us p s) (Cv_ps (F := F') us p s).
Proof. intros us p s. unfold Cv_ps. le_. Qed.
#[local] Hint Resolve le_Cv_ps : fl.
Lemma le_wV_p : forall us p, le (wV_p (F := F) us p) (wV_p (F := F') us p).
Proof. intros us p. unfold wV_p. le_. Qed.
#[local] Hint Resolve le_wV_p : fl.
Lemma le_wL_p : forall us p, le (wL_p (F := F) us p) (wL_p (F := F') us p).
Proof. intros us p. unfold wL_p. le_. Qed.
#[local] Hint Resolve le_wL_p : fl.
Lemma le_wV_t : forall us t, le (wV_t (F := F) us t) (wV_t (F := F') us t).
Proof. intros us t. unfold wV_t. le_. Qed.
#[local] Hint Resolve le_wV_t : fl.
Lemma le_wL_t : forall us t, le (wL_t (F := F) us t) (wL_t (F := F') us t).
Proof. intros us t. unfold wL_t. le_. Qed.
#[local] Hint Resolve le_wL_t : fl.
Lemma le_w_pt : forall us p t, le (w_pt (F := F) us p t) (w_pt (F := F') us p t).
Proof. intros us p t. unfold w_pt. le_. Qed.
#[local] Hint Resolve le_w_pt : fl.
Lemma le_w_ph : forall us p h, le (w_ph (F := F) us p h) (w_ph (F := F') us p h).
Proof. intros us p h. unfold w_ph. le_. Qed.
#[local] Hint Resolve le_w_ph : fl.
Lemma le_w_ps : forall us p s, le (w_ps (F := F) us p s) (w_ps (F := F') us p s).
Proof. intros us p s. unfold w_ps. le_. Qed.
#[local] Hint Resolve le_w_ps : fl.
Lemma le_my_ps : forall us p s, le (my_ps (F := F) us p s) (my_ps (F := F') us p s).
Proof. intros us p s. unfold my_ps. le_. Qed.
#[local] Hint Resolve le_my_ps : fl.
Lemma le_pr_pt : forall us p t, le (pr_pt (F := F) us p t) (pr_pt (F := F') us p t).
Proof. intros us p t. unfold pr_pt. le_. Qed.
#[local] Hint Resolve le_pr_pt : fl.
Lemma le_pr_ph : forall us p h, le (pr_ph (F := F) us p h) (pr_ph (F := F') us p h).
Proof. intros us p h. unfold pr_ph. le_. Qed.
#[local] Hint Resolve le_pr_ph : fl.
Lemma le_tcL_p : forall us p, le (tcL_p (F := F) us p) (tcL_p (F := F') us p).
Proof. intros us p. unfold tcL_p. le_. Qed.
#[local] Hint Resolve le_tcL_p : fl.
Lemma le_tcV_p : forall us p, le (tcV_p (F := F) us p) (tcV_p (F := F') us p).
Proof. intros us p. unfold tcV_p. le_. Qed.
#[local] Hint Resolve le_tcV_p : fl.
Lemma le_tcL_t : forall us t, le (tcL_t (F := F) us t) (tcL_t (F := F') us t).
Proof. intros us t. unfold tcL_t. le_. Qed.
#[local] Hint Resolve le_tcL_t : fl.
Lemma le_tcV_t : forall us t, le (tcV_t (F := F) us t) (tcV_t (F := F') us t).
Proof. intros us t. unfold tcV_t. le_. Qed.
#[local] Hint Resolve le_tcV_t : fl.
Lemma le_tc_hs : forall us h s, le (tc_hs (F := F) us h s) (tc_hs (F := F') us h s).
Proof. intros us h s. unfold tc_hs. le_. Qed.
#[local] Hint Resolve le_tc_hs : fl.
Lemma le_x_ph : forall us p h, le (x_ph (F := F) us p h) (x_ph (F := F') us p h).
Proof. intros us p h. unfold x_ph. le_. Qed.
#[local] Hint Resolve le_x_ph : fl.
Lemma le_x_ps : forall us p s, le (x_ps (F := F) us p s) (x_ps (F := F') us p s).
Proof. intros us p s. unfold x_ps. le_. Qed.
#[local] Hint Resolve le_x_ps : fl.
Lemma le_vx_ph : forall us p h, le (vx_ph (F := F) us p h) (vx_ph (F := F') us p h).
Proof. intros us p h. unfold vx_ph. le_. Qed.
#[local] Hint Resolve le_vx_ph : fl.
Lemma le_vx_ps : forall us p s, le (vx_ps (F := F) us p s) (vx_ps (F := F') us p s).
Proof. intros us p s. unfold vx_ps. le_. Qed.
#[local] Hint Resolve le_vx_ps : fl.

Lemma le_answer us c : le (answer (F := F) us c) (answer (F := F') us c).
Proof.
  destruct c as [f|f x|f x y|t hint|f|rho T|rho T]; cbn [answer].
  - destruct f; apply le_refl.
  - destruct f; cbn [run1]; first [lazymatch goal with |- le ?a ?b => constr_eq a b; apply le_refl end | solve [auto with fl]].
  - destruct f; cbn [run2]; first [lazymatch goal with |- le ?a ?b => constr_eq a b; apply le_refl end | solve [auto with fl]].
  - apply le_refl.
  - destruct f; apply le_refl.
  - apply le_refl.
  - apply le_refl.
Qed.
End Any.

Theorem fuel_enough (N : Num) (F F' : Fuel) us c : (@fuel F <= @fuel F')%nat ->
  answer (F := F) us c <> Err Diverges -> answer (F := F') us c = answer (F := F) us c.
Proof. intros H D. destruct (le_answer N F F' H us c) as [E|E]; [now elim D | exact E]. Qed.
