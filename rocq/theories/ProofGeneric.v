(** Facts that hold in every arithmetic: dispatch, exceptions, densities. *)
From Coq Require Import ZArith List Bool Lia.
From Verif Require Import Py ModState ModConstants ModUnits ModBorders ModRegion1 ModRegion2
  ModRegion3 ModRegion4 ModRegion5 ModSelect ModXSteam.
Import ListNotations.
Open Scope Z_scope.

Section Any.
Context {N : Num} {F : Fuel}.

(** Step through a computation that returned. *)
Ltac ret H :=
  repeat match type of H with
  | bind ?e _ = Ok _ => destruct e eqn:?; cbn [bind] in H; [|discriminate H]
  | (if ?c then _ else _) = Ok _ => destruct c eqn:?
  | match ?o with Return _ => _ | Proceed _ => _ end = Ok _ => destruct o eqn:?
  | Ok _ = Ok _ => injection H as H
  end.

Lemma region_pT_range p T r : region_pT p T = Ok r -> 0 <= r <= 5.
Proof. unfold region_pT; cbv zeta; intros H; ret H; lia. Qed.

Lemma region_ps_range p s r : region_ps p s = Ok r -> 0 <= r <= 5.
Proof. unfold region_ps; cbv zeta; intros H; ret H; lia. Qed.

Lemma region_prho_range p rho r : region_prho p rho = Ok r -> 0 <= r <= 5.
Proof. unfold region_prho; cbv zeta; intros H; ret H; lia. Qed.

Lemma region_hs_range h s r : region_hs h s = Ok r -> 0 <= r <= 4.
Proof. unfold region_hs; cbv zeta; intros H; ret H; lia. Qed.

Lemma region_ph_range p h r : region_ph p h = Ok r -> 0 <= r <= 5.
Proof.
  unfold region_ph; cbv zeta; intros H.
  destruct ((p <? #0.000611657)%num || (p >? #100)%num); [ret H; lia|].
  match type of H with bind ?e _ = _ => remember e as o1 eqn:E1 end.
  destruct o1 as [o|]; cbn [bind] in H; [|discriminate H].
  destruct o as [z|u]; [|ret H; lia].
  injection H as <-. symmetry in E1.
  destruct (h <? _)%num; [|discriminate E1].
  destruct (h1_pT p _); cbn [bind] in E1; [|discriminate E1].
  destruct (h <? _)%num; [|discriminate E1]. injection E1 as <-. lia.
Qed.

(** Region 5 is never chosen above 10 MPa from (p,h), (p,s), (p,rho). *)
Lemma region_ps_5 p s : region_ps p s = Ok 5 -> (p <=? #10)%num = true.
Proof. unfold region_ps; cbv zeta; intros H; ret H; try discriminate H; reflexivity. Qed.
Lemma region_ph_5 p h : region_ph p h = Ok 5 ->
  (p <? #16.5292)%num = true /\ (p >? #10)%num = false.
Proof.
  unfold region_ph; cbv zeta; intros H.
  destruct ((p <? #0.000611657)%num || (p >? #100)%num); [ret H; discriminate H|].
  match type of H with bind ?e _ = _ => remember e as o1 eqn:E1 end.
  destruct o1 as [o|]; cbn [bind] in H; [|discriminate H].
  destruct o as [z|u].
  - exfalso. injection H as ->. symmetry in E1.
    destruct (h <? _)%num; [|discriminate E1].
    destruct (h1_pT p _); cbn [bind] in E1; [|discriminate E1].
    destruct (h <? _)%num; discriminate E1.
  - ret H; try discriminate H; auto.
Qed.
Lemma region_prho_5 p rho : region_prho p rho = Ok 5 ->
  (p <? #16.5292)%num = true /\ (p >? #10)%num = false.
Proof. unfold region_prho; cbv zeta; intros H; ret H; try discriminate H; auto. Qed.

(** Wet steam temperature. *)
Lemma wet_t_ph us p h p' h' :
  toSIunit_p us p = Ok p' -> toSIunit_h us h = Ok h' -> region_ph p' h' = Ok 4 ->
  t_ph us p h = let* T := T4_p p' in fromSIunit_T us T.
Proof. intros Hp Hh Hr; unfold t_ph; now rewrite Hp, Hh; cbn [bind]; rewrite Hr. Qed.
Lemma wet_t_ps us p s p' s' :
  toSIunit_p us p = Ok p' -> toSIunit_s us s = Ok s' -> region_ps p' s' = Ok 4 ->
  t_ps us p s = let* T := T4_p p' in fromSIunit_T us T.
Proof. intros Hp Hh Hr; unfold t_ps; now rewrite Hp, Hh; cbn [bind]; rewrite Hr. Qed.

(** [p_hrho] stops in the first round.  The law needed of the arithmetic: a number that
    is not equal to itself (NaN) is not farther than anything from anything. *)
Definition nan_law : Prop :=
  forall x y z : num, (x =? x)%num = false -> (fabs (y - x) >? z)%num = false.

Lemma p_hrho_const us h rho r : nan_law ->
  p_hrho us h rho = Ok r -> fromSIunit_p us #10 = Ok r.
Proof.
  intros L; unfold p_hrho; cbv zeta.
  destruct (rho <=? _)%num; [discriminate|].
  destruct (toSIunit_h us h) as [h'|]; cbn [bind]; [|discriminate].
  destruct (fromSIunit_p us #100) as [hi|]; cbn [bind]; [|discriminate].
  destruct (fromSIunit_p us #0.000611657) as [lo|]; cbn [bind]; [|discriminate].
  destruct (fromSIunit_p us #10) as [ps|]; cbn [bind]; [|discriminate].
  destruct (v_ph us ps h') as [v|] eqn:Ev; cbn [bind]; [|discriminate].
  destruct (div #1 v) as [rhos|] eqn:Ed; cbn [bind]; [|discriminate].
  destruct fuel as [|n]; cbn [while bind]; [discriminate|].
  destruct (fabs (rho - rhos) >? _)%num eqn:Ec; cbn [bind].
  - rewrite Ev; cbn [bind]; rewrite Ed; cbn [bind].
    destruct (rhos =? rhos)%num eqn:Ee; cbn [bind].
    + now intros [= <-].
    + rewrite (L _ _ _ Ee) in Ec. discriminate.
  - now intros [= <-].
Qed.

(** Saturation by entropy. *)
Lemma sat_s us s :
  tsat_s us s =
  (let* s' := toSIunit_s us s in
   if (#(-0.0001545495919) <? s')%num && (s' <? #9.155759395)%num
   then let* p := p4_s s' in let* T := T4_p p in fromSIunit_T us T
   else Ok nan).
Proof. reflexivity. Qed.
End Any.
