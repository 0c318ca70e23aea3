(** t_hs, p_hs and tc_hs on the two entropy slivers where T4_hs leaves PL unset. *)
From Coq Require Import ZArith Reals Lra Lia List Bool.
From Interval Require Import Tactic.
From Verif Require Import Py ExactReal ModState ModUnits ModBorders ModRegion1 ModRegion2 ModRegion3 ModRegion4 ModSelect ModXSteam
  SpecUnits SpecApi SpecLeaks ProofUnits ProofCovariance RealSum ProofEos ProofSatApi ProofBack ProofMisc SatS.
Open Scope R_scope.

Section Any.
Context {N : Num} {F : Fuel}.
Local Open Scope num_scope.
Lemma T4_hs_unbound h s :
  ((s >? #5.210887825) && (s <? #9.15546555571324)) = false ->
  ((s >? #(-0.0001545495919)) && (s <=? #3.77828134)) = false ->
  ((s >? #3.77828134) && (s <=? #4.41202148223476)) = false ->
  ((s >? #4.41202148223476) && (s <=? #5.210887663)) = false -> T4_hs h s = Err UnboundLocalError.
Proof. intros A B C E. unfold T4_hs. rewrite A, B, C, E. reflexivity. Qed.
End Any.

Section Real.
Context {F : Fuel}.
Lemma T4_hs_R h s : unset s -> T4_hs h (Fin s) = Err UnboundLocalError.
Proof.
  intros H. apply T4_hs_unbound; cbn [ltb leb RNum lit cmp]; apply andb_false_iff; destruct H as [H|H];
    first [left; apply Rltb_false; undec; lra | right; apply Rltb_false; undec; lra | right; apply Rleb_false; undec; lra].
Qed.
Lemma hs_raises us h s : region_hs (si us Qh h) (Fin (to_si us Qs s)) = Ok 4%Z -> unset (to_si us Qs s) ->
  t_hs us h (Fin s) = Err UnboundLocalError /\ p_hs us h (Fin s) = Err UnboundLocalError /\
  tc_hs us h (Fin s) = Err UnboundLocalError.
Proof.
  intros R U.
  assert (P : p_hs us h (Fin s) = Err UnboundLocalError).
  { unfold p_hs. rewrite to_h, to_s. cbn [bind si lift1]. rewrite R. cbn [bind Z.eqb Pos.eqb]. now rewrite T4_hs_R. }
  split; [|split; [exact P|]].
  - unfold t_hs. rewrite to_h, to_s. cbn [bind si lift1]. rewrite R. cbn [bind Z.eqb Pos.eqb]. now rewrite T4_hs_R.
  - unfold tc_hs. cbv zeta. rewrite P. reflexivity.
Qed.
Definition hmin (s : R) : R := (-0.0415878 - 2500.89262) / (-0.00015455 - 9.155759) * s.
Lemma wet_c h s : 5.210887663 < s <= 5.210887825 -> hmin s <= h < H4c s -> region_hs (Fin h) (Fin s) = Ok 4%Z.
Proof.
  intros H Hh. unfold region_hs. cbn [div sub lit RNum lift2]. rewrite xdiv_Fin by (undec; lra). cbn [bind mul RNum lift2].
  replace ((D (-0.0415878) - D 2500.89262) / (D (-0.00015455) - D 9.155759) * s) with (hmin s) by (unfold hmin; undec; f_equal; f_equal; f_equal; lra).
  cbn [ltb leb RNum lit cmp]. rewrite (Rltb_false s) by (undec; lra). rewrite (Rltb_false h) by lra. rewrite andb_false_r.
  decide_s. rewrite h4c_closed by lra. cbn [bind ltb RNum cmp]. rewrite Rltb_true by lra. reflexivity.
Qed.
Lemma wet_d h s : 9.15546555571324 <= s < 9.155759395 -> hmin s <= h < H4d s -> region_hs (Fin h) (Fin s) = Ok 4%Z.
Proof.
  intros H Hh. unfold region_hs. cbn [div sub lit RNum lift2]. rewrite xdiv_Fin by (undec; lra). cbn [bind mul RNum lift2].
  replace ((D (-0.0415878) - D 2500.89262) / (D (-0.00015455) - D 9.155759) * s) with (hmin s) by (unfold hmin; undec; f_equal; f_equal; f_equal; lra).
  cbn [ltb leb RNum lit cmp]. rewrite (Rltb_false s) by (undec; lra). rewrite (Rltb_false h) by lra. rewrite andb_false_r.
  decide_s. rewrite h4d_closed by lra. cbn [bind ltb RNum cmp]. rewrite Rltb_true by lra. reflexivity.
Qed.
Lemma room_c s : 5.210887663 <= s <= 5.210887825 -> hmin s < 1500 /\ 2500 < H4c s.
Proof. intros H. unfold hmin, H4c. reals. split; interval with (i_bisect s, i_taylor s). Qed.
Lemma room_d s : 9.15546555571324 <= s <= 9.155759395 -> 0 < H4d s - hmin s.
Proof. intros H. unfold hmin, H4d. reals. interval with (i_bisect s, i_taylor s). Qed.
Lemma wet_somewhere s : 5.210887663 < s <= 5.210887825 \/ 9.15546555571324 <= s < 9.155759395 ->
  exists h, region_hs (Fin h) (Fin s) = Ok 4%Z.
Proof.
  intros [H|H].
  - exists 2000. apply wet_c; [exact H|]. pose proof (room_c s ltac:(lra)). lra.
  - exists (hmin s). apply wet_d; [exact H|]. pose proof (room_d s ltac:(lra)). lra.
Qed.
Lemma slivers_refuted s : 5.210887663 < s <= 5.210887825 \/ 9.15546555571324 <= s < 9.155759395 ->
  exists h, region_hs (Fin h) (Fin s) = Ok 4%Z /\ t_hs BARE (Fin h) (Fin s) = Err UnboundLocalError /\
    p_hs BARE (Fin h) (Fin s) = Err UnboundLocalError.
Proof.
  intros H. destruct (wet_somewhere s H) as (h & R). exists h. split; [exact R|].
  destruct (hs_raises BARE (Fin h) s) as (A & B & _); [|unfold unset|now split].
  - rewrite si_BARE. replace (Fin (to_si BARE Qs s)) with (si BARE Qs (Fin s)) by reflexivity. now rewrite si_BARE.
  - replace (to_si BARE Qs s) with s by (unfold to_si; cbn [origin shift factor]; lra). lra.
Qed.
End Real.
