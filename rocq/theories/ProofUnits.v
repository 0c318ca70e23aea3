(** Proofs about the unit converters, exact arithmetic. *)
From Coq Require Import ZArith Reals Lra List Bool.
From Verif Require Import Py ExactReal ModState ModConstants ModUnits SpecUnits.
From Interval Require Import Tactic.
Open Scope R_scope.

Lemma factor_pos us q : 0 < factor us q.
Proof. destruct us, q; cbn; try lra; apply Rinv_0_lt_compat; lra. Qed.

Lemma div_lit a d : D d <> 0 -> div (Num:=RNum) a (lit d) = Ok (lift1 (fun x => x / D d) a).
Proof. intros H; destruct a; cbn; unfold xdiv; now rewrite Reqb_false by easy. Qed.

Ltac nz := unfold D; cbn [dec_e dec_m]; lra.

Lemma code_from_spec us q x : has_converter q = true ->
  code_from q us x = Ok (user us q x).
Proof.
  intros Hq.
  destruct us, q; try discriminate Hq; cbn [code_from];
  (unfold fromSIunit_p, fromSIunit_T, fromSIunit_h, fromSIunit_v, fromSIunit_s, fromSIunit_u,
     fromSIunit_Cp, fromSIunit_Cv, fromSIunit_w, fromSIunit_tc, fromSIunit_st, fromSIunit_my);
  cbn [is_MKS is_FLS]; unfold ABSOLUTE_ZERO_CELSIUS;
  rewrite ?div_lit by nz; destruct x; cbn [bind lift1 lift2 RNum add sub mul lit user];
  try reflexivity; apply f_equal, f_equal;
  unfold to_user, D; cbn [dec_e dec_m origin factor shift]; lra.
Qed.

Lemma code_to_spec us q x : has_converter q = true ->
  code_to q us x = Ok (si us q x).
Proof.
  intros Hq.
  destruct us, q; try discriminate Hq; cbn [code_to];
  (unfold toSIunit_p, toSIunit_T, toSIunit_h, toSIunit_v, toSIunit_s, toSIunit_u,
     toSIunit_Cp, toSIunit_Cv, toSIunit_w, toSIunit_tc, toSIunit_st, toSIunit_my);
  cbn [is_MKS is_FLS]; unfold ABSOLUTE_ZERO_CELSIUS;
  rewrite ?div_lit by nz; destruct x; cbn [bind lift1 lift2 RNum add sub mul lit si];
  try reflexivity; apply f_equal, f_equal;
  unfold to_si, D; cbn [dec_e dec_m origin factor shift]; lra.
Qed.

Lemma to_si_to_user us q x : to_si us q (to_user us q x) = x.
Proof. unfold to_si, to_user; field. apply Rgt_not_eq, factor_pos. Qed.
Lemma to_user_to_si us q x : to_user us q (to_si us q x) = x.
Proof. unfold to_si, to_user; field. apply Rgt_not_eq, factor_pos. Qed.

Lemma to_user_lt us q x y : x < y <-> to_user us q x < to_user us q y.
Proof.
  unfold to_user; pose proof (factor_pos us q); split; intros H0.
  - apply Rplus_lt_compat_r, Rmult_lt_compat_r; lra.
  - apply Rplus_lt_reg_r in H0. apply Rmult_lt_reg_r in H0; lra.
Qed.
Lemma to_si_lt us q x y : x < y <-> to_si us q x < to_si us q y.
Proof.
  rewrite (to_user_lt us q (to_si us q x)), !to_user_to_si. reflexivity.
Qed.

Lemma si_user us q x : si us q (user us q x) = x.
Proof. destruct x; cbn; [now rewrite to_si_to_user | reflexivity]. Qed.
Lemma user_si us q x : user us q (si us q x) = x.
Proof. destruct x; cbn; [now rewrite to_user_to_si | reflexivity]. Qed.

Lemma user_BARE q x : user BARE q x = x.
Proof. destruct x; cbn; [|easy]. unfold to_user; destruct q; cbn; apply f_equal; lra. Qed.
Lemma si_BARE q x : si BARE q x = x.
Proof. rewrite <- (user_BARE q x) at 1. apply si_user. Qed.

Lemma round_trip us q x : has_converter q = true ->
  (let* y := code_from q us x in code_to q us y) = Ok x /\
  (let* y := code_to q us x in code_from q us y) = Ok x.
Proof.
  intros Hq; rewrite code_from_spec, code_to_spec by easy; cbn [bind].
  rewrite code_from_spec, code_to_spec by easy. now rewrite si_user, user_si.
Qed.

(** Conversion factors against the definitions of the units. *)
Lemma factors_agree q : Rabs (factor FLS q / defined_factor q - 1) <= rel_tol q.
Proof.
  assert (E : forall x, x = 0 -> Rabs x <= 0) by (intros x ->; rewrite Rabs_R0; lra).
  destruct q; unfold defined_factor, rel_tol, btu, lbf, lb, ft, degF; cbn [factor];
  first [ interval with (i_prec 80) | solve [apply E; field; lra] ].
Qed.

Lemma order us q : has_converter q = true -> forall x y : R,
  exists a b c d, code_from q us (Fin x) = Ok (Fin a) /\ code_from q us (Fin y) = Ok (Fin b) /\
    code_to q us (Fin x) = Ok (Fin c) /\ code_to q us (Fin y) = Ok (Fin d) /\
    (x < y <-> a < b) /\ (x < y <-> c < d).
Proof.
  intros Hq x y. rewrite !code_from_spec, !code_to_spec by easy. do 4 eexists.
  do 4 (split; [reflexivity|]). split; [apply to_user_lt | apply to_si_lt].
Qed.
Lemma nan_conv us q : has_converter q = true ->
  code_from q us NaN = Ok NaN /\ code_to q us NaN = Ok NaN.
Proof. intros Hq. now rewrite code_from_spec, code_to_spec. Qed.
Lemma factors q : has_converter q = true -> exists f,
  (forall x, code_from q FLS (Fin x) = Ok (Fin ((x - origin FLS q) * f + shift FLS q))) /\
  Rabs (f / defined_factor q - 1) <= rel_tol q.
Proof.
  intros Hq. exists (factor FLS q). split; [|apply factors_agree].
  intros x. now rewrite code_from_spec.
Qed.
Lemma factors_MKS x : fromSIunit_p MKS (Fin x) = Ok (Fin (10 * x)) /\
  fromSIunit_T MKS (Fin x) = Ok (Fin (x - 273.15)) /\
  forall q, has_converter q = true -> q <> Qp -> q <> QT -> code_from q MKS (Fin x) = Ok (Fin x).
Proof.
  pose proof (code_from_spec MKS Qp (Fin x) eq_refl) as P. cbn [code_from] in P.
  pose proof (code_from_spec MKS QT (Fin x) eq_refl) as T. cbn [code_from] in T.
  rewrite P, T. unfold user, to_user; cbn [lift1 origin factor shift].
  split; [apply f_equal, f_equal; lra|]. split; [apply f_equal, f_equal; lra|].
  intros q Hq N1 N2. rewrite code_from_spec by easy. unfold user, to_user.
  destruct q; try easy; cbn [lift1 origin factor shift]; apply f_equal, f_equal; lra.
Qed.
