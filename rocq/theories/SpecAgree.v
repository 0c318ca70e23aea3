(** * Vocabulary for C46: functions that answer the same question from different arguments. *)
From Coq Require Import ZArith List Bool.
From Verif Require Import Py ModState ModRegion3 ModSelect ModXSteam SpecUnits SpecApi.

(** A function of (p,h), or of (p,s), with the function of (p,t) for the same property. *)
Definition twin_ph (f : fn2) : option fn2 :=
  match f with
  | F_v_ph => Some F_v_pt | F_rho_ph => Some F_rho_pt | F_s_ph => Some F_s_pt | F_u_ph => Some F_u_pt
  | F_Cp_ph => Some F_Cp_pt | F_Cv_ph => Some F_Cv_pt | F_w_ph => Some F_w_pt
  | _ => None
  end.
Definition twin_ps (f : fn2) : option fn2 :=
  match f with
  | F_v_ps => Some F_v_pt | F_rho_ps => Some F_rho_pt | F_h_ps => Some F_h_pt | F_u_ps => Some F_u_pt
  | F_Cp_ps => Some F_Cp_pt | F_Cv_ps => Some F_Cv_pt | F_w_ps => Some F_w_pt
  | _ => None
  end.

Section Any.
Context {N : Num} {F : Fuel}.
(** The region 3 equation behind a function. *)
Definition eos3 (f : fn2) : option (num -> num -> res num) :=
  match f with
  | F_s_pt | F_s_ph => Some s3_rhoT
  | F_u_pt | F_u_ph | F_u_ps => Some u3_rhoT
  | F_Cp_pt | F_Cp_ph | F_Cp_ps => Some Cp3_rhoT
  | F_Cv_pt | F_Cv_ph | F_Cv_ps => Some Cv3_rhoT
  | F_w_pt | F_w_ph | F_w_ps => Some w3_rhoT
  | F_h_ps => Some h3_rhoT
  | _ => None
  end.
Definition args_of (f : fn2) : quantity * quantity := fst (sig2 f).
End Any.
(** Heat capacities and speed of sound: not defined for wet steam. *)
Definition one_phase_only (f : fn2) : bool :=
  match f with
  | F_Cp_pt | F_Cp_ph | F_Cp_ps | F_Cv_pt | F_Cv_ph | F_Cv_ps | F_w_pt | F_w_ph | F_w_ps => true
  | _ => false
  end.
