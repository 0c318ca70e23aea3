(** * The public API of XSteam as a table: every function with the quantities of its
    arguments and of its result, and objects whose unit system can be changed. *)
From Coq Require Import ZArith List Bool.
From Verif Require Import Py ModState ModXSteam ModXSteamHW SpecUnits.
Import ListNotations.

(** Functions without argument, with one and with two arguments. *)
Inductive fn0 : Set :=
| F_specificGasConstant | F_criticalTemperatur | F_criticalPressure | F_criticalDensity
| F_triplePointTemperatur | F_triplePointPressure | F_zeroPointTemperature.
Inductive fn1 : Set :=
| F_tsat_p | F_psat_t | F_tsat_s | F_psat_s | F_hV_p | F_hL_p | F_hV_t | F_hL_t | F_vV_p
| F_vL_p | F_vV_t | F_vL_t | F_rhoV_p | F_rhoL_p | F_rhoV_t | F_rhoL_t | F_sV_p | F_sL_p
| F_sV_t | F_sL_t | F_uV_p | F_uL_p | F_uV_t | F_uL_t | F_CpV_p | F_CpL_p | F_CpV_t
| F_CpL_t | F_CvV_p | F_CvL_p | F_CvV_t | F_CvL_t | F_wV_p | F_wL_p | F_wV_t | F_wL_t
| F_st_t | F_st_p | F_tcL_p | F_tcV_p | F_tcL_t | F_tcV_t | F_psubl_t.
Inductive fn2 : Set :=
| F_v_ph | F_t_ph | F_p_hs | F_h_ps | F_my_ph | F_Cp_pt | F_Cp_ph | F_my_pt | F_v_pt
| F_tc_pt | F_tc_ph | F_t_ps | F_t_hs | F_p_hrho | F_h_pt | F_h_px | F_h_prho | F_h_tx
| F_v_ps | F_rho_pt | F_rho_ph | F_rho_ps | F_s_pt | F_s_ph | F_u_pt | F_u_ph | F_u_ps
| F_Cp_ps | F_Cv_pt | F_Cv_ph | F_Cv_ps | F_w_pt | F_w_ph | F_w_ps | F_my_ps | F_pr_pt
| F_pr_ph | F_tc_hs | F_x_ph | F_x_ps | F_vx_ph | F_vx_ps.
(** Functions without argument of XSteam_HW. *)
Inductive hw0 : Set := HW_criticalTemperatur | HW_criticalPressure | HW_criticalDensity.

(** Result quantity; argument and result quantities. *)
Definition sig0 (f : fn0) : quantity :=
  match f with
  | F_specificGasConstant => Qone
  | F_criticalTemperatur => QT
  | F_criticalPressure => Qp
  | F_criticalDensity => Qrho
  | F_triplePointTemperatur => QT
  | F_triplePointPressure => Qp
  | F_zeroPointTemperature => QT
  end.
Definition sig1 (f : fn1) : quantity * quantity :=
  match f with
  | F_tsat_p => (Qp, QT)
  | F_psat_t => (QT, Qp)
  | F_tsat_s => (Qs, QT)
  | F_psat_s => (Qs, Qp)
  | F_hV_p => (Qp, Qh)
  | F_hL_p => (Qp, Qh)
  | F_hV_t => (QT, Qh)
  | F_hL_t => (QT, Qh)
  | F_vV_p => (Qp, Qv)
  | F_vL_p => (Qp, Qv)
  | F_vV_t => (QT, Qv)
  | F_vL_t => (QT, Qv)
  | F_rhoV_p => (Qp, Qrho)
  | F_rhoL_p => (Qp, Qrho)
  | F_rhoV_t => (QT, Qrho)
  | F_rhoL_t => (QT, Qrho)
  | F_sV_p => (Qp, Qs)
  | F_sL_p => (Qp, Qs)
  | F_sV_t => (QT, Qs)
  | F_sL_t => (QT, Qs)
  | F_uV_p => (Qp, Qu)
  | F_uL_p => (Qp, Qu)
  | F_uV_t => (QT, Qu)
  | F_uL_t => (QT, Qu)
  | F_CpV_p => (Qp, QCp)
  | F_CpL_p => (Qp, QCp)
  | F_CpV_t => (QT, QCp)
  | F_CpL_t => (QT, QCp)
  | F_CvV_p => (Qp, QCv)
  | F_CvL_p => (Qp, QCv)
  | F_CvV_t => (QT, QCv)
  | F_CvL_t => (QT, QCv)
  | F_wV_p => (Qp, Qw)
  | F_wL_p => (Qp, Qw)
  | F_wV_t => (QT, Qw)
  | F_wL_t => (QT, Qw)
  | F_st_t => (QT, Qst)
  | F_st_p => (Qp, Qst)
  | F_tcL_p => (Qp, Qtc)
  | F_tcV_p => (Qp, Qtc)
  | F_tcL_t => (QT, Qtc)
  | F_tcV_t => (QT, Qtc)
  | F_psubl_t => (QT, Qp)
  end.
Definition sig2 (f : fn2) : quantity * quantity * quantity :=
  match f with
  | F_v_ph => (Qp, Qh, Qv)
  | F_t_ph => (Qp, Qh, QT)
  | F_p_hs => (Qh, Qs, Qp)
  | F_h_ps => (Qp, Qs, Qh)
  | F_my_ph => (Qp, Qh, Qmy)
  | F_Cp_pt => (Qp, QT, QCp)
  | F_Cp_ph => (Qp, Qh, QCp)
  | F_my_pt => (Qp, QT, Qmy)
  | F_v_pt => (Qp, QT, Qv)
  | F_tc_pt => (Qp, QT, Qtc)
  | F_tc_ph => (Qp, Qh, Qtc)
  | F_t_ps => (Qp, Qs, QT)
  | F_t_hs => (Qh, Qs, QT)
  | F_p_hrho => (Qh, Qrho, Qp)
  | F_h_pt => (Qp, QT, Qh)
  | F_h_px => (Qp, Qone, Qh)
  | F_h_prho => (Qp, Qrho, Qh)
  | F_h_tx => (QT, Qone, Qh)
  | F_v_ps => (Qp, Qs, Qv)
  | F_rho_pt => (Qp, QT, Qrho)
  | F_rho_ph => (Qp, Qh, Qrho)
  | F_rho_ps => (Qp, Qs, Qrho)
  | F_s_pt => (Qp, QT, Qs)
  | F_s_ph => (Qp, Qh, Qs)
  | F_u_pt => (Qp, QT, Qu)
  | F_u_ph => (Qp, Qh, Qu)
  | F_u_ps => (Qp, Qs, Qu)
  | F_Cp_ps => (Qp, Qs, QCp)
  | F_Cv_pt => (Qp, QT, QCv)
  | F_Cv_ph => (Qp, Qh, QCv)
  | F_Cv_ps => (Qp, Qs, QCv)
  | F_w_pt => (Qp, QT, Qw)
  | F_w_ph => (Qp, Qh, Qw)
  | F_w_ps => (Qp, Qs, Qw)
  | F_my_ps => (Qp, Qs, Qmy)
  | F_pr_pt => (Qp, QT, Qone)
  | F_pr_ph => (Qp, Qh, Qone)
  | F_tc_hs => (Qh, Qs, Qtc)
  | F_x_ph => (Qp, Qh, Qone)
  | F_x_ps => (Qp, Qs, Qone)
  | F_vx_ph => (Qp, Qh, Qone)
  | F_vx_ps => (Qp, Qs, Qone)
  end.

(** The saturation functions of temperature with their counterparts of pressure. *)
Definition by_pressure (f : fn1) : option fn1 :=
  match f with
  | F_hV_t => Some F_hV_p | F_hL_t => Some F_hL_p | F_vV_t => Some F_vV_p | F_vL_t => Some F_vL_p
  | F_rhoV_t => Some F_rhoV_p | F_rhoL_t => Some F_rhoL_p | F_sV_t => Some F_sV_p | F_sL_t => Some F_sL_p
  | F_uV_t => Some F_uV_p | F_uL_t => Some F_uL_p | F_CpV_t => Some F_CpV_p | F_CpL_t => Some F_CpL_p
  | F_CvV_t => Some F_CvV_p | F_CvL_t => Some F_CvL_p | F_wV_t => Some F_wV_p | F_wL_t => Some F_wL_p
  | F_st_t => Some F_st_p | F_tcL_t => Some F_tcL_p | F_tcV_t => Some F_tcV_p
  | _ => None
  end.

Section Calls.
Context {N : Num} {F : Fuel}.

(** The function of the model behind each name. *)
Definition run0 (f : fn0) : unit_system -> res num :=
  match f with
  | F_specificGasConstant => specificGasConstant
  | F_criticalTemperatur => criticalTemperatur
  | F_criticalPressure => criticalPressure
  | F_criticalDensity => criticalDensity
  | F_triplePointTemperatur => triplePointTemperatur
  | F_triplePointPressure => triplePointPressure
  | F_zeroPointTemperature => zeroPointTemperature
  end.
Definition run1 (f : fn1) : unit_system -> num -> res num :=
  match f with
  | F_tsat_p => tsat_p
  | F_psat_t => psat_t
  | F_tsat_s => tsat_s
  | F_psat_s => psat_s
  | F_hV_p => hV_p
  | F_hL_p => hL_p
  | F_hV_t => hV_t
  | F_hL_t => hL_t
  | F_vV_p => vV_p
  | F_vL_p => vL_p
  | F_vV_t => vV_t
  | F_vL_t => vL_t
  | F_rhoV_p => rhoV_p
  | F_rhoL_p => rhoL_p
  | F_rhoV_t => rhoV_t
  | F_rhoL_t => rhoL_t
  | F_sV_p => sV_p
  | F_sL_p => sL_p
  | F_sV_t => sV_t
  | F_sL_t => sL_t
  | F_uV_p => uV_p
  | F_uL_p => uL_p
  | F_uV_t => uV_t
  | F_uL_t => uL_t
  | F_CpV_p => CpV_p
  | F_CpL_p => CpL_p
  | F_CpV_t => CpV_t
  | F_CpL_t => CpL_t
  | F_CvV_p => CvV_p
  | F_CvL_p => CvL_p
  | F_CvV_t => CvV_t
  | F_CvL_t => CvL_t
  | F_wV_p => wV_p
  | F_wL_p => wL_p
  | F_wV_t => wV_t
  | F_wL_t => wL_t
  | F_st_t => st_t
  | F_st_p => st_p
  | F_tcL_p => tcL_p
  | F_tcV_p => tcV_p
  | F_tcL_t => tcL_t
  | F_tcV_t => tcV_t
  | F_psubl_t => psubl_t
  end.
Definition run2 (f : fn2) : unit_system -> num -> num -> res num :=
  match f with
  | F_v_ph => v_ph
  | F_t_ph => t_ph
  | F_p_hs => p_hs
  | F_h_ps => h_ps
  | F_my_ph => my_ph
  | F_Cp_pt => Cp_pt
  | F_Cp_ph => Cp_ph
  | F_my_pt => my_pt
  | F_v_pt => v_pt
  | F_tc_pt => tc_pt
  | F_tc_ph => tc_ph
  | F_t_ps => t_ps
  | F_t_hs => t_hs
  | F_p_hrho => p_hrho
  | F_h_pt => h_pt
  | F_h_px => h_px
  | F_h_prho => h_prho
  | F_h_tx => h_tx
  | F_v_ps => v_ps
  | F_rho_pt => rho_pt
  | F_rho_ph => rho_ph
  | F_rho_ps => rho_ps
  | F_s_pt => s_pt
  | F_s_ph => s_ph
  | F_u_pt => u_pt
  | F_u_ph => u_ph
  | F_u_ps => u_ps
  | F_Cp_ps => Cp_ps
  | F_Cv_pt => Cv_pt
  | F_Cv_ph => Cv_ph
  | F_Cv_ps => Cv_ps
  | F_w_pt => w_pt
  | F_w_ph => w_ph
  | F_w_ps => w_ps
  | F_my_ps => my_ps
  | F_pr_pt => pr_pt
  | F_pr_ph => pr_ph
  | F_tc_hs => tc_hs
  | F_x_ph => x_ph
  | F_x_ps => x_ps
  | F_vx_ph => vx_ph
  | F_vx_ps => vx_ps
  end.

(** A property call on an object. *)
Inductive call :=
| Call0 (f : fn0)
| Call1 (f : fn1) (x : num)
| Call2 (f : fn2) (x y : num)
| CallMelt (t : num) (hint : pyobj)
| CallHW0 (f : hw0)
| CallHWmy (rho T : num)
| CallHWtc (rho T : num).

(** What a call answers on an object in unit system [us]. *)
Definition answer (us : unit_system) (c : call) : res num :=
  match c with
  | Call0 f => run0 f us
  | Call1 f x => run1 f us x
  | Call2 f x y => run2 f us x y
  | CallMelt t hint => pmelt_t us t hint
  | CallHW0 HW_criticalTemperatur => hw_criticalTemperatur us
  | CallHW0 HW_criticalPressure => hw_criticalPressure us
  | CallHW0 HW_criticalDensity => hw_criticalDensity us
  | CallHWmy rho T => hw_my_rhoT us rho T
  | CallHWtc rho T => hw_tc_rhoT us rho T
  end.

(** A program: objects are created, asked, and switched to other unit systems. *)
Inductive op :=
| New (unitSystem : pyobj)
| Ask (i : nat) (c : call)
| Switch (i : nat) (unitSystem : pyobj).

Inductive out :=
| Created (i : nat)
| Raised (e : exn)
| Answered (r : res num)
| Switched
| NoObject.

(** The heap: the unit system held by each object.  [ModState.set_unitSystem] and
    [ModState.construct] say what the code does with it. *)
Definition heap := list unit_system.

Fixpoint update (i : nat) (us : unit_system) (st : heap) : heap :=
  match i, st with
  | _, [] => []
  | O, _ :: r => us :: r
  | S i, x :: r => x :: update i us r
  end.

Definition step (st : heap) (o : op) : heap * out :=
  match o with
  | New u =>
      match construct u with
      | Ok us => (st ++ [us], Created (length st))
      | Err e => (st, Raised e)
      end
  | Ask i c =>
      match nth_error st i with
      | Some us => (st, Answered (answer us c))
      | None => (st, NoObject)
      end
  | Switch i u =>
      match nth_error st i with
      | Some us =>
          match set_unitSystem (Some us) u with
          | (Ok _, Some us') => (update i us' st, Switched)
          | (Ok _, None) => (st, Switched)
          | (Err e, Some us') => (update i us' st, Raised e)
          | (Err e, None) => (st, Raised e)
          end
      | None => (st, NoObject)
      end
  end.

Fixpoint run (st : heap) (ops : list op) : heap * list out :=
  match ops with
  | [] => (st, [])
  | o :: r =>
      let '(st1, a) := step st o in
      let '(st2, l) := run st1 r in (st2, a :: l)
  end.

(** *** Specification of history independence

    The unit system of object [i] after a program, read off the text of the program:
    what the last valid selection for that object said.  [n] counts the objects created
    before. *)
Definition valid_unit (o : pyobj) : option unit_system :=
  match o with
  | PInt 0 => Some BARE
  | PInt 1 => Some MKS
  | PInt 2 => Some FLS
  | _ => None
  end.

Fixpoint selected (n i : nat) (cur : option unit_system) (ops : list op) : option unit_system :=
  match ops with
  | [] => cur
  | New u :: r =>
      match valid_unit u with
      | Some us => selected (S n) i (if Nat.eqb n i then Some us else cur) r
      | None => selected n i cur r
      end
  | Switch j u :: r =>
      match valid_unit u, cur with
      | Some us, Some _ => selected n i (if Nat.eqb j i then Some us else cur) r
      | _, _ => selected n i cur r
      end
  | Ask _ _ :: r => selected n i cur r
  end.
End Calls.
