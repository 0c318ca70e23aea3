(** GENERATED by tools/translate.py from pyXSteam/XSteam.py, class XSteam (methods reordered, callees first) -- do not edit.
    Text of the Python source, function by function; see DESIGN.md. *)
From Coq Require Import ZArith List Bool.
From Verif Require Import Py ModConstants ModState ModUnits ModBorders ModRegion1 ModRegion2 ModRegion3 ModRegion4 ModRegion5 ModSelect ModTransport ModR14.
Import ListNotations.
Open Scope Z_scope.
Open Scope num_scope.

Section Model.
Context {N : Num} {F : Fuel}.

(* pyXSteam/XSteam.py:71-85, XSteam.tsat_p *)
Definition tsat_p (us : unit_system) (p : num) : res num :=
  let* p := toSIunit_p us p in
  if ((p >? #0.000611657) && (p <? #22.06395))%num then
    let* q2 := T4_p p in
    fromSIunit_T us q2
  else
    Ok nan.

(* pyXSteam/XSteam.py:227-241, XSteam.psat_t *)
Definition psat_t (us : unit_system) (t : num) : res num :=
  let* T := toSIunit_T us t in
  if ((T <? #647.096) && (T >? #273.1))%num then
    let* q2 := p4_T T in
    fromSIunit_p us q2
  else
    Ok nan.

(* pyXSteam/XSteam.py:703-745, XSteam.v_ph *)
Definition v_ph (us : unit_system) (p h : num) : res num :=
  let* p := toSIunit_p us p in
  let* h := toSIunit_h us h in
  let* region := region_ph p h in
  if (Z.eqb region 1)%num then
    let* q4 := T1_ph p h in
    let* q5 := v1_pT p q4 in
    fromSIunit_v us q5
  else
    if (Z.eqb region 2)%num then
      let* q7 := T2_ph p h in
      let* q8 := v2_pT p q7 in
      fromSIunit_v us q8
    else
      if (Z.eqb region 3)%num then
        let* q10 := v3_ph p h in
        fromSIunit_v us q10
      else
        if (Z.eqb region 4)%num then
          let* xs := x4_ph p h in
          let* (v4v, v4L) :=
              if (p <? #16.529)%num then
                let* q13 := T4_p p in
                let* v4v := v2_pT p q13 in
                let* q15 := T4_p p in
                let* v4L := v1_pT p q15 in
                Ok (v4v, v4L)
              else
                let* q17 := h4V_p p in
                let* v4v := v3_ph p q17 in
                let* q19 := h4L_p p in
                let* v4L := v3_ph p q19 in
                Ok (v4v, v4L) in
          fromSIunit_v us (xs * v4v + (#1 - xs) * v4L)
        else
          if (Z.eqb region 5)%num then
            let* Ts := T5_ph p h in
            let* q23 := v5_pT p Ts in
            fromSIunit_v us q23
          else
            Ok nan.

(* pyXSteam/XSteam.py:104-134, XSteam.t_ph *)
Definition t_ph (us : unit_system) (p h : num) : res num :=
  let* p := toSIunit_p us p in
  let* h := toSIunit_h us h in
  let* region := region_ph p h in
  if (Z.eqb region 1)%num then
    let* q4 := T1_ph p h in
    fromSIunit_T us q4
  else
    if (Z.eqb region 2)%num then
      let* q6 := T2_ph p h in
      fromSIunit_T us q6
    else
      if (Z.eqb region 3)%num then
        let* q8 := T3_ph p h in
        fromSIunit_T us q8
      else
        if (Z.eqb region 4)%num then
          let* q10 := T4_p p in
          fromSIunit_T us q10
        else
          if (Z.eqb region 5)%num then
            let* q12 := T5_ph p h in
            fromSIunit_T us q12
          else
            Ok nan.

(* pyXSteam/XSteam.py:243-279, XSteam.p_hs *)
Definition p_hs (us : unit_system) (h s : num) : res num :=
  let* h := toSIunit_h us h in
  let* s := toSIunit_s us s in
  let* region := region_hs h s in
  if (Z.eqb region 1)%num then
    let* q4 := p1_hs h s in
    fromSIunit_p us q4
  else
    if (Z.eqb region 2)%num then
      let* q6 := p2_hs h s in
      fromSIunit_p us q6
    else
      if (Z.eqb region 3)%num then
        let* q8 := p3_hs h s in
        fromSIunit_p us q8
      else
        if (Z.eqb region 4)%num then
          let* tSat := T4_hs h s in
          let* q11 := p4_T tSat in
          fromSIunit_p us q11
        else
          if (Z.eqb region 5)%num then
            Ok nan
          else
            Ok nan.

(* pyXSteam/XSteam.py:432-473, XSteam.h_ps *)
Definition h_ps (us : unit_system) (p s : num) : res num :=
  let* p := toSIunit_p us p in
  let* s := toSIunit_s us s in
  let* region := region_ps p s in
  if (Z.eqb region 1)%num then
    let* q4 := T1_ps p s in
    let* q5 := h1_pT p q4 in
    fromSIunit_h us q5
  else
    if (Z.eqb region 2)%num then
      let* q7 := T2_ps p s in
      let* q8 := h2_pT p q7 in
      fromSIunit_h us q8
    else
      if (Z.eqb region 3)%num then
        let* q10 := v3_ps p s in
        let* q11 := div #1 q10 in
        let* q12 := T3_ps p s in
        let* q13 := h3_rhoT q11 q12 in
        fromSIunit_h us q13
      else
        if (Z.eqb region 4)%num then
          let* xs := x4_ps p s in
          let* q16 := h4V_p p in
          let* q17 := h4L_p p in
          fromSIunit_h us (xs * q16 + (#1 - xs) * q17)
        else
          if (Z.eqb region 5)%num then
            let* q19 := T5_ps p s in
            let* q20 := h5_pT p q19 in
            fromSIunit_h us q20
          else
            Ok nan.

(* pyXSteam/XSteam.py:2068-2099, XSteam.my_ph *)
Definition my_ph (us : unit_system) (p h : num) : res num :=
  let* p := toSIunit_p us p in
  let* h := toSIunit_h us h in
  let* region := region_ph p h in
  if (existsb (Z.eqb region) [1; 2; 3; 5])%num then
    let* q4 := my_AllRegions_ph p h in
    fromSIunit_my us q4
  else
    if (Z.eqb region 4)%num then
      Ok nan
    else
      Ok nan.

(* pyXSteam/XSteam.py:1433-1470, XSteam.Cp_pt *)
Definition Cp_pt (us : unit_system) (p t : num) : res num :=
  let* p := toSIunit_p us p in
  let* T := toSIunit_T us t in
  let* region := region_pT p T in
  if (Z.eqb region 1)%num then
    let* q4 := Cp1_pT p T in
    fromSIunit_Cp us q4
  else
    if (Z.eqb region 2)%num then
      let* q6 := Cp2_pT p T in
      fromSIunit_Cp us q6
    else
      if (Z.eqb region 3)%num then
        let* hs := h3_pT p T in
        let* q9 := v3_ph p hs in
        let* rhos := div #1 q9 in
        let* q11 := Cp3_rhoT rhos T in
        fromSIunit_Cp us q11
      else
        if (Z.eqb region 4)%num then
          Ok nan
        else
          if (Z.eqb region 5)%num then
            let* q13 := Cp5_pT p T in
            fromSIunit_Cp us q13
          else
            Ok nan.

(* pyXSteam/XSteam.py:1472-1512, XSteam.Cp_ph *)
Definition Cp_ph (us : unit_system) (p h : num) : res num :=
  let* p := toSIunit_p us p in
  let* h := toSIunit_h us h in
  let* region := region_ph p h in
  if (Z.eqb region 1)%num then
    let* Ts := T1_ph p h in
    let* q5 := Cp1_pT p Ts in
    fromSIunit_Cp us q5
  else
    if (Z.eqb region 2)%num then
      let* Ts := T2_ph p h in
      let* q8 := Cp2_pT p Ts in
      fromSIunit_Cp us q8
    else
      if (Z.eqb region 3)%num then
        let* q10 := v3_ph p h in
        let* rhos := div #1 q10 in
        let* Ts := T3_ph p h in
        let* q13 := Cp3_rhoT rhos Ts in
        fromSIunit_Cp us q13
      else
        if (Z.eqb region 4)%num then
          Ok nan
        else
          if (Z.eqb region 5)%num then
            let* Ts := T5_ph p h in
            let* q16 := Cp5_pT p Ts in
            fromSIunit_Cp us q16
          else
            Ok nan.

(* pyXSteam/XSteam.py:2035-2066, XSteam.my_pt *)
Definition my_pt (us : unit_system) (p t : num) : res num :=
  let* p := toSIunit_p us p in
  let* T := toSIunit_T us t in
  let* region := region_pT p T in
  if (Z.eqb region 4)%num then
    Ok nan
  else
    if (existsb (Z.eqb region) [1; 2; 3; 5])%num then
      let* q4 := my_AllRegions_pT p T in
      fromSIunit_my us q4
    else
      Ok nan.

(* pyXSteam/XSteam.py:664-701, XSteam.v_pt *)
Definition v_pt (us : unit_system) (p t : num) : res num :=
  let* p := toSIunit_p us p in
  let* T := toSIunit_T us t in
  let* region := region_pT p T in
  if (Z.eqb region 1)%num then
    let* q4 := v1_pT p T in
    fromSIunit_v us q4
  else
    if (Z.eqb region 2)%num then
      let* q6 := v2_pT p T in
      fromSIunit_v us q6
    else
      if (Z.eqb region 3)%num then
        let* q8 := h3_pT p T in
        let* q9 := v3_ph p q8 in
        fromSIunit_v us q9
      else
        if (Z.eqb region 4)%num then
          Ok nan
        else
          if (Z.eqb region 5)%num then
            let* q11 := v5_pT p T in
            fromSIunit_v us q11
          else
            Ok nan.

(* pyXSteam/XSteam.py:2259-2280, XSteam.tc_pt *)
Definition tc_pt (us : unit_system) (p t : num) : res num :=
  let Ts := t in
  let ps := p in
  let* v := v_pt us ps Ts in
  let* p := toSIunit_p us ps in
  let* T := toSIunit_T us Ts in
  let* v := toSIunit_v us v in
  let* rho := div #1 v in
  let* q6 := tc_ptrho p T rho in
  fromSIunit_tc us q6.

(* pyXSteam/XSteam.py:2282-2302, XSteam.tc_ph *)
Definition tc_ph (us : unit_system) (p h : num) : res num :=
  let hs := h in
  let ps := p in
  let* v := v_ph us ps hs in
  let* T := t_ph us ps hs in
  let* p := toSIunit_p us ps in
  let* T := toSIunit_T us T in
  let* v := toSIunit_v us v in
  let* rho := div #1 v in
  let* q7 := tc_ptrho p T rho in
  fromSIunit_tc us q7.

(* pyXSteam/XSteam.py:41-43, XSteam.specificGasConstant *)
Definition specificGasConstant (us : unit_system) : res num :=
  Ok SPECIFIC_GAS_CONSTANT.

(* pyXSteam/XSteam.py:45-47, XSteam.criticalTemperatur *)
Definition criticalTemperatur (us : unit_system) : res num :=
  fromSIunit_T us CRITICAL_TEMPERATURE.

(* pyXSteam/XSteam.py:49-51, XSteam.criticalPressure *)
Definition criticalPressure (us : unit_system) : res num :=
  fromSIunit_p us CRITICAL_PRESSURE.

(* pyXSteam/XSteam.py:53-55, XSteam.criticalDensity *)
Definition criticalDensity (us : unit_system) : res num :=
  fromSIunit_p us CRITICAL_DENSITY.

(* pyXSteam/XSteam.py:57-59, XSteam.triplePointTemperatur *)
Definition triplePointTemperatur (us : unit_system) : res num :=
  fromSIunit_T us TRIPLE_POINT_TEMPERATURE.

(* pyXSteam/XSteam.py:61-63, XSteam.triplePointPressure *)
Definition triplePointPressure (us : unit_system) : res num :=
  fromSIunit_p us TRIPLE_POINT_PRESSURE.

(* pyXSteam/XSteam.py:65-67, XSteam.zeroPointTemperature *)
Definition zeroPointTemperature (us : unit_system) : res num :=
  fromSIunit_T us #0.0.

(* pyXSteam/XSteam.py:87-102, XSteam.tsat_s *)
Definition tsat_s (us : unit_system) (s : num) : res num :=
  let* s := toSIunit_s us s in
  if ((s >? (#(-0.0001545495919))) && (s <? #9.155759395))%num then
    let* ps := p4_s s in
    let* q3 := T4_p ps in
    fromSIunit_T us q3
  else
    Ok nan.

(* pyXSteam/XSteam.py:136-167, XSteam.t_ps *)
Definition t_ps (us : unit_system) (p s : num) : res num :=
  let* p := toSIunit_p us p in
  let* s := toSIunit_s us s in
  let* region := region_ps p s in
  if (Z.eqb region 1)%num then
    let* q4 := T1_ps p s in
    fromSIunit_T us q4
  else
    if (Z.eqb region 2)%num then
      let* q6 := T2_ps p s in
      fromSIunit_T us q6
    else
      if (Z.eqb region 3)%num then
        let* q8 := T3_ps p s in
        fromSIunit_T us q8
      else
        if (Z.eqb region 4)%num then
          let* q10 := T4_p p in
          fromSIunit_T us q10
        else
          if (Z.eqb region 5)%num then
            let* q12 := T5_ps p s in
            fromSIunit_T us q12
          else
            Ok nan.

(* pyXSteam/XSteam.py:169-207, XSteam.t_hs *)
Definition t_hs (us : unit_system) (h s : num) : res num :=
  let* h := toSIunit_h us h in
  let* s := toSIunit_s us s in
  let* region := region_hs h s in
  if (Z.eqb region 1)%num then
    let* p1 := p1_hs h s in
    let* q5 := T1_ph p1 h in
    fromSIunit_T us q5
  else
    if (Z.eqb region 2)%num then
      let* p2 := p2_hs h s in
      let* q8 := T2_ph p2 h in
      fromSIunit_T us q8
    else
      if (Z.eqb region 3)%num then
        let* p3 := p3_hs h s in
        let* q11 := T3_ph p3 h in
        fromSIunit_T us q11
      else
        if (Z.eqb region 4)%num then
          let* q13 := T4_hs h s in
          fromSIunit_T us q13
        else
          if (Z.eqb region 5)%num then
            Ok nan
          else
            Ok nan.

(* pyXSteam/XSteam.py:211-225, XSteam.psat_s *)
Definition psat_s (us : unit_system) (s : num) : res num :=
  let* s := toSIunit_s us s in
  if ((s >? (#(-0.0001545495919))) && (s <? #9.155759395))%num then
    let* q2 := p4_s s in
    fromSIunit_p us q2
  else
    Ok nan.

(* pyXSteam/XSteam.py:281-325, XSteam.p_hrho *)
Definition p_hrho (us : unit_system) (h rho : num) : res num :=
  if (rho <=? #0.0)%num then
    Err ValueError
  else
  let* h := toSIunit_h us h in
  let* High_Bound := fromSIunit_p us #100 in
  let* Low_Bound := fromSIunit_p us #0.000611657 in
  let* ps := fromSIunit_p us #10 in
  let* q5 := v_ph us ps h in
  let* rhos := div #1 q5 in
  let* (rhos, High_Bound, Low_Bound, ps) := while fuel
       (fun '(rhos, High_Bound, Low_Bound, ps) => Ok (((fabs (rho - rhos)) >? #0.0000001)%num))
       (fun '(rhos, High_Bound, Low_Bound, ps) =>
         let last_rhos := rhos in
         let* q7 := v_ph us ps h in
         let* rhos := div #1 q7 in
         if (last_rhos =? rhos)%num then
           Ok (Break (rhos, High_Bound, Low_Bound, ps))
         else
         let* (High_Bound, Low_Bound) :=
             if (rhos >=? rho)%num then
               let High_Bound := ps in
               Ok (High_Bound, Low_Bound)
             else
               let Low_Bound := ps in
               Ok (High_Bound, Low_Bound) in
         let* ps := div (Low_Bound + High_Bound) #2 in
         Ok (Next (rhos, High_Bound, Low_Bound, ps)))
       (rhos, High_Bound, Low_Bound, ps) in
  Ok ps.

(* pyXSteam/XSteam.py:329-343, XSteam.hV_p *)
Definition hV_p (us : unit_system) (p : num) : res num :=
  let* p := toSIunit_p us p in
  if ((p >? #0.000611657) && (p <? #22.06395))%num then
    let* q2 := h4V_p p in
    fromSIunit_h us q2
  else
    Ok nan.

(* pyXSteam/XSteam.py:345-359, XSteam.hL_p *)
Definition hL_p (us : unit_system) (p : num) : res num :=
  let* p := toSIunit_p us p in
  if ((p >? #0.000611657) && (p <? #22.06395))%num then
    let* q2 := h4L_p p in
    fromSIunit_h us q2
  else
    Ok nan.

(* pyXSteam/XSteam.py:361-376, XSteam.hV_t *)
Definition hV_t (us : unit_system) (t : num) : res num :=
  let* T := toSIunit_T us t in
  if ((T >? #273.15) && (T <? #647.096))%num then
    let* p := p4_T T in
    let* q3 := h4V_p p in
    fromSIunit_h us q3
  else
    Ok nan.

(* pyXSteam/XSteam.py:378-393, XSteam.hL_t *)
Definition hL_t (us : unit_system) (t : num) : res num :=
  let* T := toSIunit_T us t in
  if ((T >? #273.15) && (T <? #647.096))%num then
    let* p := p4_T T in
    let* q3 := h4L_p p in
    fromSIunit_h us q3
  else
    Ok nan.

(* pyXSteam/XSteam.py:395-430, XSteam.h_pt *)
Definition h_pt (us : unit_system) (p t : num) : res num :=
  let* p := toSIunit_p us p in
  let* T := toSIunit_T us t in
  let* region := region_pT p T in
  if (Z.eqb region 1)%num then
    let* q4 := h1_pT p T in
    fromSIunit_h us q4
  else
    if (Z.eqb region 2)%num then
      let* q6 := h2_pT p T in
      fromSIunit_h us q6
    else
      if (Z.eqb region 3)%num then
        let* q8 := h3_pT p T in
        fromSIunit_h us q8
      else
        if (Z.eqb region 4)%num then
          Ok nan
        else
          if (Z.eqb region 5)%num then
            let* q10 := h5_pT p T in
            fromSIunit_h us q10
          else
            Ok nan.

(* pyXSteam/XSteam.py:475-494, XSteam.h_px *)
Definition h_px (us : unit_system) (p x : num) : res num :=
  let* p := toSIunit_p us p in
  let* x := toSIunit_x us x in
  if ((x >? #1) || (x <? #0) || (p >=? #22.064))%num then
    Ok nan
  else
  let* hL := h4L_p p in
  let* hV := h4V_p p in
  fromSIunit_h us (hL + x * (hV - hL)).

(* pyXSteam/XSteam.py:496-543, XSteam.h_prho *)
Definition h_prho (us : unit_system) (p rho : num) : res num :=
  let* p := toSIunit_p us p in
  let* q2 := div #1 rho in
  let* q3 := toSIunit_v us q2 in
  let* rho := div #1 q3 in
  let* region := region_prho p rho in
  if (Z.eqb region 1)%num then
    let* q6 := T1_prho p rho in
    let* q7 := h1_pT p q6 in
    fromSIunit_h us q7
  else
    if (Z.eqb region 2)%num then
      let* q9 := T2_prho p rho in
      let* q10 := h2_pT p q9 in
      fromSIunit_h us q10
    else
      if (Z.eqb region 3)%num then
        let* q12 := T3_prho p rho in
        let* q13 := h3_rhoT rho q12 in
        fromSIunit_h us q13
      else
        if (Z.eqb region 4)%num then
          let* (vV, vL) :=
              if (p <? #16.529)%num then
                let* q15 := T4_p p in
                let* vV := v2_pT p q15 in
                let* q17 := T4_p p in
                let* vL := v1_pT p q17 in
                Ok (vV, vL)
              else
                let* q19 := h4V_p p in
                let* vV := v3_ph p q19 in
                let* q21 := h4L_p p in
                let* vL := v3_ph p q21 in
                Ok (vV, vL) in
          let* hV := h4V_p p in
          let* hL := h4L_p p in
          let* q25 := div #1 rho in
          let* x := div (q25 - vL) (vV - vL) in
          fromSIunit_h us ((#1 - x) * hL + x * hV)
        else
          if (Z.eqb region 5)%num then
            let* q28 := T5_prho p rho in
            let* q29 := h5_pT p q28 in
            fromSIunit_h us q29
          else
            Ok nan.

(* pyXSteam/XSteam.py:545-565, XSteam.h_tx *)
Definition h_tx (us : unit_system) (t x : num) : res num :=
  let* T := toSIunit_T us t in
  let* x := toSIunit_x us x in
  if ((x >? #1) || (x <? #0) || (T >=? #647.096))%num then
    Ok nan
  else
  let* p := p4_T T in
  let* hL := h4L_p p in
  let* hV := h4V_p p in
  fromSIunit_h us (hL + x * (hV - hL)).

(* pyXSteam/XSteam.py:569-591, XSteam.vV_p *)
Definition vV_p (us : unit_system) (p : num) : res num :=
  let* p := toSIunit_p us p in
  if ((p >? #0.000611657) && (p <? #22.06395))%num then
    if (p <? #16.529)%num then
      let* q2 := T4_p p in
      let* q3 := v2_pT p q2 in
      fromSIunit_v us q3
    else
      let* q5 := h4V_p p in
      let* q6 := v3_ph p q5 in
      fromSIunit_v us q6
  else
    Ok nan.

(* pyXSteam/XSteam.py:593-614, XSteam.vL_p *)
Definition vL_p (us : unit_system) (p : num) : res num :=
  let* p := toSIunit_p us p in
  if ((p >? #0.000611657) && (p <? #22.06395))%num then
    if (p <? #16.529)%num then
      let* q2 := T4_p p in
      let* q3 := v1_pT p q2 in
      fromSIunit_v us q3
    else
      let* q5 := h4L_p p in
      let* q6 := v3_ph p q5 in
      fromSIunit_v us q6
  else
    Ok nan.

(* pyXSteam/XSteam.py:616-638, XSteam.vV_t *)
Definition vV_t (us : unit_system) (t : num) : res num :=
  let* T := toSIunit_T us t in
  if ((T >? #273.15) && (T <? #647.096))%num then
    if (T <=? #623.15)%num then
      let* q2 := p4_T T in
      let* q3 := v2_pT q2 T in
      fromSIunit_v us q3
    else
      let* q5 := p4_T T in
      let* q6 := p4_T T in
      let* q7 := h4V_p q6 in
      let* q8 := v3_ph q5 q7 in
      fromSIunit_v us q8
  else
    Ok nan.

(* pyXSteam/XSteam.py:640-662, XSteam.vL_t *)
Definition vL_t (us : unit_system) (t : num) : res num :=
  let* T := toSIunit_T us t in
  if ((T >? #273.15) && (T <? #647.096))%num then
    if (T <=? #623.15)%num then
      let* q2 := p4_T T in
      let* q3 := v1_pT q2 T in
      fromSIunit_v us q3
    else
      let* q5 := p4_T T in
      let* q6 := p4_T T in
      let* q7 := h4L_p q6 in
      let* q8 := v3_ph q5 q7 in
      fromSIunit_v us q8
  else
    Ok nan.

(* pyXSteam/XSteam.py:747-789, XSteam.v_ps *)
Definition v_ps (us : unit_system) (p s : num) : res num :=
  let* p := toSIunit_p us p in
  let* s := toSIunit_s us s in
  let* region := region_ps p s in
  if (Z.eqb region 1)%num then
    let* q4 := T1_ps p s in
    let* q5 := v1_pT p q4 in
    fromSIunit_v us q5
  else
    if (Z.eqb region 2)%num then
      let* q7 := T2_ps p s in
      let* q8 := v2_pT p q7 in
      fromSIunit_v us q8
    else
      if (Z.eqb region 3)%num then
        let* q10 := v3_ps p s in
        fromSIunit_v us q10
      else
        if (Z.eqb region 4)%num then
          let* xs := x4_ps p s in
          let* (v4v, v4L) :=
              if (p <? #16.529)%num then
                let* q13 := T4_p p in
                let* v4v := v2_pT p q13 in
                let* q15 := T4_p p in
                let* v4L := v1_pT p q15 in
                Ok (v4v, v4L)
              else
                let* q17 := h4V_p p in
                let* v4v := v3_ph p q17 in
                let* q19 := h4L_p p in
                let* v4L := v3_ph p q19 in
                Ok (v4v, v4L) in
          fromSIunit_v us (xs * v4v + (#1 - xs) * v4L)
        else
          if (Z.eqb region 5)%num then
            let* Ts := T5_ps p s in
            let* q23 := v5_pT p Ts in
            fromSIunit_v us q23
          else
            Ok nan.

(* pyXSteam/XSteam.py:794-803, XSteam.rhoV_p *)
Definition rhoV_p (us : unit_system) (p : num) : res num :=
  let* q1 := vV_p us p in
  div #1 q1.

(* pyXSteam/XSteam.py:805-814, XSteam.rhoL_p *)
Definition rhoL_p (us : unit_system) (p : num) : res num :=
  let* q1 := vL_p us p in
  div #1 q1.

(* pyXSteam/XSteam.py:816-825, XSteam.rhoV_t *)
Definition rhoV_t (us : unit_system) (t : num) : res num :=
  let* q1 := vV_t us t in
  div #1 q1.

(* pyXSteam/XSteam.py:827-836, XSteam.rhoL_t *)
Definition rhoL_t (us : unit_system) (t : num) : res num :=
  let* q1 := vL_t us t in
  div #1 q1.

(* pyXSteam/XSteam.py:838-848, XSteam.rho_pt *)
Definition rho_pt (us : unit_system) (p t : num) : res num :=
  let* q1 := v_pt us p t in
  div #1 q1.

(* pyXSteam/XSteam.py:850-860, XSteam.rho_ph *)
Definition rho_ph (us : unit_system) (p h : num) : res num :=
  let* q1 := v_ph us p h in
  div #1 q1.

(* pyXSteam/XSteam.py:862-872, XSteam.rho_ps *)
Definition rho_ps (us : unit_system) (p s : num) : res num :=
  let* q1 := v_ps us p s in
  div #1 q1.

(* pyXSteam/XSteam.py:876-899, XSteam.sV_p *)
Definition sV_p (us : unit_system) (p : num) : res num :=
  let* p := toSIunit_p us p in
  if ((p >? #0.000611657) && (p <? #22.06395))%num then
    if (p <? #16.529)%num then
      let* q2 := T4_p p in
      let* q3 := s2_pT p q2 in
      fromSIunit_s us q3
    else
      let* q5 := h4V_p p in
      let* q6 := v3_ph p q5 in
      let* q7 := div #1 q6 in
      let* q8 := T4_p p in
      let* q9 := s3_rhoT q7 q8 in
      fromSIunit_s us q9
  else
    Ok nan.

(* pyXSteam/XSteam.py:901-924, XSteam.sL_p *)
Definition sL_p (us : unit_system) (p : num) : res num :=
  let* p := toSIunit_p us p in
  if ((p >? #0.000611657) && (p <? #22.06395))%num then
    if (p <? #16.529)%num then
      let* q2 := T4_p p in
      let* q3 := s1_pT p q2 in
      fromSIunit_s us q3
    else
      let* q5 := h4L_p p in
      let* q6 := v3_ph p q5 in
      let* q7 := div #1 q6 in
      let* q8 := T4_p p in
      let* q9 := s3_rhoT q7 q8 in
      fromSIunit_s us q9
  else
    Ok nan.

(* pyXSteam/XSteam.py:926-955, XSteam.sV_t *)
Definition sV_t (us : unit_system) (t : num) : res num :=
  let* T := toSIunit_T us t in
  if ((T >? #273.15) && (T <? #647.096))%num then
    if (T <=? #623.15)%num then
      let* q2 := p4_T T in
      let* q3 := s2_pT q2 T in
      fromSIunit_s us q3
    else
      let* q5 := p4_T T in
      let* q6 := p4_T T in
      let* q7 := h4V_p q6 in
      let* q8 := v3_ph q5 q7 in
      let* q9 := div #1 q8 in
      let* q10 := s3_rhoT q9 T in
      fromSIunit_s us q10
  else
    Ok nan.

(* pyXSteam/XSteam.py:957-986, XSteam.sL_t *)
Definition sL_t (us : unit_system) (t : num) : res num :=
  let* T := toSIunit_T us t in
  if ((T >? #273.15) && (T <? #647.096))%num then
    if (T <=? #623.15)%num then
      let* q2 := p4_T T in
      let* q3 := s1_pT q2 T in
      fromSIunit_s us q3
    else
      let* q5 := p4_T T in
      let* q6 := p4_T T in
      let* q7 := h4L_p q6 in
      let* q8 := v3_ph q5 q7 in
      let* q9 := div #1 q8 in
      let* q10 := s3_rhoT q9 T in
      fromSIunit_s us q10
  else
    Ok nan.

(* pyXSteam/XSteam.py:988-1023, XSteam.s_pt *)
Definition s_pt (us : unit_system) (p t : num) : res num :=
  let* p := toSIunit_p us p in
  let* T := toSIunit_T us t in
  let* region := region_pT p T in
  if (Z.eqb region 1)%num then
    let* q4 := s1_pT p T in
    fromSIunit_s us q4
  else
    if (Z.eqb region 2)%num then
      let* q6 := s2_pT p T in
      fromSIunit_s us q6
    else
      if (Z.eqb region 3)%num then
        let* hs := h3_pT p T in
        let* q9 := v3_ph p hs in
        let* rhos := div #1 q9 in
        let* q11 := s3_rhoT rhos T in
        fromSIunit_s us q11
      else
        if (Z.eqb region 4)%num then
          Ok nan
        else
          if (Z.eqb region 5)%num then
            let* q13 := s5_pT p T in
            fromSIunit_s us q13
          else
            Ok nan.

(* pyXSteam/XSteam.py:1025-1070, XSteam.s_ph *)
Definition s_ph (us : unit_system) (p h : num) : res num :=
  let* p := toSIunit_p us p in
  let* h := toSIunit_h us h in
  let* region := region_ph p h in
  if (Z.eqb region 1)%num then
    let* T := T1_ph p h in
    let* q5 := s1_pT p T in
    fromSIunit_s us q5
  else
    if (Z.eqb region 2)%num then
      let* T := T2_ph p h in
      let* q8 := s2_pT p T in
      fromSIunit_s us q8
    else
      if (Z.eqb region 3)%num then
        let* q10 := v3_ph p h in
        let* rhos := div #1 q10 in
        let* Ts := T3_ph p h in
        let* q13 := s3_rhoT rhos Ts in
        fromSIunit_s us q13
      else
        if (Z.eqb region 4)%num then
          let* Ts := T4_p p in
          let* xs := x4_ph p h in
          let* (s4v, s4L) :=
              if (p <? #16.529)%num then
                let* s4v := s2_pT p Ts in
                let* s4L := s1_pT p Ts in
                Ok (s4v, s4L)
              else
                let* q19 := h4V_p p in
                let* v4v := v3_ph p q19 in
                let* q21 := div #1 v4v in
                let* s4v := s3_rhoT q21 Ts in
                let* q23 := h4L_p p in
                let* v4L := v3_ph p q23 in
                let* q25 := div #1 v4L in
                let* s4L := s3_rhoT q25 Ts in
                Ok (s4v, s4L) in
          fromSIunit_s us (xs * s4v + (#1 - xs) * s4L)
        else
          if (Z.eqb region 5)%num then
            let* T := T5_ph p h in
            let* q29 := s5_pT p T in
            fromSIunit_s us q29
          else
            Ok nan.

(* pyXSteam/XSteam.py:1074-1096, XSteam.uV_p *)
Definition uV_p (us : unit_system) (p : num) : res num :=
  let* p := toSIunit_p us p in
  if ((p >? #0.000611657) && (p <? #22.06395))%num then
    if (p <? #16.529)%num then
      let* q2 := T4_p p in
      let* q3 := u2_pT p q2 in
      fromSIunit_u us q3
    else
      let* q5 := h4V_p p in
      let* q6 := v3_ph p q5 in
      let* q7 := div #1 q6 in
      let* q8 := T4_p p in
      let* q9 := u3_rhoT q7 q8 in
      fromSIunit_u us q9
  else
    Ok nan.

(* pyXSteam/XSteam.py:1098-1121, XSteam.uL_p *)
Definition uL_p (us : unit_system) (p : num) : res num :=
  let* p := toSIunit_p us p in
  if ((p >? #0.000611657) && (p <? #22.06395))%num then
    if (p <? #16.529)%num then
      let* q2 := T4_p p in
      let* q3 := u1_pT p q2 in
      fromSIunit_u us q3
    else
      let* q5 := h4L_p p in
      let* q6 := v3_ph p q5 in
      let* q7 := div #1 q6 in
      let* q8 := T4_p p in
      let* q9 := u3_rhoT q7 q8 in
      fromSIunit_u us q9
  else
    Ok nan.

(* pyXSteam/XSteam.py:1123-1152, XSteam.uV_t *)
Definition uV_t (us : unit_system) (t : num) : res num :=
  let* T := toSIunit_T us t in
  if ((T >? #273.15) && (T <? #647.096))%num then
    if (T <=? #623.15)%num then
      let* q2 := p4_T T in
      let* q3 := u2_pT q2 T in
      fromSIunit_u us q3
    else
      let* q5 := p4_T T in
      let* q6 := p4_T T in
      let* q7 := h4V_p q6 in
      let* q8 := v3_ph q5 q7 in
      let* q9 := div #1 q8 in
      let* q10 := u3_rhoT q9 T in
      fromSIunit_u us q10
  else
    Ok nan.

(* pyXSteam/XSteam.py:1154-1183, XSteam.uL_t *)
Definition uL_t (us : unit_system) (t : num) : res num :=
  let* T := toSIunit_T us t in
  if ((T >? #273.15) && (T <? #647.096))%num then
    if (T <=? #623.15)%num then
      let* q2 := p4_T T in
      let* q3 := u1_pT q2 T in
      fromSIunit_u us q3
    else
      let* q5 := p4_T T in
      let* q6 := p4_T T in
      let* q7 := h4L_p q6 in
      let* q8 := v3_ph q5 q7 in
      let* q9 := div #1 q8 in
      let* q10 := u3_rhoT q9 T in
      fromSIunit_u us q10
  else
    Ok nan.

(* pyXSteam/XSteam.py:1185-1222, XSteam.u_pt *)
Definition u_pt (us : unit_system) (p t : num) : res num :=
  let* p := toSIunit_p us p in
  let* T := toSIunit_T us t in
  let* region := region_pT p T in
  if (Z.eqb region 1)%num then
    let* q4 := u1_pT p T in
    fromSIunit_u us q4
  else
    if (Z.eqb region 2)%num then
      let* q6 := u2_pT p T in
      fromSIunit_u us q6
    else
      if (Z.eqb region 3)%num then
        let* hs := h3_pT p T in
        let* q9 := v3_ph p hs in
        let* rhos := div #1 q9 in
        let* q11 := u3_rhoT rhos T in
        fromSIunit_u us q11
      else
        if (Z.eqb region 4)%num then
          Ok nan
        else
          if (Z.eqb region 5)%num then
            let* q13 := u5_pT p T in
            fromSIunit_u us q13
          else
            Ok nan.

(* pyXSteam/XSteam.py:1224-1269, XSteam.u_ph *)
Definition u_ph (us : unit_system) (p h : num) : res num :=
  let* p := toSIunit_p us p in
  let* h := toSIunit_h us h in
  let* region := region_ph p h in
  if (Z.eqb region 1)%num then
    let* Ts := T1_ph p h in
    let* q5 := u1_pT p Ts in
    fromSIunit_u us q5
  else
    if (Z.eqb region 2)%num then
      let* Ts := T2_ph p h in
      let* q8 := u2_pT p Ts in
      fromSIunit_u us q8
    else
      if (Z.eqb region 3)%num then
        let* q10 := v3_ph p h in
        let* rhos := div #1 q10 in
        let* Ts := T3_ph p h in
        let* q13 := u3_rhoT rhos Ts in
        fromSIunit_u us q13
      else
        if (Z.eqb region 4)%num then
          let* Ts := T4_p p in
          let* xs := x4_ph p h in
          let* (u4v, u4L) :=
              if (p <? #16.529)%num then
                let* u4v := u2_pT p Ts in
                let* u4L := u1_pT p Ts in
                Ok (u4v, u4L)
              else
                let* q19 := h4V_p p in
                let* v4v := v3_ph p q19 in
                let* q21 := div #1 v4v in
                let* u4v := u3_rhoT q21 Ts in
                let* q23 := h4L_p p in
                let* v4L := v3_ph p q23 in
                let* q25 := div #1 v4L in
                let* u4L := u3_rhoT q25 Ts in
                Ok (u4v, u4L) in
          fromSIunit_u us (xs * u4v + (#1 - xs) * u4L)
        else
          if (Z.eqb region 5)%num then
            let* Ts := T5_ph p h in
            let* q29 := u5_pT p Ts in
            fromSIunit_u us q29
          else
            Ok nan.

(* pyXSteam/XSteam.py:1271-1317, XSteam.u_ps *)
Definition u_ps (us : unit_system) (p s : num) : res num :=
  let* p := toSIunit_p us p in
  let* s := toSIunit_s us s in
  let* region := region_ps p s in
  if (Z.eqb region 1)%num then
    let* Ts := T1_ps p s in
    let* q5 := u1_pT p Ts in
    fromSIunit_u us q5
  else
    if (Z.eqb region 2)%num then
      let* Ts := T2_ps p s in
      let* q8 := u2_pT p Ts in
      fromSIunit_u us q8
    else
      if (Z.eqb region 3)%num then
        let* q10 := v3_ps p s in
        let* rhos := div #1 q10 in
        let* Ts := T3_ps p s in
        let* q13 := u3_rhoT rhos Ts in
        fromSIunit_u us q13
      else
        if (Z.eqb region 4)%num then
          let* (uLp, uVp) :=
              if (p <? #16.529)%num then
                let* q15 := T4_p p in
                let* uLp := u1_pT p q15 in
                let* q17 := T4_p p in
                let* uVp := u2_pT p q17 in
                Ok (uLp, uVp)
              else
                let* q19 := h4L_p p in
                let* q20 := v3_ph p q19 in
                let* q21 := div #1 q20 in
                let* q22 := T4_p p in
                let* uLp := u3_rhoT q21 q22 in
                let* q24 := h4V_p p in
                let* q25 := v3_ph p q24 in
                let* q26 := div #1 q25 in
                let* q27 := T4_p p in
                let* uVp := u3_rhoT q26 q27 in
                Ok (uLp, uVp) in
          let* xs := x4_ps p s in
          fromSIunit_u us (xs * uVp + (#1 - xs) * uLp)
        else
          if (Z.eqb region 5)%num then
            let* Ts := T5_ps p s in
            let* q32 := u5_pT p Ts in
            fromSIunit_u us q32
          else
            Ok nan.

(* pyXSteam/XSteam.py:1321-1344, XSteam.CpV_p *)
Definition CpV_p (us : unit_system) (p : num) : res num :=
  let* p := toSIunit_p us p in
  if ((p >? #0.000611657) && (p <? #22.06395))%num then
    if (p <? #16.529)%num then
      let* q2 := T4_p p in
      let* q3 := Cp2_pT p q2 in
      fromSIunit_Cp us q3
    else
      let* q5 := h4V_p p in
      let* q6 := v3_ph p q5 in
      let* q7 := div #1 q6 in
      let* q8 := T4_p p in
      let* q9 := Cp3_rhoT q7 q8 in
      fromSIunit_Cp us q9
  else
    Ok nan.

(* pyXSteam/XSteam.py:1346-1369, XSteam.CpL_p *)
Definition CpL_p (us : unit_system) (p : num) : res num :=
  let* p := toSIunit_p us p in
  if ((p >? #0.000611657) && (p <? #22.06395))%num then
    if (p <? #16.529)%num then
      let* q2 := T4_p p in
      let* q3 := Cp1_pT p q2 in
      fromSIunit_Cp us q3
    else
      let* q5 := h4L_p p in
      let* q6 := v3_ph p q5 in
      let* q7 := div #1 q6 in
      let* q8 := T4_p p in
      let* q9 := Cp3_rhoT q7 q8 in
      fromSIunit_Cp us q9
  else
    Ok nan.

(* pyXSteam/XSteam.py:1371-1400, XSteam.CpV_t *)
Definition CpV_t (us : unit_system) (t : num) : res num :=
  let* T := toSIunit_T us t in
  if ((T >? #273.15) && (T <? #647.096))%num then
    if (T <=? #623.15)%num then
      let* q2 := p4_T T in
      let* q3 := Cp2_pT q2 T in
      fromSIunit_Cp us q3
    else
      let* q5 := p4_T T in
      let* q6 := p4_T T in
      let* q7 := h4V_p q6 in
      let* q8 := v3_ph q5 q7 in
      let* q9 := div #1 q8 in
      let* q10 := Cp3_rhoT q9 T in
      fromSIunit_Cp us q10
  else
    Ok nan.

(* pyXSteam/XSteam.py:1402-1431, XSteam.CpL_t *)
Definition CpL_t (us : unit_system) (t : num) : res num :=
  let* T := toSIunit_T us t in
  if ((T >? #273.15) && (T <? #647.096))%num then
    if (T <=? #623.15)%num then
      let* q2 := p4_T T in
      let* q3 := Cp1_pT q2 T in
      fromSIunit_Cp us q3
    else
      let* q5 := p4_T T in
      let* q6 := p4_T T in
      let* q7 := h4L_p q6 in
      let* q8 := v3_ph q5 q7 in
      let* q9 := div #1 q8 in
      let* q10 := Cp3_rhoT q9 T in
      fromSIunit_Cp us q10
  else
    Ok nan.

(* pyXSteam/XSteam.py:1514-1554, XSteam.Cp_ps *)
Definition Cp_ps (us : unit_system) (p s : num) : res num :=
  let* p := toSIunit_p us p in
  let* s := toSIunit_s us s in
  let* region := region_ps p s in
  if (Z.eqb region 1)%num then
    let* Ts := T1_ps p s in
    let* q5 := Cp1_pT p Ts in
    fromSIunit_Cp us q5
  else
    if (Z.eqb region 2)%num then
      let* Ts := T2_ps p s in
      let* q8 := Cp2_pT p Ts in
      fromSIunit_Cp us q8
    else
      if (Z.eqb region 3)%num then
        let* q10 := v3_ps p s in
        let* rhos := div #1 q10 in
        let* Ts := T3_ps p s in
        let* q13 := Cp3_rhoT rhos Ts in
        fromSIunit_Cp us q13
      else
        if (Z.eqb region 4)%num then
          Ok nan
        else
          if (Z.eqb region 5)%num then
            let* Ts := T5_ps p s in
            let* q16 := Cp5_pT p Ts in
            fromSIunit_Cp us q16
          else
            Ok nan.

(* pyXSteam/XSteam.py:1558-1581, XSteam.CvV_p *)
Definition CvV_p (us : unit_system) (p : num) : res num :=
  let* p := toSIunit_p us p in
  if ((p >? #0.000611657) && (p <? #22.06395))%num then
    if (p <? #16.529)%num then
      let* q2 := T4_p p in
      let* q3 := Cv2_pT p q2 in
      fromSIunit_Cv us q3
    else
      let* q5 := h4V_p p in
      let* q6 := v3_ph p q5 in
      let* q7 := div #1 q6 in
      let* q8 := T4_p p in
      let* q9 := Cv3_rhoT q7 q8 in
      fromSIunit_Cv us q9
  else
    Ok nan.

(* pyXSteam/XSteam.py:1583-1606, XSteam.CvL_p *)
Definition CvL_p (us : unit_system) (p : num) : res num :=
  let* p := toSIunit_p us p in
  if ((p >? #0.000611657) && (p <? #22.06395))%num then
    if (p <? #16.529)%num then
      let* q2 := T4_p p in
      let* q3 := Cv1_pT p q2 in
      fromSIunit_Cv us q3
    else
      let* q5 := h4L_p p in
      let* q6 := v3_ph p q5 in
      let* q7 := div #1 q6 in
      let* q8 := T4_p p in
      let* q9 := Cv3_rhoT q7 q8 in
      fromSIunit_Cv us q9
  else
    Ok nan.

(* pyXSteam/XSteam.py:1608-1637, XSteam.CvV_t *)
Definition CvV_t (us : unit_system) (t : num) : res num :=
  let* T := toSIunit_T us t in
  if ((T >? #273.15) && (T <? #647.096))%num then
    if (T <=? #623.15)%num then
      let* q2 := p4_T T in
      let* q3 := Cv2_pT q2 T in
      fromSIunit_Cv us q3
    else
      let* q5 := p4_T T in
      let* q6 := p4_T T in
      let* q7 := h4V_p q6 in
      let* q8 := v3_ph q5 q7 in
      let* q9 := div #1 q8 in
      let* q10 := Cv3_rhoT q9 T in
      fromSIunit_Cv us q10
  else
    Ok nan.

(* pyXSteam/XSteam.py:1639-1668, XSteam.CvL_t *)
Definition CvL_t (us : unit_system) (t : num) : res num :=
  let* T := toSIunit_T us t in
  if ((T >? #273.15) && (T <? #647.096))%num then
    if (T <=? #623.15)%num then
      let* q2 := p4_T T in
      let* q3 := Cv1_pT q2 T in
      fromSIunit_Cv us q3
    else
      let* q5 := p4_T T in
      let* q6 := p4_T T in
      let* q7 := h4L_p q6 in
      let* q8 := v3_ph q5 q7 in
      let* q9 := div #1 q8 in
      let* q10 := Cv3_rhoT q9 T in
      fromSIunit_Cv us q10
  else
    Ok nan.

(* pyXSteam/XSteam.py:1670-1707, XSteam.Cv_pt *)
Definition Cv_pt (us : unit_system) (p t : num) : res num :=
  let* p := toSIunit_p us p in
  let* T := toSIunit_T us t in
  let* region := region_pT p T in
  if (Z.eqb region 1)%num then
    let* q4 := Cv1_pT p T in
    fromSIunit_Cv us q4
  else
    if (Z.eqb region 2)%num then
      let* q6 := Cv2_pT p T in
      fromSIunit_Cv us q6
    else
      if (Z.eqb region 3)%num then
        let* hs := h3_pT p T in
        let* q9 := v3_ph p hs in
        let* rhos := div #1 q9 in
        let* q11 := Cv3_rhoT rhos T in
        fromSIunit_Cv us q11
      else
        if (Z.eqb region 4)%num then
          Ok nan
        else
          if (Z.eqb region 5)%num then
            let* q13 := Cv5_pT p T in
            fromSIunit_Cv us q13
          else
            Ok nan.

(* pyXSteam/XSteam.py:1709-1749, XSteam.Cv_ph *)
Definition Cv_ph (us : unit_system) (p h : num) : res num :=
  let* p := toSIunit_p us p in
  let* h := toSIunit_h us h in
  let* region := region_ph p h in
  if (Z.eqb region 1)%num then
    let* Ts := T1_ph p h in
    let* q5 := Cv1_pT p Ts in
    fromSIunit_Cv us q5
  else
    if (Z.eqb region 2)%num then
      let* Ts := T2_ph p h in
      let* q8 := Cv2_pT p Ts in
      fromSIunit_Cv us q8
    else
      if (Z.eqb region 3)%num then
        let* q10 := v3_ph p h in
        let* rhos := div #1 q10 in
        let* Ts := T3_ph p h in
        let* q13 := Cv3_rhoT rhos Ts in
        fromSIunit_Cv us q13
      else
        if (Z.eqb region 4)%num then
          Ok nan
        else
          if (Z.eqb region 5)%num then
            let* Ts := T5_ph p h in
            let* q16 := Cv5_pT p Ts in
            fromSIunit_Cv us q16
          else
            Ok nan.

(* pyXSteam/XSteam.py:1751-1792, XSteam.Cv_ps *)
Definition Cv_ps (us : unit_system) (p s : num) : res num :=
  let* p := toSIunit_p us p in
  let* s := toSIunit_s us s in
  let* region := region_ps p s in
  if (Z.eqb region 1)%num then
    let* Ts := T1_ps p s in
    let* q5 := Cv1_pT p Ts in
    fromSIunit_Cv us q5
  else
    if (Z.eqb region 2)%num then
      let* Ts := T2_ps p s in
      let* q8 := Cv2_pT p Ts in
      fromSIunit_Cv us q8
    else
      if (Z.eqb region 3)%num then
        let* q10 := v3_ps p s in
        let* rhos := div #1 q10 in
        let* Ts := T3_ps p s in
        let* q13 := Cv3_rhoT rhos Ts in
        fromSIunit_Cv us q13
      else
        if (Z.eqb region 4)%num then
          Ok nan
        else
          if (Z.eqb region 5)%num then
            let* Ts := T5_ps p s in
            let* q16 := Cv5_pT p Ts in
            fromSIunit_Cv us q16
          else
            Ok nan.

(* pyXSteam/XSteam.py:1796-1819, XSteam.wV_p *)
Definition wV_p (us : unit_system) (p : num) : res num :=
  let* p := toSIunit_p us p in
  if ((p >? #0.000611657) && (p <? #22.06395))%num then
    if (p <? #16.529)%num then
      let* q2 := T4_p p in
      let* q3 := w2_pT p q2 in
      fromSIunit_w us q3
    else
      let* q5 := h4V_p p in
      let* q6 := v3_ph p q5 in
      let* q7 := div #1 q6 in
      let* q8 := T4_p p in
      let* q9 := w3_rhoT q7 q8 in
      fromSIunit_w us q9
  else
    Ok nan.

(* pyXSteam/XSteam.py:1821-1844, XSteam.wL_p *)
Definition wL_p (us : unit_system) (p : num) : res num :=
  let* p := toSIunit_p us p in
  if ((p >? #0.000611657) && (p <? #22.06395))%num then
    if (p <? #16.529)%num then
      let* q2 := T4_p p in
      let* q3 := w1_pT p q2 in
      fromSIunit_w us q3
    else
      let* q5 := h4L_p p in
      let* q6 := v3_ph p q5 in
      let* q7 := div #1 q6 in
      let* q8 := T4_p p in
      let* q9 := w3_rhoT q7 q8 in
      fromSIunit_w us q9
  else
    Ok nan.

(* pyXSteam/XSteam.py:1846-1875, XSteam.wV_t *)
Definition wV_t (us : unit_system) (t : num) : res num :=
  let* T := toSIunit_T us t in
  if ((T >? #273.15) && (T <? #647.096))%num then
    if (T <=? #623.15)%num then
      let* q2 := p4_T T in
      let* q3 := w2_pT q2 T in
      fromSIunit_w us q3
    else
      let* q5 := p4_T T in
      let* q6 := p4_T T in
      let* q7 := h4V_p q6 in
      let* q8 := v3_ph q5 q7 in
      let* q9 := div #1 q8 in
      let* q10 := w3_rhoT q9 T in
      fromSIunit_w us q10
  else
    Ok nan.

(* pyXSteam/XSteam.py:1877-1906, XSteam.wL_t *)
Definition wL_t (us : unit_system) (t : num) : res num :=
  let* T := toSIunit_T us t in
  if ((T >? #273.15) && (T <? #647.096))%num then
    if (T <=? #623.15)%num then
      let* q2 := p4_T T in
      let* q3 := w1_pT q2 T in
      fromSIunit_w us q3
    else
      let* q5 := p4_T T in
      let* q6 := p4_T T in
      let* q7 := h4L_p q6 in
      let* q8 := v3_ph q5 q7 in
      let* q9 := div #1 q8 in
      let* q10 := w3_rhoT q9 T in
      fromSIunit_w us q10
  else
    Ok nan.

(* pyXSteam/XSteam.py:1908-1945, XSteam.w_pt *)
Definition w_pt (us : unit_system) (p t : num) : res num :=
  let* p := toSIunit_p us p in
  let* T := toSIunit_T us t in
  let* region := region_pT p T in
  if (Z.eqb region 1)%num then
    let* q4 := w1_pT p T in
    fromSIunit_w us q4
  else
    if (Z.eqb region 2)%num then
      let* q6 := w2_pT p T in
      fromSIunit_w us q6
    else
      if (Z.eqb region 3)%num then
        let* hs := h3_pT p T in
        let* q9 := v3_ph p hs in
        let* rhos := div #1 q9 in
        let* q11 := w3_rhoT rhos T in
        fromSIunit_w us q11
      else
        if (Z.eqb region 4)%num then
          Ok nan
        else
          if (Z.eqb region 5)%num then
            let* q13 := w5_pT p T in
            fromSIunit_w us q13
          else
            Ok nan.

(* pyXSteam/XSteam.py:1947-1985, XSteam.w_ph *)
Definition w_ph (us : unit_system) (p h : num) : res num :=
  let* p := toSIunit_p us p in
  let* h := toSIunit_h us h in
  let* region := region_ph p h in
  if (Z.eqb region 1)%num then
    let* Ts := T1_ph p h in
    let* q5 := w1_pT p Ts in
    fromSIunit_w us q5
  else
    if (Z.eqb region 2)%num then
      let* Ts := T2_ph p h in
      let* q8 := w2_pT p Ts in
      fromSIunit_w us q8
    else
      if (Z.eqb region 3)%num then
        let* q10 := v3_ph p h in
        let* rhos := div #1 q10 in
        let* Ts := T3_ph p h in
        let* q13 := w3_rhoT rhos Ts in
        fromSIunit_w us q13
      else
        if (Z.eqb region 4)%num then
          Ok nan
        else
          if (Z.eqb region 5)%num then
            let* Ts := T5_ph p h in
            let* q16 := w5_pT p Ts in
            fromSIunit_w us q16
          else
            Ok nan.

(* pyXSteam/XSteam.py:1987-2028, XSteam.w_ps *)
Definition w_ps (us : unit_system) (p s : num) : res num :=
  let* p := toSIunit_p us p in
  let* s := toSIunit_s us s in
  let* region := region_ps p s in
  if (Z.eqb region 1)%num then
    let* Ts := T1_ps p s in
    let* q5 := w1_pT p Ts in
    fromSIunit_w us q5
  else
    if (Z.eqb region 2)%num then
      let* Ts := T2_ps p s in
      let* q8 := w2_pT p Ts in
      fromSIunit_w us q8
    else
      if (Z.eqb region 3)%num then
        let* q10 := v3_ps p s in
        let* rhos := div #1 q10 in
        let* Ts := T3_ps p s in
        let* q13 := w3_rhoT rhos Ts in
        fromSIunit_w us q13
      else
        if (Z.eqb region 4)%num then
          Ok nan
        else
          if (Z.eqb region 5)%num then
            let* Ts := T5_ps p s in
            let* q16 := w5_pT p Ts in
            fromSIunit_w us q16
          else
            Ok nan.

(* pyXSteam/XSteam.py:2101-2112, XSteam.my_ps *)
Definition my_ps (us : unit_system) (p s : num) : res num :=
  let* h := h_ps us p s in
  my_ph us p h.

(* pyXSteam/XSteam.py:2116-2129, XSteam.pr_pt *)
Definition pr_pt (us : unit_system) (p t : num) : res num :=
  let* q1 := Cp_pt us p t in
  let* Cp := toSIunit_Cp us q1 in
  let* q3 := my_pt us p t in
  let* my := toSIunit_my us q3 in
  let* q5 := tc_pt us p t in
  let* tc := toSIunit_tc us q5 in
  div (Cp * #1000 * my) tc.

(* pyXSteam/XSteam.py:2131-2144, XSteam.pr_ph *)
Definition pr_ph (us : unit_system) (p h : num) : res num :=
  let* q1 := Cp_ph us p h in
  let* Cp := toSIunit_Cp us q1 in
  let* q3 := my_ph us p h in
  let* my := toSIunit_my us q3 in
  let* q5 := tc_ph us p h in
  let* tc := toSIunit_tc us q5 in
  div (Cp * #1000 * my) tc.

(* pyXSteam/XSteam.py:2148-2160, XSteam.st_t *)
Definition st_t (us : unit_system) (t : num) : res num :=
  let* T := toSIunit_T us t in
  let* q2 := Surface_Tension_T T in
  fromSIunit_st us q2.

(* pyXSteam/XSteam.py:2162-2175, XSteam.st_p *)
Definition st_p (us : unit_system) (p : num) : res num :=
  let* T := tsat_p us p in
  let* T := toSIunit_T us T in
  let* q3 := Surface_Tension_T T in
  fromSIunit_st us q3.

(* pyXSteam/XSteam.py:2180-2197, XSteam.tcL_p *)
Definition tcL_p (us : unit_system) (p : num) : res num :=
  let* t := tsat_p us p in
  let* v := vL_p us p in
  let* p := toSIunit_p us p in
  let* T := toSIunit_T us t in
  let* v := toSIunit_v us v in
  let* rho := div #1.0 v in
  let* q7 := tc_ptrho p T rho in
  fromSIunit_tc us q7.

(* pyXSteam/XSteam.py:2199-2217, XSteam.tcV_p *)
Definition tcV_p (us : unit_system) (p : num) : res num :=
  let ps := p in
  let* T := tsat_p us p in
  let* v := vV_p us ps in
  let* p := toSIunit_p us p in
  let* T := toSIunit_T us T in
  let* v := toSIunit_v us v in
  let* rho := div #1.0 v in
  let* q7 := tc_ptrho p T rho in
  fromSIunit_tc us q7.

(* pyXSteam/XSteam.py:2219-2237, XSteam.tcL_t *)
Definition tcL_t (us : unit_system) (t : num) : res num :=
  let Ts := t in
  let* p := psat_t us Ts in
  let* v := vL_t us Ts in
  let* p := toSIunit_p us p in
  let* T := toSIunit_T us Ts in
  let* v := toSIunit_v us v in
  let* rho := div #1 v in
  let* q7 := tc_ptrho p T rho in
  fromSIunit_tc us q7.

(* pyXSteam/XSteam.py:2239-2257, XSteam.tcV_t *)
Definition tcV_t (us : unit_system) (t : num) : res num :=
  let Ts := t in
  let* p := psat_t us Ts in
  let* v := vV_t us Ts in
  let* p := toSIunit_p us p in
  let* T := toSIunit_T us Ts in
  let* v := toSIunit_v us v in
  let* rho := div #1 v in
  let* q7 := tc_ptrho p T rho in
  fromSIunit_tc us q7.

(* pyXSteam/XSteam.py:2304-2325, XSteam.tc_hs *)
Definition tc_hs (us : unit_system) (h s : num) : res num :=
  let hs := h in
  let* p := p_hs us hs s in
  let ps := p in
  let* v := v_ph us ps hs in
  let* T := t_ph us ps hs in
  let* p := toSIunit_p us p in
  let* T := toSIunit_T us T in
  let* v := toSIunit_v us v in
  let* rho := div #1 v in
  let* q8 := tc_ptrho p T rho in
  fromSIunit_tc us q8.

(* pyXSteam/XSteam.py:2329-2345, XSteam.x_ph *)
Definition x_ph (us : unit_system) (p h : num) : res num :=
  let* p := toSIunit_p us p in
  let* h := toSIunit_h us h in
  if ((p >? #0.000611657) && (p <? #22.06395))%num then
    let* q3 := x4_ph p h in
    fromSIunit_x us q3
  else
    Ok nan.

(* pyXSteam/XSteam.py:2347-2363, XSteam.x_ps *)
Definition x_ps (us : unit_system) (p s : num) : res num :=
  let* p := toSIunit_p us p in
  let* s := toSIunit_s us s in
  if ((p >? #0.000611657) && (p <? #22.06395))%num then
    let* q3 := x4_ps p s in
    fromSIunit_x us q3
  else
    Ok nan.

(* pyXSteam/XSteam.py:2367-2392, XSteam.vx_ph *)
Definition vx_ph (us : unit_system) (p h : num) : res num :=
  let* p := toSIunit_p us p in
  let* h := toSIunit_h us h in
  if ((p >? #0.000611657) && (p <? #22.06395))%num then
    let* (vL, vV) :=
        if (p <? #16.529)%num then
          let* q3 := T4_p p in
          let* vL := v1_pT p q3 in
          let* q5 := T4_p p in
          let* vV := v2_pT p q5 in
          Ok (vL, vV)
        else
          let* q7 := h4L_p p in
          let* vL := v3_ph p q7 in
          let* q9 := h4V_p p in
          let* vV := v3_ph p q9 in
          Ok (vL, vV) in
    let* xs := x4_ph p h in
    let* q12 := div (xs * vV) (xs * vV + (#1 - xs) * vL) in
    fromSIunit_vx us q12
  else
    Ok nan.

(* pyXSteam/XSteam.py:2394-2419, XSteam.vx_ps *)
Definition vx_ps (us : unit_system) (p s : num) : res num :=
  let* p := toSIunit_p us p in
  let* s := toSIunit_s us s in
  if ((p >? #0.000611657) && (p <? #22.06395))%num then
    let* (vL, vV) :=
        if (p <? #16.529)%num then
          let* q3 := T4_p p in
          let* vL := v1_pT p q3 in
          let* q5 := T4_p p in
          let* vV := v2_pT p q5 in
          Ok (vL, vV)
        else
          let* q7 := h4L_p p in
          let* vL := v3_ph p q7 in
          let* q9 := h4V_p p in
          let* vV := v3_ph p q9 in
          Ok (vL, vV) in
    let* xs := x4_ps p s in
    let* q12 := div (xs * vV) (xs * vV + (#1 - xs) * vL) in
    fromSIunit_vx us q12
  else
    Ok nan.

(* pyXSteam/XSteam.py:2425-2505, XSteam.pmelt_t *)
Definition pmelt_t (us : unit_system) (t : num) (hint : pyobj) : res num :=
  let* T := toSIunit_T us t in
  if (is_None hint)%num then
    if ((T >=? #251.165) && (T <? #256.164))%num then
      Ok nan
    else
      if ((T >=? #256.164) && (T <? #273.31))%num then
        let* q2 := pmelt_T_iceV T in
        fromSIunit_p us q2
      else
        if ((T >=? #273.31) && (T <? #355))%num then
          let* q4 := pmelt_T_iceVI T in
          fromSIunit_p us q4
        else
          if ((T >=? #355) && (T <? #751))%num then
            let* q6 := pmelt_T_iceVII T in
            fromSIunit_p us q6
          else
            Ok nan
  else
    if (is_int hint TYPE_ICE_Ih)%num then
      if ((T >=? #251.165) && (T <? #273.16))%num then
        let* q8 := pmelt_T_iceIh T in
        fromSIunit_p us q8
      else
        Ok nan
    else
      if (is_int hint TYPE_ICE_III)%num then
        if ((T >=? #251.165) && (T <? #256.164))%num then
          let* q10 := pmelt_T_iceIII T in
          fromSIunit_p us q10
        else
          Ok nan
      else
        if (is_int hint TYPE_ICE_V)%num then
          if ((T >=? #256.164) && (T <? #273.31))%num then
            let* q12 := pmelt_T_iceV T in
            fromSIunit_p us q12
          else
            Ok nan
        else
          if (is_int hint TYPE_ICE_VI)%num then
            if ((T >=? #273.31) && (T <? #355))%num then
              let* q14 := pmelt_T_iceVI T in
              fromSIunit_p us q14
            else
              Ok nan
          else
            if (is_int hint TYPE_ICE_VII)%num then
              if ((T >=? #355) && (T <? #751))%num then
                let* q16 := pmelt_T_iceVII T in
                fromSIunit_p us q16
              else
                Ok nan
            else
              Err ValueError.

(* pyXSteam/XSteam.py:2507-2522, XSteam.psubl_t *)
Definition psubl_t (us : unit_system) (t : num) : res num :=
  let* T := toSIunit_T us t in
  if ((T >=? #50) && (T <? #273.16))%num then
    let* q2 := psubl_T T in
    fromSIunit_p us q2
  else
    Ok nan.

End Model.
