(** GENERATED by tools/translate.py from pyXSteam/TransportProperties.py -- do not edit.
    Text of the Python source, function by function; see DESIGN.md. *)
From Coq Require Import ZArith List Bool.
From Verif Require Import Py ModConstants ModBorders ModRegion1 ModRegion2 ModRegion3 ModRegion4 ModRegion5 ModSelect.
Import ListNotations.
Open Scope Z_scope.
Open Scope num_scope.

Section Model.
Context {N : Num} {F : Fuel}.

(* pyXSteam/TransportProperties.py:20-20 *)
Definition my_AllRegions_pT_h0 : list dec := [0.5132047; 0.3205656; 0; 0; -0.7782567; 0.1885447]%dec.
(* pyXSteam/TransportProperties.py:21-21 *)
Definition my_AllRegions_pT_h1 : list dec := [0.2151778; 0.7317883; 1.241044; 1.476783; 0; 0]%dec.
(* pyXSteam/TransportProperties.py:22-22 *)
Definition my_AllRegions_pT_h2 : list dec := [-0.2818107; -1.070786; -1.263184; 0; 0; 0]%dec.
(* pyXSteam/TransportProperties.py:23-23 *)
Definition my_AllRegions_pT_h3 : list dec := [0.1778064; 0.460504; 0.2340379; -0.4924179; 0; 0]%dec.
(* pyXSteam/TransportProperties.py:24-24 *)
Definition my_AllRegions_pT_h4 : list dec := [-0.0417661; 0; 0; 0.1600435; 0; 0]%dec.
(* pyXSteam/TransportProperties.py:25-25 *)
Definition my_AllRegions_pT_h5 : list dec := [0; -0.01578386; 0; 0; 0; 0]%dec.
(* pyXSteam/TransportProperties.py:26-26 *)
Definition my_AllRegions_pT_h6 : list dec := [0; 0; 0; -0.003629481; 0; 0]%dec.
(* pyXSteam/TransportProperties.py:15-74, my_AllRegions_pT *)
Definition my_AllRegions_pT (p T : num) : res num :=
  let* o :=
      let* q4 := let* q3 := region_pT p T in Ok (Z.eqb q3 1) in
      if q4 then
        let* q5 := v1_pT p T in
        let* rho := div #1 q5 in
        Ok (Proceed rho)
      else
        let* q8 := let* q7 := region_pT p T in Ok (Z.eqb q7 2) in
        if q8 then
          let* q9 := v2_pT p T in
          let* rho := div #1 q9 in
          Ok (Proceed rho)
        else
          let* q12 := let* q11 := region_pT p T in Ok (Z.eqb q11 3) in
          if q12 then
            let* hs := h3_pT p T in
            let* q14 := v3_ph p hs in
            let* rho := div #1 q14 in
            Ok (Proceed rho)
          else
            let* q17 := let* q16 := region_pT p T in Ok (Z.eqb q16 4) in
            if q17 then
              Ok (Return nan)
            else
              let* q19 := let* q18 := region_pT p T in Ok (Z.eqb q18 5) in
              if q19 then
                let* q20 := v5_pT p T in
                let* rho := div #1 q20 in
                Ok (Proceed rho)
              else
                Ok (Return nan) in
  match o with
  | Return r => Ok r
  | Proceed rho =>
    let* rhos := div rho #317.763 in
    let* Ts := div T #647.226 in
    if ((T >? (#900 + #273.15)) || ((T >? (#600 + #273.15)) && (p >? #300)) || ((T >? (#150 + #273.15)) && (p >? #350)) || (p >? #500))%num then
      Ok nan
    else
    let* q24 := powf Ts #0.5 in
    let* q25 := div #0.978197 Ts in
    let* q26 := powz Ts 2 in
    let* q27 := div #0.579829 q26 in
    let* q28 := powz Ts 3 in
    let* q29 := div #0.202354 q28 in
    let* my0 := div q24 (#1 + q25 + q27 - q29) in
    let temp_sum := (#0)%num in
    let* temp_sum := for_each (combine (zrange 0 6) (combine (slice 0 6 my_AllRegions_pT_h0) (combine (slice 0 6 my_AllRegions_pT_h1) (combine (slice 0 6 my_AllRegions_pT_h2) (combine (slice 0 6 my_AllRegions_pT_h3) (combine (slice 0 6 my_AllRegions_pT_h4) (combine (slice 0 6 my_AllRegions_pT_h5) (slice 0 6 my_AllRegions_pT_h6)))))))) temp_sum (fun temp_sum '(i, (h0_i, (h1_i, (h2_i, (h3_i, (h4_i, (h5_i, h6_i))))))) =>
        let* q31 := div #1 Ts in
        let* q32 := powz (q31 - #1) i in
        let* q33 := div #1 Ts in
        let* q34 := powz (q33 - #1) i in
        let* q35 := powz (rhos - #1) 1 in
        let* q36 := div #1 Ts in
        let* q37 := powz (q36 - #1) i in
        let* q38 := powz (rhos - #1) 2 in
        let* q39 := div #1 Ts in
        let* q40 := powz (q39 - #1) i in
        let* q41 := powz (rhos - #1) 3 in
        let* q42 := div #1 Ts in
        let* q43 := powz (q42 - #1) i in
        let* q44 := powz (rhos - #1) 4 in
        let* q45 := div #1 Ts in
        let* q46 := powz (q45 - #1) i in
        let* q47 := powz (rhos - #1) 5 in
        let* q48 := div #1 Ts in
        let* q49 := powz (q48 - #1) i in
        let* q50 := powz (rhos - #1) 6 in
        let temp_sum := (temp_sum + (lit h0_i) * q32 + (lit h1_i) * q34 * q35 + (lit h2_i) * q37 * q38 + (lit h3_i) * q40 * q41 + (lit h4_i) * q43 * q44 + (lit h5_i) * q46 * q47 + (lit h6_i) * q49 * q50)%num in
        Ok temp_sum) in
    let* my1 := exp (rhos * temp_sum) in
    let mys := (my0 * my1)%num in
    Ok (mys * #0.000055071)
  end.

(* pyXSteam/TransportProperties.py:82-82 *)
Definition my_AllRegions_ph_h0 : list dec := [0.5132047; 0.3205656; 0; 0; -0.7782567; 0.1885447]%dec.
(* pyXSteam/TransportProperties.py:83-83 *)
Definition my_AllRegions_ph_h1 : list dec := [0.2151778; 0.7317883; 1.241044; 1.476783; 0; 0]%dec.
(* pyXSteam/TransportProperties.py:84-84 *)
Definition my_AllRegions_ph_h2 : list dec := [-0.2818107; -1.070786; -1.263184; 0; 0; 0]%dec.
(* pyXSteam/TransportProperties.py:85-85 *)
Definition my_AllRegions_ph_h3 : list dec := [0.1778064; 0.460504; 0.2340379; -0.4924179; 0; 0]%dec.
(* pyXSteam/TransportProperties.py:86-86 *)
Definition my_AllRegions_ph_h4 : list dec := [-0.0417661; 0; 0; 0.1600435; 0; 0]%dec.
(* pyXSteam/TransportProperties.py:87-87 *)
Definition my_AllRegions_ph_h5 : list dec := [0; -0.01578386; 0; 0; 0; 0]%dec.
(* pyXSteam/TransportProperties.py:88-88 *)
Definition my_AllRegions_ph_h6 : list dec := [0; 0; 0; -0.003629481; 0; 0]%dec.
(* pyXSteam/TransportProperties.py:77-150, my_AllRegions_ph *)
Definition my_AllRegions_ph (p h : num) : res num :=
  let* o :=
      let* q4 := let* q3 := region_ph p h in Ok (Z.eqb q3 1) in
      if q4 then
        let* Ts := T1_ph p h in
        let T := Ts in
        let* q6 := v1_pT p Ts in
        let* rho := div #1 q6 in
        Ok (Proceed (T, rho))
      else
        let* q9 := let* q8 := region_ph p h in Ok (Z.eqb q8 2) in
        if q9 then
          let* Ts := T2_ph p h in
          let T := Ts in
          let* q11 := v2_pT p Ts in
          let* rho := div #1 q11 in
          Ok (Proceed (T, rho))
        else
          let* q14 := let* q13 := region_ph p h in Ok (Z.eqb q13 3) in
          if q14 then
            let* q15 := v3_ph p h in
            let* rho := div #1 q15 in
            let* T := T3_ph p h in
            Ok (Proceed (T, rho))
          else
            let* q19 := let* q18 := region_ph p h in Ok (Z.eqb q18 4) in
            if q19 then
              let* xs := x4_ph p h in
              let* (v4v, v4L) :=
                  if (p <? #16.529)%num then
                    let* q21 := T4_p p in
                    let* v4v := v2_pT p q21 in
                    let* q23 := T4_p p in
                    let* v4L := v1_pT p q23 in
                    Ok (v4v, v4L)
                  else
                    let* q25 := h4V_p p in
                    let* v4v := v3_ph p q25 in
                    let* q27 := h4L_p p in
                    let* v4L := v3_ph p q27 in
                    Ok (v4v, v4L) in
              let* rho := div #1 (xs * v4v + (#1 - xs) * v4L) in
              let* T := T4_p p in
              Ok (Proceed (T, rho))
            else
              let* q32 := let* q31 := region_ph p h in Ok (Z.eqb q31 5) in
              if q32 then
                let* Ts := T5_ph p h in
                let T := Ts in
                let* q34 := v5_pT p Ts in
                let* rho := div #1 q34 in
                Ok (Proceed (T, rho))
              else
                Ok (Return nan) in
  match o with
  | Return r => Ok r
  | Proceed (T, rho) =>
    let* rhos := div rho #317.763 in
    let* Ts := div T #647.226 in
    if ((T >? (#900 + #273.15)) || ((T >? (#600 + #273.15)) && (p >? #300)) || ((T >? (#150 + #273.15)) && (p >? #350)) || (p >? #500))%num then
      Ok nan
    else
    let* q38 := powf Ts #0.5 in
    let* q39 := div #0.978197 Ts in
    let* q40 := powz Ts 2 in
    let* q41 := div #0.579829 q40 in
    let* q42 := powz Ts 3 in
    let* q43 := div #0.202354 q42 in
    let* my0 := div q38 (#1 + q39 + q41 - q43) in
    let temp_sum := (#0)%num in
    let* temp_sum := for_each (combine (zrange 0 6) (combine (slice 0 6 my_AllRegions_ph_h0) (combine (slice 0 6 my_AllRegions_ph_h1) (combine (slice 0 6 my_AllRegions_ph_h2) (combine (slice 0 6 my_AllRegions_ph_h3) (combine (slice 0 6 my_AllRegions_ph_h4) (combine (slice 0 6 my_AllRegions_ph_h5) (slice 0 6 my_AllRegions_ph_h6)))))))) temp_sum (fun temp_sum '(i, (h0_i, (h1_i, (h2_i, (h3_i, (h4_i, (h5_i, h6_i))))))) =>
        let* q45 := div #1 Ts in
        let* q46 := powz (q45 - #1) i in
        let* q47 := div #1 Ts in
        let* q48 := powz (q47 - #1) i in
        let* q49 := powz (rhos - #1) 1 in
        let* q50 := div #1 Ts in
        let* q51 := powz (q50 - #1) i in
        let* q52 := powz (rhos - #1) 2 in
        let* q53 := div #1 Ts in
        let* q54 := powz (q53 - #1) i in
        let* q55 := powz (rhos - #1) 3 in
        let* q56 := div #1 Ts in
        let* q57 := powz (q56 - #1) i in
        let* q58 := powz (rhos - #1) 4 in
        let* q59 := div #1 Ts in
        let* q60 := powz (q59 - #1) i in
        let* q61 := powz (rhos - #1) 5 in
        let* q62 := div #1 Ts in
        let* q63 := powz (q62 - #1) i in
        let* q64 := powz (rhos - #1) 6 in
        let temp_sum := (temp_sum + (lit h0_i) * q46 + (lit h1_i) * q48 * q49 + (lit h2_i) * q51 * q52 + (lit h3_i) * q54 * q55 + (lit h4_i) * q57 * q58 + (lit h5_i) * q60 * q61 + (lit h6_i) * q63 * q64)%num in
        Ok temp_sum) in
    let* my1 := exp (rhos * temp_sum) in
    let mys := (my0 * my1)%num in
    Ok (mys * #0.000055071)
  end.

(* pyXSteam/TransportProperties.py:153-208, tc_ptrho *)
Definition tc_ptrho (p T rho : num) : res num :=
  if (T <? #273.15)%num then
    Ok nan
  else
    let* o :=
        if (T <? (#500 + #273.15))%num then
          if (p >? #100)%num then
            Ok (Return nan)
          else
          Ok (Proceed tt)
        else
          if (T <=? (#650 + #273.15))%num then
            if (p >? #70)%num then
              Ok (Return nan)
            else
            Ok (Proceed tt)
          else
            if (p >? #40)%num then
              Ok (Return nan)
            else
            Ok (Proceed tt) in
    match o with
    | Return r => Ok r
    | Proceed _ =>
      let* T := div T #647.26 in
      let* rho := div rho #317.7 in
      let* q3 := powf T #0.5 in
      let* q4 := powz T 2 in
      let* q5 := powz T 3 in
      let tc0 := (q3 * (#0.0102811 + #0.0299621 * T + #0.0156146 * q4 - #0.00422464 * q5))%num in
      let* q6 := powz (rho + #2.392190) 2 in
      let* q7 := exp (#(-0.171587) * q6) in
      let tc1 := (#(-0.397070) + #0.400302 * rho + #1.06 * q7)%num in
      let dT := (fabs (T - #1) + #0.00308976)%num in
      let* q8 := div #3 #5 in
      let* q9 := powf dT q8 in
      let* q10 := div #0.0822994 q9 in
      let Q := (#2 + q10)%num in
      let* s :=
          if (T >=? #1)%num then
            div #1 dT
          else
            let* q12 := div #3 #5 in
            let* q13 := powf dT q12 in
            div #10.0932 q13 in
      let* q15 := powz T 10 in
      let* q16 := div #0.0701309 q15 in
      let* q17 := div #9 #5 in
      let* q18 := powf rho q17 in
      let* q19 := div #14 #5 in
      let* q20 := powf rho q19 in
      let* q21 := exp (#0.642857 * (#1 - q20)) in
      let* q22 := powf rho Q in
      let* q23 := div Q (#1 + Q) in
      let* q24 := powf rho (#1 + Q) in
      let* q25 := exp (q23 * (#1 - q24)) in
      let* q26 := div #3 #2 in
      let* q27 := powf T q26 in
      let* q28 := powz rho 5 in
      let* q29 := div #6.17937 q28 in
      let* q30 := exp (#(-4.11717) * q27 - q29) in
      let tc2 := ((q16 + #0.0118520) * q18 * q21 + #0.00169937 * s * q22 * q25 - #1.02 * q30)%num in
      Ok (tc0 + tc1 + tc2)
    end.

(* pyXSteam/TransportProperties.py:211-231, Surface_Tension_T *)
Definition Surface_Tension_T (T : num) : res num :=
  let tc := CRITICAL_TEMPERATURE in
  let B := (#0.2358)%num in
  let bb := (#(-0.625))%num in
  let my := (#1.256)%num in
  if ((T <? #0.01) || (T >? tc))%num then
    Ok nan
  else
  let* q1 := div T tc in
  let tau := (#1 - q1)%num in
  let* q2 := powf tau my in
  Ok (B * q2 * (#1 + bb * tau)).

End Model.
