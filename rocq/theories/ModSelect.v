(** GENERATED by tools/translate.py from pyXSteam/RegionSelection.py -- do not edit.
    Text of the Python source, function by function; see DESIGN.md. *)
From Coq Require Import ZArith List Bool.
From Verif Require Import Py ModConstants ModBorders ModRegion1 ModRegion2 ModRegion3 ModRegion4 ModRegion5.
Import ListNotations.
Open Scope Z_scope.
Open Scope num_scope.

Section Model.
Context {N : Num} {F : Fuel}.

(* pyXSteam/RegionSelection.py:16-42, region_pT *)
Definition region_pT (p T : num) : res Z :=
  if ((T >? #1073.15) && (p <? #50.0) && (T <? #2273.15) && (p >? #0.000611))%num then
    let region_pT_number := 5 in
    Ok region_pT_number
  else
    if ((T <=? #1073.15) && (T >? #273.15) && (p <=? #100) && (p >? #0.000611))%num then
      if (T >? #623.15)%num then
        let* q2 := let* q1 := B23p_T T in Ok (p >? q1) in
        if q2 then
          let region_pT_number := 3 in
          if (T <? #647.096)%num then
            let* ps := p4_T T in
            if ((fabs (p - ps)) <? #0.00001)%num then
              let region_pT_number := 4 in
              Ok region_pT_number
            else
              Ok region_pT_number
          else
            Ok region_pT_number
        else
          let region_pT_number := 2 in
          Ok region_pT_number
      else
        let* ps := p4_T T in
        if ((fabs (p - ps)) <? #0.00001)%num then
          let region_pT_number := 4 in
          Ok region_pT_number
        else
          if (p >? ps)%num then
            let region_pT_number := 1 in
            Ok region_pT_number
          else
            let region_pT_number := 2 in
            Ok region_pT_number
    else
      let region_pT_number := 0 in
      Ok region_pT_number.

(* pyXSteam/RegionSelection.py:45-111, region_ph *)
Definition region_ph (p h : num) : res Z :=
  if ((p <? #0.000611657) || (p >? #100))%num then
    Ok 0
  else
  let* o :=
      if (h <? (#0.963 * p + #2.2))%num then
        let* q2 := let* q1 := h1_pT p #273.15 in Ok (h <? q1) in
        if q2 then
          Ok (Return 0)
        else
        Ok (Proceed tt)
      else
        Ok (Proceed tt) in
  match o with
  | Return r => Ok r
  | Proceed _ =>
    if (p <? #16.5292)%num then
      let* Ts := T4_p p in
      let* q4 := log p in
      let hL := (#109.6635 * q4 + #40.3481 * p + #734.58)%num in
      let* hL :=
          if ((fabs (h - hL)) <? #100)%num then
            h1_pT p Ts
          else
            Ok hL in
      if (h <=? hL)%num then
        Ok 1
      else
      let* q6 := log p in
      let hV := (#45.1768 * q6 - #20.158 * p + #2804.4)%num in
      let* hV :=
          if ((fabs (h - hV)) <? #50)%num then
            h2_pT p Ts
          else
            Ok hV in
      if (h <? hV)%num then
        Ok 4
      else
      if (h <? #4000)%num then
        Ok 2
      else
      let* h_45 := h2_pT p #1073.15 in
      if (h <=? h_45)%num then
        Ok 2
      else
      if (p >? #10)%num then
        Ok 0
      else
      let* h_5u := h5_pT p #2273.15 in
      if (h <? h_5u)%num then
        Ok 5
      else
      Ok 0
    else
      let* q11 := let* q10 := h1_pT p #623.15 in Ok (h <? q10) in
      if q11 then
        Ok 1
      else
      let* q14 := let* q12 := B23T_p p in let* q13 := h2_pT p q12 in Ok (h <? q13) in
      if q14 then
        let* q16 := let* q15 := p3sat_h h in Ok (p >? q15) in
        if q16 then
          Ok 3
        else
          Ok 4
      else
      let* q18 := let* q17 := h2_pT p #1073.15 in Ok (h <? q17) in
      if q18 then
        Ok 2
      else
      Ok 0
  end.

(* pyXSteam/RegionSelection.py:114-151, region_ps *)
Definition region_ps (p s : num) : res Z :=
  let* q2 := or_else (Ok (p <? #0.000611657)) (or_else (Ok (p >? #100)) (or_else (Ok (s <? #0)) (let* q1 := s5_pT p #2273.15 in Ok (s >? q1)))) in
  if q2 then
    Ok 0
  else
  let* q4 := let* q3 := s2_pT p #1073.15 in Ok (s >? q3) in
  if q4 then
    if (p <=? #10)%num then
      Ok 5
    else
      Ok 0
  else
  let* ss :=
      if (p >? #16.529)%num then
        let* q5 := B23T_p p in
        s2_pT p q5
      else
        let* q7 := T4_p p in
        s2_pT p q7 in
  if (s >? ss)%num then
    Ok 2
  else
  let* ss := s1_pT p #623.15 in
  if ((p >? #16.529) && (s >? ss))%num then
    let* q11 := let* q10 := p3sat_s s in Ok (p >? q10) in
    if q11 then
      Ok 3
    else
      Ok 4
  else
  let* q14 := and_then (Ok (p <? #16.529)) (let* q12 := T4_p p in let* q13 := s1_pT p q12 in Ok (s >? q13)) in
  if q14 then
    Ok 4
  else
  let* q16 := and_then (Ok (p >? #0.000611657)) (let* q15 := s1_pT p #273.15 in Ok (s >? q15)) in
  if q16 then
    Ok 1
  else
  Ok 1.

(* pyXSteam/RegionSelection.py:154-284, region_hs *)
Definition region_hs (h s : num) : res Z :=
  if (s <? (#(-0.0001545495919)))%num then
    Ok 0
  else
  let* q1 := div (#(-0.0415878) - #2500.89262) (#(-0.00015455) - #9.155759) in
  let hMin := (q1 * s)%num in
  if ((s <? #9.155759395) && (h <? hMin))%num then
    Ok 0
  else
  if ((s >=? (#(-0.0001545495919))) && (s <=? #3.77828134))%num then
    let* q3 := let* q2 := h4_s s in Ok (h <? q2) in
    if q3 then
      Ok 4
    else
      if (s <? #3.397782955)%num then
        let* TMax := T1_ps #100 s in
        let* hMax := h1_pT #100 TMax in
        if (h <? hMax)%num then
          Ok 1
        else
          Ok 0
      else
        let* hB := hB13_s s in
        if (h <? hB)%num then
          Ok 1
        else
        let* TMax := T3_ps #100 s in
        let* vmax := v3_ps #100 s in
        let* q9 := div #1 vmax in
        let* hMax := h3_rhoT q9 TMax in
        if (h <? hMax)%num then
          Ok 3
        else
          Ok 0
  else
  if ((s >=? #5.260578707) && (s <=? #11.9212156897728))%num then
    if (s >? #9.155759395)%num then
      let* Tmin := T2_ps #0.000611 s in
      let* hMin := h2_pT #0.000611 Tmin in
      let* q13 := powz s 4 in
      let* q14 := powz s 3 in
      let* q15 := powz s 2 in
      let hMax := (#(-0.07554022) * q13 + #3.341571 * q14 - #55.42151 * q15 + #408.515 * s + #3031.338)%num in
      if ((h >? hMin) && (h <? hMax))%num then
        Ok 2
      else
        Ok 0
    else
    let* hV := h4_s s in
    if (h <? hV)%num then
      Ok 4
    else
    let* hMax :=
        if (s <? #6.04048367171238)%num then
          let* TMax := T2_ps #100 s in
          h2_pT #100 TMax
        else
          let* q19 := powz s 4 in
          let* q20 := powz s 3 in
          let* q21 := powz s 2 in
          let hMax := (#(-2.988734) * q19 + #121.4015 * q20 - #1805.15 * q21 + #11720.16 * s - #23998.33)%num in
          Ok hMax in
    if (h <? hMax)%num then
      Ok 2
    else
      Ok 0
  else
  if ((s >=? #3.77828134) && (s <=? #4.41202148223476))%num then
    let* hL := h4_s s in
    if (h <? hL)%num then
      Ok 4
    else
    let* TMax := T3_ps #100 s in
    let* vmax := v3_ps #100 s in
    let* q25 := div #1 vmax in
    let* hMax := h3_rhoT q25 TMax in
    if (h <? hMax)%num then
      Ok 3
    else
      Ok 0
  else
  if ((s >=? #4.41202148223476) && (s <=? #5.260578707))%num then
    let* hV := h4_s s in
    if (h <? hV)%num then
      Ok 4
    else
    if (s <=? #5.048096828)%num then
      let* TMax := T3_ps #100 s in
      let* vmax := v3_ps #100 s in
      let* q30 := div #1 vmax in
      let* hMax := h3_rhoT q30 TMax in
      if (h <? hMax)%num then
        Ok 3
      else
        Ok 0
    else
      if (h >? #2812.942061)%num then
        if (s >? #5.09796573397125)%num then
          let* TMax := T2_ps #100 s in
          let* hMax := h2_pT #100 TMax in
          if (h <? hMax)%num then
            Ok 2
          else
            Ok 0
        else
          Ok 0
      else
      if (h <? #2563.592004)%num then
        Ok 3
      else
      let* Tact := TB23_hs h s in
      let* pact := p2_hs h s in
      let* pBound := B23p_T Tact in
      if (pact >? pBound)%num then
        Ok 3
      else
        Ok 2
  else
  Ok 0.

(* pyXSteam/RegionSelection.py:287-336, region_prho *)
Definition region_prho (p rho : num) : res Z :=
  let* v := div #1 rho in
  if ((p <? #0.000611657) || (p >? #100))%num then
    Ok 0
  else
  if (p <? #16.5292)%num then
    let* q3 := let* q2 := v1_pT p #273.15 in Ok (v <? q2) in
    if q3 then
      Ok 0
    else
    let* q6 := let* q4 := T4_p p in let* q5 := v1_pT p q4 in Ok (v <=? q5) in
    if q6 then
      Ok 1
    else
    let* q9 := let* q7 := T4_p p in let* q8 := v2_pT p q7 in Ok (v <? q8) in
    if q9 then
      Ok 4
    else
    let* q11 := let* q10 := v2_pT p #1073.15 in Ok (v <=? q10) in
    if q11 then
      Ok 2
    else
    if (p >? #10)%num then
      Ok 0
    else
    let* q13 := let* q12 := v5_pT p #2073.15 in Ok (v <=? q12) in
    if q13 then
      Ok 5
    else
    Ok 0
  else
    let* q15 := let* q14 := v1_pT p #273.15 in Ok (v <? q14) in
    if q15 then
      Ok 0
    else
    let* q17 := let* q16 := v1_pT p #623.15 in Ok (v <? q16) in
    if q17 then
      Ok 1
    else
    let* q20 := let* q18 := B23T_p p in let* q19 := v2_pT p q18 in Ok (v <? q19) in
    if q20 then
      if (p >? #22.064)%num then
        Ok 3
      else
      let* q25 := or_else (let* q21 := h4L_p p in let* q22 := v3_ph p q21 in Ok (v <? q22)) (let* q23 := h4V_p p in let* q24 := v3_ph p q23 in Ok (v >? q24)) in
      if q25 then
        Ok 3
      else
        Ok 4
    else
    let* q27 := let* q26 := v2_pT p #1073.15 in Ok (v <? q26) in
    if q27 then
      Ok 2
    else
    Ok 0.

End Model.
