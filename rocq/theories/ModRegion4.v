(** GENERATED by tools/translate.py from pyXSteam/Regions.py, class Region4, and the iterations of other classes that use it -- do not edit.
    Text of the Python source, function by function; see DESIGN.md. *)
From Coq Require Import ZArith List Bool.
From Verif Require Import Py ModConstants ModBorders ModRegion1 ModRegion2 ModRegion3.
Import ListNotations.
Open Scope Z_scope.
Open Scope num_scope.

Section Model.
Context {N : Num} {F : Fuel}.

(* pyXSteam/Regions.py:5769-5780, Region4.p4_T *)
Definition p4_T (T : num) : res num :=
  let* q1 := div #0.23855557567849 (T - #650.17534844798) in
  let teta := (T - q1)%num in
  let* q2 := powz teta 2 in
  let a := (q2 + #1167.0521452767 * teta - #724213.16703206)%num in
  let* q3 := powz teta 2 in
  let B := (#(-17.073846940092) * q3 + #12020.82470247 * teta - #3232555.0322333)%num in
  let* q4 := powz teta 2 in
  let C := (#14.91510861353 * q4 - #4823.2657361591 * teta + #405113.40542057)%num in
  let* q5 := powz B 2 in
  let* q6 := powf (q5 - #4 * a * C) #0.5 in
  let* q7 := div (#2 * C) ((- B) + q6) in
  powz q7 4.

(* pyXSteam/Regions.py:5783-5803, Region4.T4_p *)
Definition T4_p (p : num) : res num :=
  let* beta := powf p #0.25 in
  let* q2 := powz beta 2 in
  let E := (q2 - #17.073846940092 * beta + #14.91510861353)%num in
  let* q3 := powz beta 2 in
  let f := (#1167.0521452767 * q3 + #12020.82470247 * beta - #4823.2657361591)%num in
  let* q4 := powz beta 2 in
  let G := (#(-724213.16703206) * q4 - #3232555.0322333 * beta + #405113.40542057)%num in
  let* q5 := powz f 2 in
  let* q6 := powf (q5 - #4 * E * G) #0.5 in
  let* D := div (#2 * G) ((- f) - q6) in
  let* q8 := powz (#650.17534844798 + D) 2 in
  let* q9 := powf (q8 - #4 * (#(-0.23855557567849) + #650.17534844798 * D)) #0.5 in
  div (#650.17534844798 + D - q9) #2.

(* pyXSteam/Regions.py:5816-5844 *)
Definition h4_s_Ii : list Z := [0; 0; 1; 1; 2; 2; 3; 3; 4; 4; 4; 5; 5; 7; 8; 12; 12; 14; 14; 16; 20; 20; 22; 24; 28; 32; 32]%Z.
(* pyXSteam/Regions.py:5845-5873 *)
Definition h4_s_Ji : list Z := [14; 36; 3; 16; 0; 5; 4; 36; 4; 16; 24; 18; 24; 1; 4; 2; 4; 1; 22; 10; 12; 28; 8; 3; 0; 6; 8]%Z.
(* pyXSteam/Regions.py:5874-5902 *)
Definition h4_s_ni : list dec := [
  0.332171191705237; 6.11217706323496e-04; -8.82092478906822; -0.45562819254325; 
  -2.63483840850452e-05; -22.3949661148062; -4.28398660164013; -0.616679338856916; 
  -14.682303110404; 284.523138727299; -113.398503195444; 1156.71380760859; 395.551267359325; 
  -1.54891257229285; 19.4486637751291; -3.57915139457043; -3.35369414148819; 
  -0.66442679633246; 32332.1885383934; 3317.66744667084; -22350.1257931087; 5739538.75852936; 
  173.226193407919; -3.63968822121321e-02; 8.34596332878346e-07; 5.03611916682674; 
  65.5444787064505]%dec.
(* pyXSteam/Regions.py:5913-5913 *)
Definition h4_s_Ii_2 : list Z := [0; 0; 0; 0; 2; 3; 4; 4; 5; 5; 6; 7; 7; 7; 10; 10; 10; 32; 32]%Z.
(* pyXSteam/Regions.py:5914-5914 *)
Definition h4_s_Ji_2 : list Z := [1; 4; 10; 16; 1; 36; 3; 16; 20; 36; 4; 2; 28; 32; 14; 32; 36; 0; 6]%Z.
(* pyXSteam/Regions.py:5915-5935 *)
Definition h4_s_ni_2 : list dec := [
  0.822673364673336; 0.181977213534479; -0.011200026031362; -7.46778287048033e-04; 
  -0.179046263257381; 4.24220110836657e-02; -0.341355823438768; -2.09881740853565; 
  -8.22477343323596; -4.99684082076008; 0.191413958471069; 5.81062241093136e-02; 
  -1655.05498701029; 1588.70443421201; -85.0623535172818; -31771.4386511207; 
  -94589.0406632871; -1.3927384708869e-06; 0.63105253224098]%dec.
(* pyXSteam/Regions.py:5947-5947 *)
Definition h4_s_Ii_3 : list Z := [0; 0; 0; 1; 1; 5; 6; 7; 8; 8; 12; 16; 22; 22; 24; 36]%Z.
(* pyXSteam/Regions.py:5948-5948 *)
Definition h4_s_Ji_3 : list Z := [0; 3; 4; 0; 12; 36; 12; 16; 2; 20; 32; 36; 2; 32; 7; 20]%Z.
(* pyXSteam/Regions.py:5949-5966 *)
Definition h4_s_ni_3 : list dec := [
  1.04351280732769; -2.27807912708513; 1.80535256723202; 0.420440834792042; -105721.24483466; 
  4.36911607493884e24; -328032702839.753; -6.7868676080427e15; 7439.57464645363; 
  -3.56896445355761e19; 1.67590585186801e31; -3.55028625419105e37; 396611982166.538; 
  -4.14716268484468e40; 3.59080103867382e18; -1.16994334851995e40]%dec.
(* pyXSteam/Regions.py:5975-6006 *)
Definition h4_s_Ii_4 : list Z := [
  1; 1; 2; 2; 4; 4; 7; 8; 8; 10; 12; 12; 18; 20; 24; 28; 28; 28; 28; 28; 32; 32; 32; 32; 32; 
  36; 36; 36; 36; 36]%Z.
(* pyXSteam/Regions.py:6007-6038 *)
Definition h4_s_Ji_4 : list Z := [
  8; 24; 4; 32; 1; 2; 7; 5; 12; 1; 0; 7; 10; 12; 32; 8; 12; 20; 22; 24; 2; 7; 12; 14; 24; 10; 
  12; 20; 22; 28]%Z.
(* pyXSteam/Regions.py:6039-6070 *)
Definition h4_s_ni_4 : list dec := [
  -524.581170928788; -9269472.18142218; -237.385107491666; 21077015581.2776; 
  -23.9494562010986; 221.802480294197; -5104725.33393438; 1249813.96109147; 2000084369.96201; 
  -815.158509791035; -157.612685637523; -11420042233.2791; 6.62364680776872e15; 
  -2.27622818296144e18; -1.71048081348406e31; 6.60788766938091e15; 1.66320055886021e22; 
  -2.18003784381501e29; -7.87276140295618e29; 1.51062329700346e31; 7957321.70300541; 
  1.31957647355347e15; -3.2509706829914e23; -4.18600611419248e25; 2.97478906557467e34; 
  -9.53588761745473e19; 1.66957699620939e24; -1.75407764869978e32; 3.47581490626396e34; 
  -7.10971318427851e38]%dec.
(* pyXSteam/Regions.py:5806-6082, Region4.h4_s *)
Definition h4_s (s : num) : res num :=
  if ((s >? (#(-0.0001545495919))) && (s <=? #3.77828134))%num then
    let* Sigma := div s #3.8 in
    let eta := (#0)%num in
    let* eta := for_each (combine (slice 0 27 h4_s_ni) (combine (slice 0 27 h4_s_Ii) (slice 0 27 h4_s_Ji))) eta (fun eta '(ni_i, (Ii_i, Ji_i)) =>
        let* q2 := powz (Sigma - #1.09) Ii_i in
        let* q3 := powz (Sigma + #0.0000366) Ji_i in
        let eta := (eta + (lit ni_i) * q2 * q3)%num in
        Ok eta) in
    let h4_s := (eta * #1700)%num in
    Ok h4_s
  else
    if ((s >? #3.77828134) && (s <=? #4.41202148223476))%num then
      let* Sigma := div s #3.8 in
      let eta := (#0)%num in
      let* eta := for_each (combine (slice 0 19 h4_s_ni_2) (combine (slice 0 19 h4_s_Ii_2) (slice 0 19 h4_s_Ji_2))) eta (fun eta '(ni_i, (Ii_i, Ji_i)) =>
          let* q5 := powz (Sigma - #1.09) Ii_i in
          let* q6 := powz (Sigma + #0.0000366) Ji_i in
          let eta := (eta + (lit ni_i) * q5 * q6)%num in
          Ok eta) in
      let h4_s := (eta * #1700)%num in
      Ok h4_s
    else
      if ((s >? #4.41202148223476) && (s <=? #5.85))%num then
        let* Sigma := div s #5.9 in
        let eta := (#0)%num in
        let* eta := for_each (combine (slice 0 16 h4_s_ni_3) (combine (slice 0 16 h4_s_Ii_3) (slice 0 16 h4_s_Ji_3))) eta (fun eta '(ni_i, (Ii_i, Ji_i)) =>
            let* q8 := powz (Sigma - #1.02) Ii_i in
            let* q9 := powz (Sigma - #0.726) Ji_i in
            let eta := (eta + (lit ni_i) * q8 * q9)%num in
            Ok eta) in
        let* q10 := powz eta 4 in
        let h4_s := (q10 * #2800)%num in
        Ok h4_s
      else
        if ((s >? #5.85) && (s <? #9.155759395))%num then
          let* Sigma1 := div s #5.21 in
          let* Sigma2 := div s #9.2 in
          let eta := (#0)%num in
          let* eta := for_each (combine (slice 0 30 h4_s_ni_4) (combine (slice 0 30 h4_s_Ii_4) (slice 0 30 h4_s_Ji_4))) eta (fun eta '(ni_i, (Ii_i, Ji_i)) =>
              let* q13 := div #1 Sigma1 in
              let* q14 := powz (q13 - #0.513) Ii_i in
              let* q15 := powz (Sigma2 - #0.524) Ji_i in
              let eta := (eta + (lit ni_i) * q14 * q15)%num in
              Ok eta) in
          let* q16 := exp eta in
          let h4_s := (q16 * #2800)%num in
          Ok h4_s
        else
          let h4_s := (#(-99999))%num in
          Ok h4_s.

(* pyXSteam/Regions.py:6085-6099, Region4.p4_s *)
Definition p4_s (s : num) : res num :=
  let* h_sat := h4_s s in
  if ((s >? (#(-0.0001545495919))) && (s <=? #3.77828134))%num then
    p1_hs h_sat s
  else
    if ((s >? #3.77828134) && (s <=? #5.210887663))%num then
      p3_hs h_sat s
    else
      if ((s >? #5.210887663) && (s <? #9.155759395))%num then
        p2_hs h_sat s
      else
        let p4_s := (#(-99999))%num in
        Ok p4_s.

(* pyXSteam/Regions.py:6102-6136, Region4.h4L_p *)
Definition h4L_p (p : num) : res num :=
  if ((p >? #0.000611657) && (p <? #22.06395))%num then
    let* Ts := T4_p p in
    if (p <? #16.529)%num then
      h1_pT p Ts
    else
      let Low_Bound := (#1670.858218)%num in
      let High_Bound := (#2087.23500164864)%num in
      let ps := (#(-1000))%num in
      let* (hs, ps, High_Bound, Low_Bound) := while fuel
           (fun '(hs, ps, High_Bound, Low_Bound) => Ok (((fabs (p - ps)) >? #0.00001)%num))
           (fun '(hs, ps, High_Bound, Low_Bound) =>
             let last_ps := ps in
             let* hs := div (Low_Bound + High_Bound) #2 in
             let* ps := p3sat_h hs in
             if (last_ps =? ps)%num then
               Ok (Break (Some hs, ps, High_Bound, Low_Bound))
             else
             if (ps >? p)%num then
               let High_Bound := hs in
               Ok (Next (Some hs, ps, High_Bound, Low_Bound))
             else
               let Low_Bound := hs in
               Ok (Next (Some hs, ps, High_Bound, Low_Bound)))
           (None, ps, High_Bound, Low_Bound) in
      local hs
  else
    let h4L_p := (#(-99999))%num in
    Ok h4L_p.

(* pyXSteam/Regions.py:6139-6173, Region4.h4V_p *)
Definition h4V_p (p : num) : res num :=
  if ((p >? #0.000611657) && (p <? #22.06395))%num then
    let* Ts := T4_p p in
    if (p <? #16.529)%num then
      h2_pT p Ts
    else
      let Low_Bound := (#2087.23500164864)%num in
      let High_Bound := (#2563.592004 + #5)%num in
      let ps := (#(-1000))%num in
      let* (hs, ps, High_Bound, Low_Bound) := while fuel
           (fun '(hs, ps, High_Bound, Low_Bound) => Ok (((fabs (p - ps)) >? #0.000001)%num))
           (fun '(hs, ps, High_Bound, Low_Bound) =>
             let last_ps := ps in
             let* hs := div (Low_Bound + High_Bound) #2 in
             let* ps := p3sat_h hs in
             if (last_ps =? ps)%num then
               Ok (Break (Some hs, ps, High_Bound, Low_Bound))
             else
             if (ps <? p)%num then
               let High_Bound := hs in
               Ok (Next (Some hs, ps, High_Bound, Low_Bound))
             else
               let Low_Bound := hs in
               Ok (Next (Some hs, ps, High_Bound, Low_Bound)))
           (None, ps, High_Bound, Low_Bound) in
      local hs
  else
    let h4V_p := (#(-99999))%num in
    Ok h4V_p.

(* pyXSteam/Regions.py:6176-6189, Region4.x4_ph *)
Definition x4_ph (p h : num) : res num :=
  let* h4v := h4V_p p in
  let* h4L := h4L_p p in
  if (h >? h4v)%num then
    let x4_ph := (#1)%num in
    Ok x4_ph
  else
    if (h <? h4L)%num then
      let x4_ph := (#0)%num in
      Ok x4_ph
    else
      div (h - h4L) (h4v - h4L).

(* pyXSteam/Regions.py:6192-6210, Region4.x4_ps *)
Definition x4_ps (p s : num) : res num :=
  let* (ssv, ssL) :=
      if (p <? #16.529)%num then
        let* q1 := T4_p p in
        let* ssv := s2_pT p q1 in
        let* q3 := T4_p p in
        let* ssL := s1_pT p q3 in
        Ok (ssv, ssL)
      else
        let* q5 := h4V_p p in
        let* q6 := v3_ph p q5 in
        let* q7 := div #1 q6 in
        let* q8 := T4_p p in
        let* ssv := s3_rhoT q7 q8 in
        let* q10 := h4L_p p in
        let* q11 := v3_ph p q10 in
        let* q12 := div #1 q11 in
        let* q13 := T4_p p in
        let* ssL := s3_rhoT q12 q13 in
        Ok (ssv, ssL) in
  if (s <? ssL)%num then
    let x4_ps := (#0)%num in
    Ok x4_ps
  else
    if (s >? ssv)%num then
      let x4_ps := (#1)%num in
      Ok x4_ps
    else
      div (s - ssL) (ssv - ssL).

(* pyXSteam/Regions.py:6222-6259 *)
Definition T4_hs_Ii : list Z := [
  0; 0; 0; 1; 1; 1; 1; 2; 2; 2; 3; 3; 3; 3; 4; 4; 5; 5; 5; 5; 6; 6; 6; 8; 10; 10; 12; 14; 14; 
  16; 16; 18; 18; 18; 20; 28]%Z.
(* pyXSteam/Regions.py:6260-6297 *)
Definition T4_hs_Ji : list Z := [
  0; 3; 12; 0; 1; 2; 5; 0; 5; 8; 0; 2; 3; 4; 0; 1; 1; 2; 4; 16; 6; 8; 22; 1; 20; 36; 24; 1; 
  28; 12; 32; 14; 22; 36; 24; 36]%Z.
(* pyXSteam/Regions.py:6298-6335 *)
Definition T4_hs_ni : list dec := [
  0.179882673606601; -0.267507455199603; 1.162767226126; 0.147545428713616; 
  -0.512871635973248; 0.421333567697984; 0.56374952218987; 0.429274443819153; 
  -3.3570455214214; 10.8890916499278; -0.248483390456012; 0.30415322190639; 
  -0.494819763939905; 1.07551674933261; 7.33888415457688e-02; 1.40170545411085e-02; 
  -0.106110975998808; 1.68324361811875e-02; 1.25028363714877; 1013.16840309509; 
  -1.51791558000712; 52.4277865990866; 23049.5545563912; 2.49459806365456e-02; 
  2107964.67412137; 366836848.613065; -144814105.365163; -1.7927637300359e-03; 
  4899556021.00459; 471.262212070518; -82929439019.8652; -1715.45662263191; 3557776.82973575; 
  586062760258.436; -12988763.5078195; 31724744937.1057]%dec.
(* pyXSteam/Regions.py:6213-6387, Region4.T4_hs *)
Definition T4_hs (h s : num) : res num :=
  if ((s >? #5.210887825) && (s <? #9.15546555571324))%num then
    let* Sigma := div s #9.2 in
    let* eta := div h #2800 in
    let teta := (#0)%num in
    let* teta := for_each (combine (slice 0 36 T4_hs_ni) (combine (slice 0 36 T4_hs_Ii) (slice 0 36 T4_hs_Ji))) teta (fun teta '(ni_i, (Ii_i, Ji_i)) =>
        let* q3 := powz (eta - #0.119) Ii_i in
        let* q4 := powz (Sigma - #1.07) Ji_i in
        let teta := (teta + (lit ni_i) * q3 * q4)%num in
        Ok teta) in
    let T4_hs := (teta * #550)%num in
    Ok T4_hs
  else
    let* PL :=
        if ((s >? (#(-0.0001545495919))) && (s <=? #3.77828134))%num then
          let Low_Bound := (#0.000611)%num in
          let High_Bound := (#165.291642526045)%num in
          let hL := (#(-1000))%num in
          let* (PL, Ts, hL, High_Bound, Low_Bound) := while fuel
               (fun '(PL, Ts, hL, High_Bound, Low_Bound) => Ok ((((fabs (hL - h)) >? #0.00001) && ((fabs (High_Bound - Low_Bound)) >? #0.0001))%num))
               (fun '(PL, Ts, hL, High_Bound, Low_Bound) =>
                 let* PL := div (Low_Bound + High_Bound) #2 in
                 let* Ts := T4_p PL in
                 let* hL := h1_pT PL Ts in
                 if (hL >? h)%num then
                   let High_Bound := PL in
                   Ok (Next (Some PL, Some Ts, hL, High_Bound, Low_Bound))
                 else
                   let Low_Bound := PL in
                   Ok (Next (Some PL, Some Ts, hL, High_Bound, Low_Bound)))
               (None, None, hL, High_Bound, Low_Bound) in
          Ok PL
        else
          if ((s >? #3.77828134) && (s <=? #4.41202148223476))%num then
            let* PL := p3sat_h h in
            Ok (Some PL)
          else
            if ((s >? #4.41202148223476) && (s <=? #5.210887663))%num then
              let* PL := p3sat_h h in
              Ok (Some PL)
            else
              Ok None in
    let Low_Bound := (#0.000611)%num in
    let* High_Bound := local PL in
    let sss := (#(-1000))%num in
    let* (p, sss, High_Bound, Low_Bound) := while fuel
         (fun '(p, sss, High_Bound, Low_Bound) => Ok ((((fabs (s - sss)) >? #0.000001) && ((fabs (High_Bound - Low_Bound)) >? #0.0000001))%num))
         (fun '(p, sss, High_Bound, Low_Bound) =>
           let* p := div (Low_Bound + High_Bound) #2 in
           let* Ts := T4_p p in
           let* xs := x4_ph p h in
           let* (s4v, s4L) :=
               if (p <? #16.529)%num then
                 let* s4v := s2_pT p Ts in
                 let* s4L := s1_pT p Ts in
                 Ok (s4v, s4L)
               else
                 let* q16 := h4V_p p in
                 let* v4v := v3_ph p q16 in
                 let* q18 := div #1 v4v in
                 let* s4v := s3_rhoT q18 Ts in
                 let* q20 := h4L_p p in
                 let* v4L := v3_ph p q20 in
                 let* q22 := div #1 v4L in
                 let* s4L := s3_rhoT q22 Ts in
                 Ok (s4v, s4L) in
           let sss := (xs * s4v + (#1 - xs) * s4L)%num in
           if (sss <? s)%num then
             let High_Bound := p in
             Ok (Next (Some p, sss, High_Bound, Low_Bound))
           else
             let Low_Bound := p in
             Ok (Next (Some p, sss, High_Bound, Low_Bound)))
         (None, sss, High_Bound, Low_Bound) in
    let* q24 := local p in
    T4_p q24.

(* pyXSteam/Regions.py:1082-1110, Region1.T1_prho *)
Definition T1_prho (p rho : num) : res num :=
  let Low_Bound := (#273.15)%num in
  let* High_Bound := T4_p p in
  let rhos := (#(-1000))%num in
  let* (Ts, rhos, High_Bound, Low_Bound) := while fuel
       (fun '(Ts, rhos, High_Bound, Low_Bound) => Ok (((fabs (rho - rhos)) >? #0.00001)%num))
       (fun '(Ts, rhos, High_Bound, Low_Bound) =>
         let last_rhos := rhos in
         let* Ts := div (Low_Bound + High_Bound) #2 in
         let* q3 := v1_pT p Ts in
         let* rhos := div #1 q3 in
         if (last_rhos =? rhos)%num then
           Ok (Break (Some Ts, rhos, High_Bound, Low_Bound))
         else
         if (rhos <? rho)%num then
           let High_Bound := Ts in
           Ok (Next (Some Ts, rhos, High_Bound, Low_Bound))
         else
           let Low_Bound := Ts in
           Ok (Next (Some Ts, rhos, High_Bound, Low_Bound)))
       (None, rhos, High_Bound, Low_Bound) in
  local Ts.

(* pyXSteam/Regions.py:3421-3451, Region2.T2_prho *)
Definition T2_prho (p rho : num) : res num :=
  let* Low_Bound :=
      if (p <? #16.5292)%num then
        T4_p p
      else
        B23T_p p in
  let High_Bound := (#1073.15)%num in
  let rhos := (#(-1000))%num in
  let* (Ts, rhos, High_Bound, Low_Bound) := while fuel
       (fun '(Ts, rhos, High_Bound, Low_Bound) => Ok (((fabs (rho - rhos)) >? #0.000001)%num))
       (fun '(Ts, rhos, High_Bound, Low_Bound) =>
         let last_rhos := rhos in
         let* Ts := div (Low_Bound + High_Bound) #2 in
         let* q4 := v2_pT p Ts in
         let* rhos := div #1 q4 in
         if (last_rhos =? rhos)%num then
           Ok (Break (Some Ts, rhos, High_Bound, Low_Bound))
         else
         if (rhos <? rho)%num then
           let High_Bound := Ts in
           Ok (Next (Some Ts, rhos, High_Bound, Low_Bound))
         else
           let Low_Bound := Ts in
           Ok (Next (Some Ts, rhos, High_Bound, Low_Bound)))
       (None, rhos, High_Bound, Low_Bound) in
  local Ts.

(* pyXSteam/Regions.py:5687-5729, Region3.h3_pT *)
Definition h3_pT (p T : num) : res num :=
  let* (Low_Bound, High_Bound) :=
      if (p <? #22.06395)%num then
        let* Ts := T4_p p in
        if (T <=? Ts)%num then
          let* High_Bound := h4L_p p in
          let* Low_Bound := h1_pT p #623.15 in
          Ok (Low_Bound, High_Bound)
        else
          let* Low_Bound := h4V_p p in
          let* q5 := B23T_p p in
          let* High_Bound := h2_pT p q5 in
          Ok (Low_Bound, High_Bound)
      else
        let* Low_Bound := h1_pT p #623.15 in
        let* q8 := B23T_p p in
        let* High_Bound := h2_pT p q8 in
        Ok (Low_Bound, High_Bound) in
  let Ts := (T + #1)%num in
  let* (hs, Ts, High_Bound, Low_Bound) := while fuel
       (fun '(hs, Ts, High_Bound, Low_Bound) => Ok (((fabs (T - Ts)) >? #0.00001)%num))
       (fun '(hs, Ts, High_Bound, Low_Bound) =>
         let last_Ts := Ts in
         let* hs := div (Low_Bound + High_Bound) #2 in
         let* Ts := T3_ph p hs in
         if (last_Ts =? Ts)%num then
           Ok (Break (Some hs, Ts, High_Bound, Low_Bound))
         else
         if (Ts >? T)%num then
           let High_Bound := hs in
           Ok (Next (Some hs, Ts, High_Bound, Low_Bound))
         else
           let Low_Bound := hs in
           Ok (Next (Some hs, Ts, High_Bound, Low_Bound)))
       (None, Ts, High_Bound, Low_Bound) in
  local hs.

End Model.
