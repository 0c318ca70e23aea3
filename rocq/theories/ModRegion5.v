(** GENERATED by tools/translate.py from pyXSteam/Regions.py, class Region5 -- do not edit.
    Text of the Python source, function by function; see DESIGN.md. *)
From Coq Require Import ZArith List Bool.
From Verif Require Import Py ModConstants ModBorders ModRegion2.
Import ListNotations.
Open Scope Z_scope.
Open Scope num_scope.

Section Model.
Context {N : Num} {F : Fuel}.

(* pyXSteam/Regions.py:6403-6403 *)
Definition h5_pT_Ji0 : list Z := [0; 1; -3; -2; -1; 2]%Z.
(* pyXSteam/Regions.py:6404-6411 *)
Definition h5_pT_ni0 : list dec := [
  -13.179983674201; 6.8540841634434; -0.024805148933466; 0.36901534980333; -3.1161318213925; 
  -0.32961626538917]%dec.
(* pyXSteam/Regions.py:6412-6412 *)
Definition h5_pT_Iir : list Z := [1; 1; 1; 2; 3]%Z.
(* pyXSteam/Regions.py:6413-6413 *)
Definition h5_pT_Jir : list Z := [0; 1; 3; 9; 3]%Z.
(* pyXSteam/Regions.py:6414-6420 *)
Definition h5_pT_nir : list dec := [
  -1.2563183589592e-04; 2.1774678714571e-03; -0.004594282089991; -3.9724828359569e-06; 
  1.2919228289784e-07]%dec.
(* pyXSteam/Regions.py:6396-6432, Region5.h5_pT *)
Definition h5_pT (p T : num) : res num :=
  let R := SPECIFIC_GAS_CONSTANT in
  let* tau := div #1000 T in
  let Pi := p in
  let gamma0_tau := (#0)%num in
  let* gamma0_tau := for_each (combine (slice 0 6 h5_pT_ni0) (slice 0 6 h5_pT_Ji0)) gamma0_tau (fun gamma0_tau '(ni0_i, Ji0_i) =>
      let* q2 := powz tau ((Ji0_i - 1)%Z) in
      let gamma0_tau := (gamma0_tau + (lit ni0_i) * int Ji0_i * q2)%num in
      Ok gamma0_tau) in
  let gammar_tau := (#0)%num in
  let* gammar_tau := for_each (combine (slice 0 5 h5_pT_nir) (combine (slice 0 5 h5_pT_Iir) (slice 0 5 h5_pT_Jir))) gammar_tau (fun gammar_tau '(nir_i, (Iir_i, Jir_i)) =>
      let* q3 := powz Pi Iir_i in
      let* q4 := powz tau ((Jir_i - 1)%Z) in
      let gammar_tau := (gammar_tau + (lit nir_i) * q3 * int Jir_i * q4)%num in
      Ok gammar_tau) in
  Ok (R * T * tau * (gamma0_tau + gammar_tau)).

(* pyXSteam/Regions.py:6442-6442 *)
Definition v5_pT_Iir : list Z := [1; 1; 1; 2; 3]%Z.
(* pyXSteam/Regions.py:6443-6443 *)
Definition v5_pT_Jir : list Z := [0; 1; 3; 9; 3]%Z.
(* pyXSteam/Regions.py:6444-6450 *)
Definition v5_pT_nir : list dec := [
  -1.2563183589592e-04; 2.1774678714571e-03; -0.004594282089991; -3.9724828359569e-06; 
  1.2919228289784e-07]%dec.
(* pyXSteam/Regions.py:6435-6458, Region5.v5_pT *)
Definition v5_pT (p T : num) : res num :=
  let R := SPECIFIC_GAS_CONSTANT in
  let* tau := div #1000 T in
  let Pi := p in
  let* gamma0_pi := div #1 Pi in
  let gammar_pi := (#0)%num in
  let* gammar_pi := for_each (combine (slice 0 5 v5_pT_nir) (combine (slice 0 5 v5_pT_Iir) (slice 0 5 v5_pT_Jir))) gammar_pi (fun gammar_pi '(nir_i, (Iir_i, Jir_i)) =>
      let* q3 := powz Pi ((Iir_i - 1)%Z) in
      let* q4 := powz tau Jir_i in
      let gammar_pi := (gammar_pi + (lit nir_i) * int Iir_i * q3 * q4)%num in
      Ok gammar_pi) in
  let* q5 := div (R * T) p in
  div (q5 * Pi * (gamma0_pi + gammar_pi)) #1000.

(* pyXSteam/Regions.py:6468-6468 *)
Definition u5_pT_Ji0 : list Z := [0; 1; -3; -2; -1; 2]%Z.
(* pyXSteam/Regions.py:6469-6476 *)
Definition u5_pT_ni0 : list dec := [
  -13.179983674201; 6.8540841634434; -0.024805148933466; 0.36901534980333; -3.1161318213925; 
  -0.32961626538917]%dec.
(* pyXSteam/Regions.py:6477-6477 *)
Definition u5_pT_Iir : list Z := [1; 1; 1; 2; 3]%Z.
(* pyXSteam/Regions.py:6478-6478 *)
Definition u5_pT_Jir : list Z := [0; 1; 3; 9; 3]%Z.
(* pyXSteam/Regions.py:6479-6485 *)
Definition u5_pT_nir : list dec := [
  -1.2563183589592e-04; 2.1774678714571e-03; -0.004594282089991; -3.9724828359569e-06; 
  1.2919228289784e-07]%dec.
(* pyXSteam/Regions.py:6461-6500, Region5.u5_pT *)
Definition u5_pT (p T : num) : res num :=
  let R := SPECIFIC_GAS_CONSTANT in
  let* tau := div #1000 T in
  let Pi := p in
  let* gamma0_pi := div #1 Pi in
  let gamma0_tau := (#0)%num in
  let* gamma0_tau := for_each (combine (slice 0 6 u5_pT_ni0) (slice 0 6 u5_pT_Ji0)) gamma0_tau (fun gamma0_tau '(ni0_i, Ji0_i) =>
      let* q3 := powz tau ((Ji0_i - 1)%Z) in
      let gamma0_tau := (gamma0_tau + (lit ni0_i) * int Ji0_i * q3)%num in
      Ok gamma0_tau) in
  let gammar_pi := (#0)%num in
  let gammar_tau := (#0)%num in
  let* (gammar_pi, gammar_tau) := for_each (combine (slice 0 5 u5_pT_nir) (combine (slice 0 5 u5_pT_Iir) (slice 0 5 u5_pT_Jir))) (gammar_pi, gammar_tau) (fun '(gammar_pi, gammar_tau) '(nir_i, (Iir_i, Jir_i)) =>
      let* q4 := powz Pi ((Iir_i - 1)%Z) in
      let* q5 := powz tau Jir_i in
      let gammar_pi := (gammar_pi + (lit nir_i) * int Iir_i * q4 * q5)%num in
      let* q6 := powz Pi Iir_i in
      let* q7 := powz tau ((Jir_i - 1)%Z) in
      let gammar_tau := (gammar_tau + (lit nir_i) * q6 * int Jir_i * q7)%num in
      Ok (gammar_pi, gammar_tau)) in
  Ok (R * T * (tau * (gamma0_tau + gammar_tau) - Pi * (gamma0_pi + gammar_pi))).

(* pyXSteam/Regions.py:6510-6510 *)
Definition Cp5_pT_Ji0 : list Z := [0; 1; -3; -2; -1; 2]%Z.
(* pyXSteam/Regions.py:6511-6518 *)
Definition Cp5_pT_ni0 : list dec := [
  -13.179983674201; 6.8540841634434; -0.024805148933466; 0.36901534980333; -3.1161318213925; 
  -0.32961626538917]%dec.
(* pyXSteam/Regions.py:6519-6519 *)
Definition Cp5_pT_Iir : list Z := [1; 1; 1; 2; 3]%Z.
(* pyXSteam/Regions.py:6520-6520 *)
Definition Cp5_pT_Jir : list Z := [0; 1; 3; 9; 3]%Z.
(* pyXSteam/Regions.py:6521-6527 *)
Definition Cp5_pT_nir : list dec := [
  -1.2563183589592e-04; 2.1774678714571e-03; -0.004594282089991; -3.9724828359569e-06; 
  1.2919228289784e-07]%dec.
(* pyXSteam/Regions.py:6503-6541, Region5.Cp5_pT *)
Definition Cp5_pT (p T : num) : res num :=
  let R := SPECIFIC_GAS_CONSTANT in
  let* tau := div #1000 T in
  let Pi := p in
  let gamma0_tautau := (#0)%num in
  let* gamma0_tautau := for_each (combine (slice 0 6 Cp5_pT_ni0) (slice 0 6 Cp5_pT_Ji0)) gamma0_tautau (fun gamma0_tautau '(ni0_i, Ji0_i) =>
      let* q2 := powz tau ((Ji0_i - 2)%Z) in
      let gamma0_tautau := (gamma0_tautau + (lit ni0_i) * int Ji0_i * int ((Ji0_i - 1)%Z) * q2)%num in
      Ok gamma0_tautau) in
  let gammar_tautau := (#0)%num in
  let* gammar_tautau := for_each (combine (slice 0 5 Cp5_pT_nir) (combine (slice 0 5 Cp5_pT_Iir) (slice 0 5 Cp5_pT_Jir))) gammar_tautau (fun gammar_tautau '(nir_i, (Iir_i, Jir_i)) =>
      let* q3 := powz Pi Iir_i in
      let* q4 := powz tau ((Jir_i - 2)%Z) in
      let gammar_tautau := (gammar_tautau + (lit nir_i) * q3 * int Jir_i * int ((Jir_i - 1)%Z) * q4)%num in
      Ok gammar_tautau) in
  let* q5 := powz tau 2 in
  Ok ((- R) * q5 * (gamma0_tautau + gammar_tautau)).

(* pyXSteam/Regions.py:6551-6551 *)
Definition s5_pT_Ji0 : list Z := [0; 1; -3; -2; -1; 2]%Z.
(* pyXSteam/Regions.py:6552-6559 *)
Definition s5_pT_ni0 : list dec := [
  -13.179983674201; 6.8540841634434; -0.024805148933466; 0.36901534980333; -3.1161318213925; 
  -0.32961626538917]%dec.
(* pyXSteam/Regions.py:6560-6560 *)
Definition s5_pT_Iir : list Z := [1; 1; 1; 2; 3]%Z.
(* pyXSteam/Regions.py:6561-6561 *)
Definition s5_pT_Jir : list Z := [0; 1; 3; 9; 3]%Z.
(* pyXSteam/Regions.py:6562-6568 *)
Definition s5_pT_nir : list dec := [
  -1.2563183589592e-04; 2.1774678714571e-03; -0.004594282089991; -3.9724828359569e-06; 
  1.2919228289784e-07]%dec.
(* pyXSteam/Regions.py:6544-6584, Region5.s5_pT *)
Definition s5_pT (p T : num) : res num :=
  let R := SPECIFIC_GAS_CONSTANT in
  let* tau := div #1000 T in
  let Pi := p in
  let* gamma0 := log Pi in
  let gamma0_tau := (#0)%num in
  let* (gamma0_tau, gamma0) := for_each (combine (slice 0 6 s5_pT_ni0) (slice 0 6 s5_pT_Ji0)) (gamma0_tau, gamma0) (fun '(gamma0_tau, gamma0) '(ni0_i, Ji0_i) =>
      let* q3 := powz tau ((Ji0_i - 1)%Z) in
      let gamma0_tau := (gamma0_tau + (lit ni0_i) * int Ji0_i * q3)%num in
      let* q4 := powz tau Ji0_i in
      let gamma0 := (gamma0 + (lit ni0_i) * q4)%num in
      Ok (gamma0_tau, gamma0)) in
  let gammar := (#0)%num in
  let gammar_tau := (#0)%num in
  let* (gammar, gammar_tau) := for_each (combine (slice 0 5 s5_pT_nir) (combine (slice 0 5 s5_pT_Iir) (slice 0 5 s5_pT_Jir))) (gammar, gammar_tau) (fun '(gammar, gammar_tau) '(nir_i, (Iir_i, Jir_i)) =>
      let* q5 := powz Pi Iir_i in
      let* q6 := powz tau Jir_i in
      let gammar := (gammar + (lit nir_i) * q5 * q6)%num in
      let* q7 := powz Pi Iir_i in
      let* q8 := powz tau ((Jir_i - 1)%Z) in
      let gammar_tau := (gammar_tau + (lit nir_i) * q7 * int Jir_i * q8)%num in
      Ok (gammar, gammar_tau)) in
  Ok (R * (tau * (gamma0_tau + gammar_tau) - (gamma0 + gammar))).

(* pyXSteam/Regions.py:6594-6594 *)
Definition Cv5_pT_Ji0 : list Z := [0; 1; -3; -2; -1; 2]%Z.
(* pyXSteam/Regions.py:6595-6602 *)
Definition Cv5_pT_ni0 : list dec := [
  -13.179983674201; 6.8540841634434; -0.024805148933466; 0.36901534980333; -3.1161318213925; 
  -0.32961626538917]%dec.
(* pyXSteam/Regions.py:6603-6603 *)
Definition Cv5_pT_Iir : list Z := [1; 1; 1; 2; 3]%Z.
(* pyXSteam/Regions.py:6604-6604 *)
Definition Cv5_pT_Jir : list Z := [0; 1; 3; 9; 3]%Z.
(* pyXSteam/Regions.py:6605-6611 *)
Definition Cv5_pT_nir : list dec := [
  -1.2563183589592e-04; 2.1774678714571e-03; -0.004594282089991; -3.9724828359569e-06; 
  1.2919228289784e-07]%dec.
(* pyXSteam/Regions.py:6587-6640, Region5.Cv5_pT *)
Definition Cv5_pT (p T : num) : res num :=
  let R := SPECIFIC_GAS_CONSTANT in
  let* tau := div #1000 T in
  let Pi := p in
  let gamma0_tautau := (#0)%num in
  let* gamma0_tautau := for_each (combine (slice 0 6 Cv5_pT_ni0) (slice 0 6 Cv5_pT_Ji0)) gamma0_tautau (fun gamma0_tautau '(ni0_i, Ji0_i) =>
      let* q2 := powz tau ((Ji0_i - 2)%Z) in
      let gamma0_tautau := (gamma0_tautau + (lit ni0_i) * int ((Ji0_i - 1)%Z) * int Ji0_i * q2)%num in
      Ok gamma0_tautau) in
  let gammar_pi := (#0)%num in
  let gammar_pitau := (#0)%num in
  let gammar_pipi := (#0)%num in
  let gammar_tautau := (#0)%num in
  let* (gammar_pi, gammar_pitau, gammar_pipi, gammar_tautau) := for_each (combine (slice 0 5 Cv5_pT_nir) (combine (slice 0 5 Cv5_pT_Iir) (slice 0 5 Cv5_pT_Jir))) (gammar_pi, gammar_pitau, gammar_pipi, gammar_tautau) (fun '(gammar_pi, gammar_pitau, gammar_pipi, gammar_tautau) '(nir_i, (Iir_i, Jir_i)) =>
      let* q3 := powz Pi ((Iir_i - 1)%Z) in
      let* q4 := powz tau Jir_i in
      let gammar_pi := (gammar_pi + (lit nir_i) * int Iir_i * q3 * q4)%num in
      let* q5 := powz Pi ((Iir_i - 1)%Z) in
      let* q6 := powz tau ((Jir_i - 1)%Z) in
      let gammar_pitau := (gammar_pitau + (lit nir_i) * int Iir_i * q5 * int Jir_i * q6)%num in
      let* q7 := powz Pi ((Iir_i - 2)%Z) in
      let* q8 := powz tau Jir_i in
      let gammar_pipi := (gammar_pipi + (lit nir_i) * int Iir_i * int ((Iir_i - 1)%Z) * q7 * q8)%num in
      let* q9 := powz Pi Iir_i in
      let* q10 := powz tau ((Jir_i - 2)%Z) in
      let gammar_tautau := (gammar_tautau + (lit nir_i) * q9 * int Jir_i * int ((Jir_i - 1)%Z) * q10)%num in
      Ok (gammar_pi, gammar_pitau, gammar_pipi, gammar_tautau)) in
  let* q11 := powz tau 2 in
  let* q12 := powz (#1 + Pi * gammar_pi - tau * Pi * gammar_pitau) 2 in
  let* q13 := powz Pi 2 in
  let* q14 := div q12 (#1 - q13 * gammar_pipi) in
  Ok (R * ((- (q11 * (gamma0_tautau + gammar_tautau))) - q14)).

(* pyXSteam/Regions.py:6650-6650 *)
Definition w5_pT_Ji0 : list Z := [0; 1; -3; -2; -1; 2]%Z.
(* pyXSteam/Regions.py:6651-6658 *)
Definition w5_pT_ni0 : list dec := [
  -13.179983674201; 6.8540841634434; -0.024805148933466; 0.36901534980333; -3.1161318213925; 
  -0.32961626538917]%dec.
(* pyXSteam/Regions.py:6659-6659 *)
Definition w5_pT_Iir : list Z := [1; 1; 1; 2; 3]%Z.
(* pyXSteam/Regions.py:6660-6660 *)
Definition w5_pT_Jir : list Z := [0; 1; 3; 9; 3]%Z.
(* pyXSteam/Regions.py:6661-6667 *)
Definition w5_pT_nir : list dec := [
  -1.2563183589592e-04; 2.1774678714571e-03; -0.004594282089991; -3.9724828359569e-06; 
  1.2919228289784e-07]%dec.
(* pyXSteam/Regions.py:6643-6702, Region5.w5_pT *)
Definition w5_pT (p T : num) : res num :=
  let R := SPECIFIC_GAS_CONSTANT in
  let* tau := div #1000 T in
  let Pi := p in
  let gamma0_tautau := (#0)%num in
  let* gamma0_tautau := for_each (combine (slice 0 6 w5_pT_ni0) (slice 0 6 w5_pT_Ji0)) gamma0_tautau (fun gamma0_tautau '(ni0_i, Ji0_i) =>
      let* q2 := powz tau ((Ji0_i - 2)%Z) in
      let gamma0_tautau := (gamma0_tautau + (lit ni0_i) * int ((Ji0_i - 1)%Z) * int Ji0_i * q2)%num in
      Ok gamma0_tautau) in
  let gammar_pi := (#0)%num in
  let gammar_pitau := (#0)%num in
  let gammar_pipi := (#0)%num in
  let gammar_tautau := (#0)%num in
  let* (gammar_pi, gammar_pitau, gammar_pipi, gammar_tautau) := for_each (combine (slice 0 5 w5_pT_nir) (combine (slice 0 5 w5_pT_Iir) (slice 0 5 w5_pT_Jir))) (gammar_pi, gammar_pitau, gammar_pipi, gammar_tautau) (fun '(gammar_pi, gammar_pitau, gammar_pipi, gammar_tautau) '(nir_i, (Iir_i, Jir_i)) =>
      let* q3 := powz Pi ((Iir_i - 1)%Z) in
      let* q4 := powz tau Jir_i in
      let gammar_pi := (gammar_pi + (lit nir_i) * int Iir_i * q3 * q4)%num in
      let* q5 := powz Pi ((Iir_i - 1)%Z) in
      let* q6 := powz tau ((Jir_i - 1)%Z) in
      let gammar_pitau := (gammar_pitau + (lit nir_i) * int Iir_i * q5 * int Jir_i * q6)%num in
      let* q7 := powz Pi ((Iir_i - 2)%Z) in
      let* q8 := powz tau Jir_i in
      let gammar_pipi := (gammar_pipi + (lit nir_i) * int Iir_i * int ((Iir_i - 1)%Z) * q7 * q8)%num in
      let* q9 := powz Pi Iir_i in
      let* q10 := powz tau ((Jir_i - 2)%Z) in
      let gammar_tautau := (gammar_tautau + (lit nir_i) * q9 * int Jir_i * int ((Jir_i - 1)%Z) * q10)%num in
      Ok (gammar_pi, gammar_pitau, gammar_pipi, gammar_tautau)) in
  let* q11 := powz Pi 2 in
  let* q12 := powz gammar_pi 2 in
  let* q13 := powz Pi 2 in
  let* q14 := powz (#1 + Pi * gammar_pi - tau * Pi * gammar_pitau) 2 in
  let* q15 := powz tau 2 in
  let* q16 := div q14 (q15 * (gamma0_tautau + gammar_tautau)) in
  let* q17 := div (#1000 * R * T * (#1 + #2 * Pi * gammar_pi + q11 * q12)) (#1 - q13 * gammar_pipi + q16) in
  powf q17 #0.5.

(* pyXSteam/Regions.py:6705-6733, Region5.T5_ph *)
Definition T5_ph (p h : num) : res num :=
  let Low_Bound := (#1073.15)%num in
  let High_Bound := (#2273.15)%num in
  let hs := (h - #1)%num in
  let* (Ts, hs, High_Bound, Low_Bound) := while fuel
       (fun '(Ts, hs, High_Bound, Low_Bound) => Ok (((fabs (h - hs)) >? #0.00001)%num))
       (fun '(Ts, hs, High_Bound, Low_Bound) =>
         let last_hs := hs in
         let* Ts := div (Low_Bound + High_Bound) #2 in
         let* hs := h5_pT p Ts in
         if (last_hs =? hs)%num then
           Ok (Break (Some Ts, hs, High_Bound, Low_Bound))
         else
         if (hs >? h)%num then
           let High_Bound := Ts in
           Ok (Next (Some Ts, hs, High_Bound, Low_Bound))
         else
           let Low_Bound := Ts in
           Ok (Next (Some Ts, hs, High_Bound, Low_Bound)))
       (None, hs, High_Bound, Low_Bound) in
  local Ts.

(* pyXSteam/Regions.py:6736-6764, Region5.T5_ps *)
Definition T5_ps (p s : num) : res num :=
  let Low_Bound := (#1073.15)%num in
  let High_Bound := (#2273.15)%num in
  let ss := (s - #1)%num in
  let* (Ts, ss, High_Bound, Low_Bound) := while fuel
       (fun '(Ts, ss, High_Bound, Low_Bound) => Ok (((fabs (s - ss)) >? #0.00001)%num))
       (fun '(Ts, ss, High_Bound, Low_Bound) =>
         let last_ss := ss in
         let* Ts := div (Low_Bound + High_Bound) #2 in
         let* ss := s5_pT p Ts in
         if (last_ss =? ss)%num then
           Ok (Break (Some Ts, ss, High_Bound, Low_Bound))
         else
         if (ss >? s)%num then
           let High_Bound := Ts in
           Ok (Next (Some Ts, ss, High_Bound, Low_Bound))
         else
           let Low_Bound := Ts in
           Ok (Next (Some Ts, ss, High_Bound, Low_Bound)))
       (None, ss, High_Bound, Low_Bound) in
  local Ts.

(* pyXSteam/Regions.py:6767-6795, Region5.T5_prho *)
Definition T5_prho (p rho : num) : res num :=
  let Low_Bound := (#1073.15)%num in
  let High_Bound := (#2073.15)%num in
  let rhos := (#(-1000))%num in
  let* (Ts, rhos, High_Bound, Low_Bound) := while fuel
       (fun '(Ts, rhos, High_Bound, Low_Bound) => Ok (((fabs (rho - rhos)) >? #0.000001)%num))
       (fun '(Ts, rhos, High_Bound, Low_Bound) =>
         let last_rhos := rhos in
         let* Ts := div (Low_Bound + High_Bound) #2 in
         let* q2 := v2_pT p Ts in
         let* rhos := div #1 q2 in
         if (last_rhos =? rhos)%num then
           Ok (Break (Some Ts, rhos, High_Bound, Low_Bound))
         else
         if (rhos <? rho)%num then
           let High_Bound := Ts in
           Ok (Next (Some Ts, rhos, High_Bound, Low_Bound))
         else
           let Low_Bound := Ts in
           Ok (Next (Some Ts, rhos, High_Bound, Low_Bound)))
       (None, rhos, High_Bound, Low_Bound) in
  local Ts.

End Model.
