(** GENERATED by tools/translate.py from pyXSteam/IAPWS_R4.py -- do not edit.
    Text of the Python source, function by function; see DESIGN.md. *)
From Coq Require Import ZArith List Bool.
From Verif Require Import Py.
Import ListNotations.
Open Scope Z_scope.
Open Scope num_scope.

Section Model.
Context {N : Num} {F : Fuel}.

(* pyXSteam/IAPWS_R4.py:34-34 *)
Definition myHW_rhoT_R4_A : list dec := [1.0; 0.940695; 0.578377; -0.202044]%dec.
(* pyXSteam/IAPWS_R4.py:42-49 *)
Definition myHW_rhoT_R4_B : list (list dec) := [
  [0.4864192; -0.2448372; -0.8702035; 0.8716056; -1.051126; 0.3458395]; 
  [0.3509007; 1.315436; 1.297752; 1.353448; 0.0; 0.0]; 
  [-0.2847572; -1.037026; -1.287846; 0.0; 0.0; -0.02148229]; 
  [0.07013759; 0.4660127; 0.2292075; -0.4857462; 0.0; 0.0]; 
  [0.01641220; -0.02884911; 0.0; 0.1607171; 0.0; -0.009603846]; 
  [-0.01163815; -0.008239587; 0.0; 0.0; 0.0; 0.004559914]; 
  [0.0; 0.0; 0.0; -0.003886659; 0.0; 0.0]]%dec.
(* pyXSteam/IAPWS_R4.py:14-67, myHW_rhoT_R4 *)
Definition myHW_rhoT_R4 (rho T : num) : res num :=
  let T_star := (#643.847)%num in
  let rho_star := (#358)%num in
  let my_star := (#55.2651)%num in
  let* T_dash := div T T_star in
  let* rho_dash := div rho rho_star in
  let sum_A_T := (#0)%num in
  let* sum_A_T := for_each (combine (zrange 0 4) (slice 0 4 myHW_rhoT_R4_A)) sum_A_T (fun sum_A_T '(i, A_i) =>
      let* q3 := powz T_dash i in
      let* q4 := div (lit A_i) q3 in
      let sum_A_T := (sum_A_T + q4)%num in
      Ok sum_A_T) in
  let* q5 := sqrt T_dash in
  let* my_0_dash := div q5 sum_A_T in
  let temp_sum := (#0)%num in
  let* temp_sum := for_each (zrange 0 6) temp_sum (fun temp_sum i =>
      let* q7 := div #1.0 T_dash in
      let* part_T := powz (q7 - #1.0) i in
      let sum_B := (#0)%num in
      let* sum_B := for_each (combine (zrange 0 7) (slice 0 7 myHW_rhoT_R4_B)) sum_B (fun sum_B '(j, B_j) =>
          let* q9 := item B_j i in
          let* q10 := powz (rho_dash - #1.0) j in
          let sum_B := (sum_B + lit q9 * q10)%num in
          Ok sum_B) in
      let temp_sum := (temp_sum + part_T * sum_B)%num in
      Ok temp_sum) in
  let* my_1_dash := exp (rho_dash * temp_sum) in
  let my_dash := (my_0_dash * my_1_dash)%num in
  let my := (my_dash * my_star)%num in
  Ok my.

(* pyXSteam/IAPWS_R4.py:92-92 *)
Definition tcHW_rhoT_R4_A : list dec := [1.0; 37.3223; 22.5485; 13.0465; 0.0; -2.60735]%dec.
(* pyXSteam/IAPWS_R4.py:94-94 *)
Definition tcHW_rhoT_R4_B : list dec := [-167.31; 483.656; -191.039; 73.0358; -7.57467]%dec.
(* pyXSteam/IAPWS_R4.py:70-137, tcHW_rhoT_R4 *)
Definition tcHW_rhoT_R4 (rho T : num) : res num :=
  let T_star := (#643.847)%num in
  let rho_star := (#358)%num in
  let tc_star := (#0.742128)%num in
  let* T_dash := div T T_star in
  let* rho_dash := div rho rho_star in
  let B_e := (#(-2.506))%num in
  let C_1 := (#35429.6)%num in
  let C_2 := (#5000.0e6)%num in
  let C_T1 := (#0.144847)%num in
  let C_T2 := (#(-5.64493))%num in
  let C_R1 := (#(-2.80000))%num in
  let C_R2 := (#(-0.080738543))%num in
  let C_R3 := (#(-17.9430))%num in
  let rho_r1 := (#0.125698)%num in
  let D_1 := (#(-741.112))%num in
  let* tau := div T_dash (fabs (T_dash - #1.1) + #1.1) in
  let* q4 := powz T_dash 2 in
  let* f_1 := exp (C_T1 * T_dash + C_T2 * q4) in
  let* q6 := powz (rho_dash - #1.0) 2 in
  let* q7 := exp (C_R1 * q6) in
  let* q8 := powz (rho_dash - rho_r1) 2 in
  let* q9 := exp (C_R3 * q8) in
  let f_2 := (q7 + C_R2 * q9)%num in
  let* q10 := exp (#60.0 * (tau - #1.0) + #20.0) in
  let f_3 := (#1 + q10)%num in
  let* q11 := exp (#100.0 * (tau - #1.0) + #15.0) in
  let f_4 := (#1 + q11)%num in
  let* q12 := powz f_1 4 in
  let* part_C2 := div (C_2 * q12) f_3 in
  let* part_f2 := div (#3.5 * f_2) f_4 in
  let temp_sum := (#0)%num in
  let* temp_sum := for_each (combine (zrange 0 6) (slice 0 6 tcHW_rhoT_R4_A)) temp_sum (fun temp_sum '(i, A_i) =>
      let* q15 := powz T_dash i in
      let temp_sum := (temp_sum + (lit A_i) * q15)%num in
      Ok temp_sum) in
  let tc_o := temp_sum in
  let temp_sum := (#0)%num in
  let* temp_sum := for_each (combine (zrange 1 5) (slice 1 5 tcHW_rhoT_R4_B)) temp_sum (fun temp_sum '(i, B_i) =>
      let* q16 := powz rho_dash i in
      let temp_sum := (temp_sum + (lit B_i) * q16)%num in
      Ok temp_sum) in
  let* q17 := item tcHW_rhoT_R4_B 0 in
  let* q18 := exp (B_e * rho_dash) in
  let delta_tc := ((lit q17) * (#1.0 - q18) + temp_sum)%num in
  let* q19 := powz f_2 2 in
  let delta_tc_c := (C_1 * f_1 * f_2 * (#1.0 + q19 * (part_C2 + part_f2)))%num in
  let* q20 := powf f_1 #1.2 in
  let* q21 := div rho_dash #2.5 in
  let* q22 := powz q21 10 in
  let* q23 := exp (#(-1.0) * q22) in
  let delta_tc_L := (D_1 * q20 * (#1.0 - q23))%num in
  let tc_dash := (tc_o + delta_tc + delta_tc_c + delta_tc_L)%num in
  let tc := (tc_dash * tc_star)%num in
  Ok tc.

End Model.
