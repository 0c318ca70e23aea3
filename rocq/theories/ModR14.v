(** GENERATED by tools/translate.py from pyXSteam/IAPWS_R14.py -- do not edit.
    Text of the Python source, function by function; see DESIGN.md. *)
From Coq Require Import ZArith List Bool.
From Verif Require Import Py.
Import ListNotations.
Open Scope Z_scope.
Open Scope num_scope.

Section Model.
Context {N : Num} {F : Fuel}.

(* pyXSteam/IAPWS_R14.py:27-27 *)
Definition pmelt_T_iceIh_a : list dec := [0.119539337e7; 0.808183159e5; 0.333826860e4]%dec.
(* pyXSteam/IAPWS_R14.py:28-28 *)
Definition pmelt_T_iceIh_b : list dec := [0.300000e1; 0.257500e2; 0.103750e3]%dec.
(* pyXSteam/IAPWS_R14.py:20-33, pmelt_T_iceIh *)
Definition pmelt_T_iceIh (T : num) : res num :=
  let T_star := (#273.16)%num in
  let p_star := (#611.657e-6)%num in
  let* theta := div T T_star in
  let temp_sum := (#0)%num in
  let* temp_sum := for_each (combine (slice 0 3 pmelt_T_iceIh_a) (slice 0 3 pmelt_T_iceIh_b)) temp_sum (fun temp_sum '(a_i, b_i) =>
      let* q2 := powf theta (lit b_i) in
      let temp_sum := (temp_sum + (lit a_i) * (#1 - q2))%num in
      Ok temp_sum) in
  let pi_melt := (#1 + temp_sum)%num in
  Ok (pi_melt * p_star).

(* pyXSteam/IAPWS_R14.py:36-44, pmelt_T_iceIII *)
Definition pmelt_T_iceIII (T : num) : res num :=
  let T_star := (#251.165)%num in
  let p_star := (#208.566)%num in
  let* theta := div T T_star in
  let* q2 := powz theta 60 in
  let pi_melt := (#1 - #0.299948 * (#1.0 - q2))%num in
  Ok (pi_melt * p_star).

(* pyXSteam/IAPWS_R14.py:47-55, pmelt_T_iceV *)
Definition pmelt_T_iceV (T : num) : res num :=
  let T_star := (#256.164)%num in
  let p_star := (#350.1)%num in
  let* theta := div T T_star in
  let* q2 := powz theta 8 in
  let pi_melt := (#1 - #1.18721 * (#1.0 - q2))%num in
  Ok (pi_melt * p_star).

(* pyXSteam/IAPWS_R14.py:58-66, pmelt_T_iceVI *)
Definition pmelt_T_iceVI (T : num) : res num :=
  let T_star := (#273.31)%num in
  let p_star := (#632.4)%num in
  let* theta := div T T_star in
  let* q2 := powf theta #4.6 in
  let pi_melt := (#1 - #1.07476 * (#1.0 - q2))%num in
  Ok (pi_melt * p_star).

(* pyXSteam/IAPWS_R14.py:69-80, pmelt_T_iceVII *)
Definition pmelt_T_iceVII (T : num) : res num :=
  let T_star := (#355.0)%num in
  let p_star := (#2216.0)%num in
  let* theta := div T T_star in
  let* q2 := powz theta (-1) in
  let p1 := (#0.173683e1 * (#1 - q2))%num in
  let* q3 := powz theta 5 in
  let p2 := (#0.544606e-1 * (#1 - q3))%num in
  let* q4 := powz theta 22 in
  let p3 := (#0.806106e-7 * (#1 - q4))%num in
  let* pi_melt := exp (p1 - p2 + p3) in
  Ok (pi_melt * p_star).

(* pyXSteam/IAPWS_R14.py:89-89 *)
Definition psubl_T_a : list dec := [-0.212144006e2; 0.273203819e2; -0.610598130e1]%dec.
(* pyXSteam/IAPWS_R14.py:90-90 *)
Definition psubl_T_b : list dec := [0.333333333e-2; 0.120666667e1; 0.170333333e1]%dec.
(* pyXSteam/IAPWS_R14.py:83-96, psubl_T *)
Definition psubl_T (T : num) : res num :=
  let T_star := (#273.16)%num in
  let p_star := (#611.657e-6)%num in
  let* theta := div T T_star in
  let temp_sum := (#0)%num in
  let* temp_sum := for_each (combine (slice 0 3 psubl_T_a) (slice 0 3 psubl_T_b)) temp_sum (fun temp_sum '(a_i, b_i) =>
      let* q2 := powf theta (lit b_i) in
      let temp_sum := (temp_sum + (lit a_i) * q2)%num in
      Ok temp_sum) in
  let* q3 := powz theta (-1) in
  let* pi_subl := exp (q3 * temp_sum) in
  Ok (pi_subl * p_star).

End Model.
