(** GENERATED by tools/translate.py from pyXSteam/RegionBorders.py -- do not edit.
    Text of the Python source, function by function; see DESIGN.md. *)
From Coq Require Import ZArith List Bool.
From Verif Require Import Py.
Import ListNotations.
Open Scope Z_scope.
Open Scope num_scope.

Section Model.
Context {N : Num} {F : Fuel}.

(* pyXSteam/RegionBorders.py:8-17, B23p_T *)
Definition B23p_T (T : num) : res num :=
  let* q1 := powz T 2 in
  Ok (#348.05185628969 - #1.1671859879975 * T + #1.0192970039326e-03 * q1).

(* pyXSteam/RegionBorders.py:20-29, B23T_p *)
Definition B23T_p (p : num) : res num :=
  let* q1 := div (p - #13.91883977887) (#1.0192970039326e-03) in
  let* q2 := powf q1 #0.5 in
  Ok (#572.54459862746 + q2).

(* pyXSteam/RegionBorders.py:41-41 *)
Definition p3sat_h_Ii : list Z := [0; 1; 1; 1; 1; 5; 7; 8; 14; 20; 22; 24; 28; 36]%Z.
(* pyXSteam/RegionBorders.py:42-42 *)
Definition p3sat_h_Ji : list Z := [0; 1; 3; 4; 36; 3; 0; 24; 16; 16; 3; 18; 8; 24]%Z.
(* pyXSteam/RegionBorders.py:43-58 *)
Definition p3sat_h_ni : list dec := [
  0.600073641753024; -9.36203654849857; 24.6590798594147; -107.014222858224; 
  -91582131580576.8; -8623.32011700662; -23.5837344740032; 2.52304969384128e17; 
  -3.89718771997719e18; -3.33775713645296e22; 35649946963.6328; -1.48547544720641e26; 
  3.30611514838798e18; 8.13641294467829e37]%dec.
(* pyXSteam/RegionBorders.py:32-63, p3sat_h *)
Definition p3sat_h (h : num) : res num :=
  let* hs := div h #2600 in
  let ps := (#0)%num in
  let* ps := for_each (combine (slice 0 14 p3sat_h_ni) (combine (slice 0 14 p3sat_h_Ii) (slice 0 14 p3sat_h_Ji))) ps (fun ps '(ni_i, (Ii_i, Ji_i)) =>
      let* q2 := powz (hs - #1.02) Ii_i in
      let* q3 := powz (hs - #0.608) Ji_i in
      let ps := (ps + (lit ni_i) * q2 * q3)%num in
      Ok ps) in
  Ok (ps * #22).

(* pyXSteam/RegionBorders.py:71-71 *)
Definition p3sat_s_Ii : list Z := [0; 1; 1; 4; 12; 12; 16; 24; 28; 32]%Z.
(* pyXSteam/RegionBorders.py:72-72 *)
Definition p3sat_s_Ji : list Z := [0; 1; 32; 7; 4; 14; 36; 10; 0; 18]%Z.
(* pyXSteam/RegionBorders.py:73-84 *)
Definition p3sat_s_ni : list dec := [
  0.639767553612785; -12.9727445396014; -2.24595125848403e15; 1774667.41801846; 
  7170793495.71538; -3.78829107169011e17; -9.55586736431328e34; 1.87269814676188e23; 
  119254746466.473; 1.10649277244882e36]%dec.
(* pyXSteam/RegionBorders.py:66-89, p3sat_s *)
Definition p3sat_s (s : num) : res num :=
  let* Sigma := div s #5.2 in
  let Pi := (#0)%num in
  let* Pi := for_each (combine (slice 0 10 p3sat_s_ni) (combine (slice 0 10 p3sat_s_Ii) (slice 0 10 p3sat_s_Ji))) Pi (fun Pi '(ni_i, (Ii_i, Ji_i)) =>
      let* q2 := powz (Sigma - #1.03) Ii_i in
      let* q3 := powz (Sigma - #0.699) Ji_i in
      let Pi := (Pi + (lit ni_i) * q2 * q3)%num in
      Ok Pi) in
  Ok (Pi * #22).

(* pyXSteam/RegionBorders.py:99-99 *)
Definition hB13_s_Ii : list Z := [0; 1; 1; 3; 5; 6]%Z.
(* pyXSteam/RegionBorders.py:100-100 *)
Definition hB13_s_Ji : list Z := [0; -2; 2; -12; -4; -3]%Z.
(* pyXSteam/RegionBorders.py:101-108 *)
Definition hB13_s_ni : list dec := [
  0.913965547600543; -4.30944856041991e-05; 60.3235694765419; 1.17518273082168e-18; 
  0.220000904781292; -69.0815545851641]%dec.
(* pyXSteam/RegionBorders.py:92-113, hB13_s *)
Definition hB13_s (s : num) : res num :=
  let* Sigma := div s #3.8 in
  let eta := (#0)%num in
  let* eta := for_each (combine (slice 0 6 hB13_s_ni) (combine (slice 0 6 hB13_s_Ii) (slice 0 6 hB13_s_Ji))) eta (fun eta '(ni_i, (Ii_i, Ji_i)) =>
      let* q2 := powz (Sigma - #0.884) Ii_i in
      let* q3 := powz (Sigma - #0.864) Ji_i in
      let eta := (eta + (lit ni_i) * q2 * q3)%num in
      Ok eta) in
  Ok (eta * #1700).

(* pyXSteam/RegionBorders.py:123-149 *)
Definition TB23_hs_Ii : list Z := [-12; -10; -8; -4; -3; -2; -2; -2; -2; 0; 1; 1; 1; 3; 3; 5; 6; 6; 8; 8; 8; 12; 12; 14; 14]%Z.
(* pyXSteam/RegionBorders.py:150-176 *)
Definition TB23_hs_Ji : list Z := [10; 8; 3; 4; 3; -6; 2; 3; 4; 0; -3; -2; 10; -2; -1; -5; -6; -3; -8; -2; -1; -12; -1; -12; 1]%Z.
(* pyXSteam/RegionBorders.py:177-203 *)
Definition TB23_hs_ni : list dec := [
  6.2909626082981e-04; -8.23453502583165e-04; 5.15446951519474e-08; -1.17565945784945; 
  3.48519684726192; -5.07837382408313e-12; -2.84637670005479; -2.36092263939673; 
  6.01492324973779; 1.48039650824546; 3.60075182221907e-04; -1.26700045009952e-02; 
  -1221843.32521413; 0.149276502463272; 0.698733471798484; -2.52207040114321e-02; 
  1.47151930985213e-02; -1.08618917681849; -9.36875039816322e-04; 81.9877897570217; 
  -182.041861521835; 2.61907376402688e-06; -29162.6417025961; 1.40660774926165e-05; 
  7832370.62349385]%dec.
(* pyXSteam/RegionBorders.py:116-209, TB23_hs *)
Definition TB23_hs (h s : num) : res num :=
  let* Sigma := div s #5.3 in
  let* eta := div h #3000 in
  let teta := (#0)%num in
  let* teta := for_each (combine (slice 0 25 TB23_hs_ni) (combine (slice 0 25 TB23_hs_Ii) (slice 0 25 TB23_hs_Ji))) teta (fun teta '(ni_i, (Ii_i, Ji_i)) =>
      let* q3 := powz (eta - #0.727) Ii_i in
      let* q4 := powz (Sigma - #0.864) Ji_i in
      let teta := (teta + (lit ni_i) * q3 * q4)%num in
      Ok teta) in
  Ok (teta * #900).

End Model.
