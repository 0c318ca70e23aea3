(** GENERATED by tools/translate.py from pyXSteam/Regions.py, class Region1 (T1_prho is in ModRegion4.v) -- do not edit.
    Text of the Python source, function by function; see DESIGN.md. *)
From Coq Require Import ZArith List Bool.
From Verif Require Import Py ModConstants ModBorders.
Import ListNotations.
Open Scope Z_scope.
Open Scope num_scope.

Section Model.
Context {N : Num} {F : Fuel}.

(* pyXSteam/Regions.py:27-62 *)
Definition v1_pT_I1 : list Z := [
  0; 0; 0; 0; 0; 0; 0; 0; 1; 1; 1; 1; 1; 1; 2; 2; 2; 2; 2; 3; 3; 3; 4; 4; 4; 5; 8; 8; 21; 23; 
  29; 30; 31; 32]%Z.
(* pyXSteam/Regions.py:63-98 *)
Definition v1_pT_J1 : list Z := [
  -2; -1; 0; 1; 2; 3; 4; 5; -9; -7; -1; 0; 1; 3; -3; 0; 1; 3; 17; -4; 0; 6; -5; -2; 10; -8; 
  -11; -6; -29; -31; -38; -39; -40; -41]%Z.
(* pyXSteam/Regions.py:99-134 *)
Definition v1_pT_n1 : list dec := [
  0.14632971213167; -0.84548187169114; -3.756360367204; 3.3855169168385; -0.95791963387872; 
  0.15772038513228; -0.016616417199501; 8.1214629983568e-04; 2.8319080123804e-04; 
  -6.0706301565874e-04; -0.018990068218419; -0.032529748770505; -0.021841717175414; 
  -5.283835796993e-05; -4.7184321073267e-04; -3.0001780793026e-04; 4.7661393906987e-05; 
  -4.4141845330846e-06; -7.2694996297594e-16; -3.1679644845054e-05; -2.8270797985312e-06; 
  -8.5205128120103e-10; -2.2425281908e-06; -6.5171222895601e-07; -1.4341729937924e-13; 
  -4.0516996860117e-07; -1.2734301741641e-09; -1.7424871230634e-10; -6.8762131295531e-19; 
  1.4478307828521e-20; 2.6335781662795e-23; -1.1947622640071e-23; 1.8228094581404e-24; 
  -9.3537087292458e-26]%dec.
(* pyXSteam/Regions.py:20-144, Region1.v1_pT *)
Definition v1_pT (p T : num) : res num :=
  let R := SPECIFIC_GAS_CONSTANT in
  let* Pi := div p #16.53 in
  let* tau := div #1386 T in
  let gamma_der_pi := (#0)%num in
  let* gamma_der_pi := for_each (combine (slice 0 34 v1_pT_n1) (combine (slice 0 34 v1_pT_I1) (slice 0 34 v1_pT_J1))) gamma_der_pi (fun gamma_der_pi '(n1_i, (I1_i, J1_i)) =>
      let* q3 := powz (#7.1 - Pi) ((I1_i - 1)%Z) in
      let* q4 := powz (tau - #1.222) J1_i in
      let gamma_der_pi := (gamma_der_pi - (lit n1_i) * int I1_i * q3 * q4)%num in
      Ok gamma_der_pi) in
  let* q5 := div (R * T) p in
  div (q5 * Pi * gamma_der_pi) #1000.

(* pyXSteam/Regions.py:155-190 *)
Definition h1_pT_I1 : list Z := [
  0; 0; 0; 0; 0; 0; 0; 0; 1; 1; 1; 1; 1; 1; 2; 2; 2; 2; 2; 3; 3; 3; 4; 4; 4; 5; 8; 8; 21; 23; 
  29; 30; 31; 32]%Z.
(* pyXSteam/Regions.py:191-226 *)
Definition h1_pT_J1 : list Z := [
  -2; -1; 0; 1; 2; 3; 4; 5; -9; -7; -1; 0; 1; 3; -3; 0; 1; 3; 17; -4; 0; 6; -5; -2; 10; -8; 
  -11; -6; -29; -31; -38; -39; -40; -41]%Z.
(* pyXSteam/Regions.py:227-262 *)
Definition h1_pT_n1 : list dec := [
  0.14632971213167; -0.84548187169114; -3.756360367204; 3.3855169168385; -0.95791963387872; 
  0.15772038513228; -0.016616417199501; 8.1214629983568e-04; 2.8319080123804e-04; 
  -6.0706301565874e-04; -0.018990068218419; -0.032529748770505; -0.021841717175414; 
  -5.283835796993e-05; -4.7184321073267e-04; -3.0001780793026e-04; 4.7661393906987e-05; 
  -4.4141845330846e-06; -7.2694996297594e-16; -3.1679644845054e-05; -2.8270797985312e-06; 
  -8.5205128120103e-10; -2.2425281908e-06; -6.5171222895601e-07; -1.4341729937924e-13; 
  -4.0516996860117e-07; -1.2734301741641e-09; -1.7424871230634e-10; -6.8762131295531e-19; 
  1.4478307828521e-20; 2.6335781662795e-23; -1.1947622640071e-23; 1.8228094581404e-24; 
  -9.3537087292458e-26]%dec.
(* pyXSteam/Regions.py:147-271, Region1.h1_pT *)
Definition h1_pT (p T : num) : res num :=
  let R := SPECIFIC_GAS_CONSTANT in
  let* Pi := div p #16.53 in
  let* tau := div #1386 T in
  let gamma_der_tau := (#0)%num in
  let* gamma_der_tau := for_each (combine (slice 0 34 h1_pT_n1) (combine (slice 0 34 h1_pT_I1) (slice 0 34 h1_pT_J1))) gamma_der_tau (fun gamma_der_tau '(n1_i, (I1_i, J1_i)) =>
      let* q3 := powz (#7.1 - Pi) I1_i in
      let* q4 := powz (tau - #1.222) ((J1_i - 1)%Z) in
      let gamma_der_tau := (gamma_der_tau + (lit n1_i) * q3 * int J1_i * q4)%num in
      Ok gamma_der_tau) in
  Ok (R * T * tau * gamma_der_tau).

(* pyXSteam/Regions.py:281-316 *)
Definition u1_pT_I1 : list Z := [
  0; 0; 0; 0; 0; 0; 0; 0; 1; 1; 1; 1; 1; 1; 2; 2; 2; 2; 2; 3; 3; 3; 4; 4; 4; 5; 8; 8; 21; 23; 
  29; 30; 31; 32]%Z.
(* pyXSteam/Regions.py:317-352 *)
Definition u1_pT_J1 : list Z := [
  -2; -1; 0; 1; 2; 3; 4; 5; -9; -7; -1; 0; 1; 3; -3; 0; 1; 3; 17; -4; 0; 6; -5; -2; 10; -8; 
  -11; -6; -29; -31; -38; -39; -40; -41]%Z.
(* pyXSteam/Regions.py:353-388 *)
Definition u1_pT_n1 : list dec := [
  0.14632971213167; -0.84548187169114; -3.756360367204; 3.3855169168385; -0.95791963387872; 
  0.15772038513228; -0.016616417199501; 8.1214629983568e-04; 2.8319080123804e-04; 
  -6.0706301565874e-04; -0.018990068218419; -0.032529748770505; -0.021841717175414; 
  -5.283835796993e-05; -4.7184321073267e-04; -3.0001780793026e-04; 4.7661393906987e-05; 
  -4.4141845330846e-06; -7.2694996297594e-16; -3.1679644845054e-05; -2.8270797985312e-06; 
  -8.5205128120103e-10; -2.2425281908e-06; -6.5171222895601e-07; -1.4341729937924e-13; 
  -4.0516996860117e-07; -1.2734301741641e-09; -1.7424871230634e-10; -6.8762131295531e-19; 
  1.4478307828521e-20; 2.6335781662795e-23; -1.1947622640071e-23; 1.8228094581404e-24; 
  -9.3537087292458e-26]%dec.
(* pyXSteam/Regions.py:274-402, Region1.u1_pT *)
Definition u1_pT (p T : num) : res num :=
  let R := SPECIFIC_GAS_CONSTANT in
  let* Pi := div p #16.53 in
  let* tau := div #1386 T in
  let gamma_der_tau := (#0)%num in
  let gamma_der_pi := (#0)%num in
  let* (gamma_der_pi, gamma_der_tau) := for_each (combine (slice 0 34 u1_pT_n1) (combine (slice 0 34 u1_pT_I1) (slice 0 34 u1_pT_J1))) (gamma_der_pi, gamma_der_tau) (fun '(gamma_der_pi, gamma_der_tau) '(n1_i, (I1_i, J1_i)) =>
      let* q3 := powz (#7.1 - Pi) ((I1_i - 1)%Z) in
      let* q4 := powz (tau - #1.222) J1_i in
      let gamma_der_pi := (gamma_der_pi - (lit n1_i) * int I1_i * q3 * q4)%num in
      let* q5 := powz (#7.1 - Pi) I1_i in
      let* q6 := powz (tau - #1.222) ((J1_i - 1)%Z) in
      let gamma_der_tau := (gamma_der_tau + (lit n1_i) * q5 * int J1_i * q6)%num in
      Ok (gamma_der_pi, gamma_der_tau)) in
  Ok (R * T * (tau * gamma_der_tau - Pi * gamma_der_pi)).

(* pyXSteam/Regions.py:412-447 *)
Definition s1_pT_I1 : list Z := [
  0; 0; 0; 0; 0; 0; 0; 0; 1; 1; 1; 1; 1; 1; 2; 2; 2; 2; 2; 3; 3; 3; 4; 4; 4; 5; 8; 8; 21; 23; 
  29; 30; 31; 32]%Z.
(* pyXSteam/Regions.py:448-483 *)
Definition s1_pT_J1 : list Z := [
  -2; -1; 0; 1; 2; 3; 4; 5; -9; -7; -1; 0; 1; 3; -3; 0; 1; 3; 17; -4; 0; 6; -5; -2; 10; -8; 
  -11; -6; -29; -31; -38; -39; -40; -41]%Z.
(* pyXSteam/Regions.py:484-519 *)
Definition s1_pT_n1 : list dec := [
  0.14632971213167; -0.84548187169114; -3.756360367204; 3.3855169168385; -0.95791963387872; 
  0.15772038513228; -0.016616417199501; 8.1214629983568e-04; 2.8319080123804e-04; 
  -6.0706301565874e-04; -0.018990068218419; -0.032529748770505; -0.021841717175414; 
  -5.283835796993e-05; -4.7184321073267e-04; -3.0001780793026e-04; 4.7661393906987e-05; 
  -4.4141845330846e-06; -7.2694996297594e-16; -3.1679644845054e-05; -2.8270797985312e-06; 
  -8.5205128120103e-10; -2.2425281908e-06; -6.5171222895601e-07; -1.4341729937924e-13; 
  -4.0516996860117e-07; -1.2734301741641e-09; -1.7424871230634e-10; -6.8762131295531e-19; 
  1.4478307828521e-20; 2.6335781662795e-23; -1.1947622640071e-23; 1.8228094581404e-24; 
  -9.3537087292458e-26]%dec.
(* pyXSteam/Regions.py:405-530, Region1.s1_pT *)
Definition s1_pT (p T : num) : res num :=
  let R := SPECIFIC_GAS_CONSTANT in
  let* Pi := div p #16.53 in
  let* tau := div #1386 T in
  let gamma := (#0)%num in
  let gamma_der_tau := (#0)%num in
  let* (gamma_der_tau, gamma) := for_each (combine (slice 0 34 s1_pT_n1) (combine (slice 0 34 s1_pT_I1) (slice 0 34 s1_pT_J1))) (gamma_der_tau, gamma) (fun '(gamma_der_tau, gamma) '(n1_i, (I1_i, J1_i)) =>
      let* q3 := powz (#7.1 - Pi) I1_i in
      let* q4 := powz (tau - #1.222) ((J1_i - 1)%Z) in
      let gamma_der_tau := (gamma_der_tau + (lit n1_i) * q3 * int J1_i * q4)%num in
      let* q5 := powz (#7.1 - Pi) I1_i in
      let* q6 := powz (tau - #1.222) J1_i in
      let gamma := (gamma + (lit n1_i) * q5 * q6)%num in
      Ok (gamma_der_tau, gamma)) in
  Ok (R * tau * gamma_der_tau - R * gamma).

(* pyXSteam/Regions.py:540-575 *)
Definition Cp1_pT_I1 : list Z := [
  0; 0; 0; 0; 0; 0; 0; 0; 1; 1; 1; 1; 1; 1; 2; 2; 2; 2; 2; 3; 3; 3; 4; 4; 4; 5; 8; 8; 21; 23; 
  29; 30; 31; 32]%Z.
(* pyXSteam/Regions.py:576-611 *)
Definition Cp1_pT_J1 : list Z := [
  -2; -1; 0; 1; 2; 3; 4; 5; -9; -7; -1; 0; 1; 3; -3; 0; 1; 3; 17; -4; 0; 6; -5; -2; 10; -8; 
  -11; -6; -29; -31; -38; -39; -40; -41]%Z.
(* pyXSteam/Regions.py:612-647 *)
Definition Cp1_pT_n1 : list dec := [
  0.14632971213167; -0.84548187169114; -3.756360367204; 3.3855169168385; -0.95791963387872; 
  0.15772038513228; -0.016616417199501; 8.1214629983568e-04; 2.8319080123804e-04; 
  -6.0706301565874e-04; -0.018990068218419; -0.032529748770505; -0.021841717175414; 
  -5.283835796993e-05; -4.7184321073267e-04; -3.0001780793026e-04; 4.7661393906987e-05; 
  -4.4141845330846e-06; -7.2694996297594e-16; -3.1679644845054e-05; -2.8270797985312e-06; 
  -8.5205128120103e-10; -2.2425281908e-06; -6.5171222895601e-07; -1.4341729937924e-13; 
  -4.0516996860117e-07; -1.2734301741641e-09; -1.7424871230634e-10; -6.8762131295531e-19; 
  1.4478307828521e-20; 2.6335781662795e-23; -1.1947622640071e-23; 1.8228094581404e-24; 
  -9.3537087292458e-26]%dec.
(* pyXSteam/Regions.py:533-660, Region1.Cp1_pT *)
Definition Cp1_pT (p T : num) : res num :=
  let R := SPECIFIC_GAS_CONSTANT in
  let* Pi := div p #16.53 in
  let* tau := div #1386 T in
  let gamma_der_tautau := (#0)%num in
  let* gamma_der_tautau := for_each (combine (slice 0 34 Cp1_pT_n1) (combine (slice 0 34 Cp1_pT_I1) (slice 0 34 Cp1_pT_J1))) gamma_der_tautau (fun gamma_der_tautau '(n1_i, (I1_i, J1_i)) =>
      let* q3 := powz (#7.1 - Pi) I1_i in
      let* q4 := powz (tau - #1.222) ((J1_i - 2)%Z) in
      let gamma_der_tautau := (gamma_der_tautau + (lit n1_i) * q3 * int J1_i * int ((J1_i - 1)%Z) * q4)%num in
      Ok gamma_der_tautau) in
  let* q5 := powz tau 2 in
  Ok ((- R) * q5 * gamma_der_tautau).

(* pyXSteam/Regions.py:670-705 *)
Definition Cv1_pT_I1 : list Z := [
  0; 0; 0; 0; 0; 0; 0; 0; 1; 1; 1; 1; 1; 1; 2; 2; 2; 2; 2; 3; 3; 3; 4; 4; 4; 5; 8; 8; 21; 23; 
  29; 30; 31; 32]%Z.
(* pyXSteam/Regions.py:706-741 *)
Definition Cv1_pT_J1 : list Z := [
  -2; -1; 0; 1; 2; 3; 4; 5; -9; -7; -1; 0; 1; 3; -3; 0; 1; 3; 17; -4; 0; 6; -5; -2; 10; -8; 
  -11; -6; -29; -31; -38; -39; -40; -41]%Z.
(* pyXSteam/Regions.py:742-777 *)
Definition Cv1_pT_n1 : list dec := [
  0.14632971213167; -0.84548187169114; -3.756360367204; 3.3855169168385; -0.95791963387872; 
  0.15772038513228; -0.016616417199501; 8.1214629983568e-04; 2.8319080123804e-04; 
  -6.0706301565874e-04; -0.018990068218419; -0.032529748770505; -0.021841717175414; 
  -5.283835796993e-05; -4.7184321073267e-04; -3.0001780793026e-04; 4.7661393906987e-05; 
  -4.4141845330846e-06; -7.2694996297594e-16; -3.1679644845054e-05; -2.8270797985312e-06; 
  -8.5205128120103e-10; -2.2425281908e-06; -6.5171222895601e-07; -1.4341729937924e-13; 
  -4.0516996860117e-07; -1.2734301741641e-09; -1.7424871230634e-10; -6.8762131295531e-19; 
  1.4478307828521e-20; 2.6335781662795e-23; -1.1947622640071e-23; 1.8228094581404e-24; 
  -9.3537087292458e-26]%dec.
(* pyXSteam/Regions.py:663-807, Region1.Cv1_pT *)
Definition Cv1_pT (p T : num) : res num :=
  let R := SPECIFIC_GAS_CONSTANT in
  let* Pi := div p #16.53 in
  let* tau := div #1386 T in
  let gamma_der_pi := (#0)%num in
  let gamma_der_pipi := (#0)%num in
  let gamma_der_pitau := (#0)%num in
  let gamma_der_tautau := (#0)%num in
  let* (gamma_der_pi, gamma_der_pipi, gamma_der_pitau, gamma_der_tautau) := for_each (combine (slice 0 34 Cv1_pT_n1) (combine (slice 0 34 Cv1_pT_I1) (slice 0 34 Cv1_pT_J1))) (gamma_der_pi, gamma_der_pipi, gamma_der_pitau, gamma_der_tautau) (fun '(gamma_der_pi, gamma_der_pipi, gamma_der_pitau, gamma_der_tautau) '(n1_i, (I1_i, J1_i)) =>
      let* q3 := powz (#7.1 - Pi) ((I1_i - 1)%Z) in
      let* q4 := powz (tau - #1.222) J1_i in
      let gamma_der_pi := (gamma_der_pi - (lit n1_i) * int I1_i * q3 * q4)%num in
      let* q5 := powz (#7.1 - Pi) ((I1_i - 2)%Z) in
      let* q6 := powz (tau - #1.222) J1_i in
      let gamma_der_pipi := (gamma_der_pipi + (lit n1_i) * int I1_i * int ((I1_i - 1)%Z) * q5 * q6)%num in
      let* q7 := powz (#7.1 - Pi) ((I1_i - 1)%Z) in
      let* q8 := powz (tau - #1.222) ((J1_i - 1)%Z) in
      let gamma_der_pitau := (gamma_der_pitau - (lit n1_i) * int I1_i * q7 * int J1_i * q8)%num in
      let* q9 := powz (#7.1 - Pi) I1_i in
      let* q10 := powz (tau - #1.222) ((J1_i - 2)%Z) in
      let gamma_der_tautau := (gamma_der_tautau + (lit n1_i) * q9 * int J1_i * int ((J1_i - 1)%Z) * q10)%num in
      Ok (gamma_der_pi, gamma_der_pipi, gamma_der_pitau, gamma_der_tautau)) in
  let* q11 := powz tau 2 in
  let* q12 := powz (gamma_der_pi - tau * gamma_der_pitau) 2 in
  let* q13 := div q12 gamma_der_pipi in
  Ok (R * ((- q11) * gamma_der_tautau + q13)).

(* pyXSteam/Regions.py:817-852 *)
Definition w1_pT_I1 : list Z := [
  0; 0; 0; 0; 0; 0; 0; 0; 1; 1; 1; 1; 1; 1; 2; 2; 2; 2; 2; 3; 3; 3; 4; 4; 4; 5; 8; 8; 21; 23; 
  29; 30; 31; 32]%Z.
(* pyXSteam/Regions.py:853-888 *)
Definition w1_pT_J1 : list Z := [
  -2; -1; 0; 1; 2; 3; 4; 5; -9; -7; -1; 0; 1; 3; -3; 0; 1; 3; 17; -4; 0; 6; -5; -2; 10; -8; 
  -11; -6; -29; -31; -38; -39; -40; -41]%Z.
(* pyXSteam/Regions.py:889-924 *)
Definition w1_pT_n1 : list dec := [
  0.14632971213167; -0.84548187169114; -3.756360367204; 3.3855169168385; -0.95791963387872; 
  0.15772038513228; -0.016616417199501; 8.1214629983568e-04; 2.8319080123804e-04; 
  -6.0706301565874e-04; -0.018990068218419; -0.032529748770505; -0.021841717175414; 
  -5.283835796993e-05; -4.7184321073267e-04; -3.0001780793026e-04; 4.7661393906987e-05; 
  -4.4141845330846e-06; -7.2694996297594e-16; -3.1679644845054e-05; -2.8270797985312e-06; 
  -8.5205128120103e-10; -2.2425281908e-06; -6.5171222895601e-07; -1.4341729937924e-13; 
  -4.0516996860117e-07; -1.2734301741641e-09; -1.7424871230634e-10; -6.8762131295531e-19; 
  1.4478307828521e-20; 2.6335781662795e-23; -1.1947622640071e-23; 1.8228094581404e-24; 
  -9.3537087292458e-26]%dec.
(* pyXSteam/Regions.py:810-961, Region1.w1_pT *)
Definition w1_pT (p T : num) : res num :=
  let R := SPECIFIC_GAS_CONSTANT in
  let* Pi := div p #16.53 in
  let* tau := div #1386 T in
  let gamma_der_pi := (#0)%num in
  let gamma_der_pipi := (#0)%num in
  let gamma_der_pitau := (#0)%num in
  let gamma_der_tautau := (#0)%num in
  let* (gamma_der_pi, gamma_der_pipi, gamma_der_pitau, gamma_der_tautau) := for_each (combine (slice 0 34 w1_pT_n1) (combine (slice 0 34 w1_pT_I1) (slice 0 34 w1_pT_J1))) (gamma_der_pi, gamma_der_pipi, gamma_der_pitau, gamma_der_tautau) (fun '(gamma_der_pi, gamma_der_pipi, gamma_der_pitau, gamma_der_tautau) '(n1_i, (I1_i, J1_i)) =>
      let* q3 := powz (#7.1 - Pi) ((I1_i - 1)%Z) in
      let* q4 := powz (tau - #1.222) J1_i in
      let gamma_der_pi := (gamma_der_pi - (lit n1_i) * int I1_i * q3 * q4)%num in
      let* q5 := powz (#7.1 - Pi) ((I1_i - 2)%Z) in
      let* q6 := powz (tau - #1.222) J1_i in
      let gamma_der_pipi := (gamma_der_pipi + (lit n1_i) * int I1_i * int ((I1_i - 1)%Z) * q5 * q6)%num in
      let* q7 := powz (#7.1 - Pi) ((I1_i - 1)%Z) in
      let* q8 := powz (tau - #1.222) ((J1_i - 1)%Z) in
      let gamma_der_pitau := (gamma_der_pitau - (lit n1_i) * int I1_i * q7 * int J1_i * q8)%num in
      let* q9 := powz (#7.1 - Pi) I1_i in
      let* q10 := powz (tau - #1.222) ((J1_i - 2)%Z) in
      let gamma_der_tautau := (gamma_der_tautau + (lit n1_i) * q9 * int J1_i * int ((J1_i - 1)%Z) * q10)%num in
      Ok (gamma_der_pi, gamma_der_pipi, gamma_der_pitau, gamma_der_tautau)) in
  let* q11 := powz gamma_der_pi 2 in
  let* q12 := powz (gamma_der_pi - tau * gamma_der_pitau) 2 in
  let* q13 := powz tau 2 in
  let* q14 := div q12 (q13 * gamma_der_tautau) in
  let* q15 := div (#1000 * R * T * q11) (q14 - gamma_der_pipi) in
  powf q15 #0.5.

(* pyXSteam/Regions.py:971-971 *)
Definition T1_ph_I1 : list Z := [0; 0; 0; 0; 0; 0; 1; 1; 1; 1; 1; 1; 1; 2; 2; 3; 3; 4; 5; 6]%Z.
(* pyXSteam/Regions.py:972-972 *)
Definition T1_ph_J1 : list Z := [0; 1; 2; 6; 22; 32; 0; 1; 2; 3; 4; 10; 32; 10; 32; 10; 32; 32; 32; 32]%Z.
(* pyXSteam/Regions.py:973-994 *)
Definition T1_ph_n1 : list dec := [
  -238.72489924521; 404.21188637945; 113.49746881718; -5.8457616048039; -1.528548241314e-04; 
  -1.0866707695377e-06; -13.391744872602; 43.211039183559; -54.010067170506; 30.535892203916; 
  -6.5964749423638; 9.3965400878363e-03; 1.157364750534e-07; -2.5858641282073e-05; 
  -4.0644363084799e-09; 6.6456186191635e-08; 8.0670734103027e-11; -9.3477771213947e-13; 
  5.8265442020601e-15; -1.5020185953503e-17]%dec.
(* pyXSteam/Regions.py:964-1000, Region1.T1_ph *)
Definition T1_ph (p h : num) : res num :=
  let* Pi := div p #1 in
  let* eta := div h #2500 in
  let T := (#0)%num in
  let* T := for_each (combine (slice 0 20 T1_ph_n1) (combine (slice 0 20 T1_ph_I1) (slice 0 20 T1_ph_J1))) T (fun T '(n1_i, (I1_i, J1_i)) =>
      let* q3 := powz Pi I1_i in
      let* q4 := powz (eta + #1) J1_i in
      let T := (T + (lit n1_i) * q3 * q4)%num in
      Ok T) in
  Ok T.

(* pyXSteam/Regions.py:1010-1010 *)
Definition T1_ps_I1 : list Z := [0; 0; 0; 0; 0; 0; 1; 1; 1; 1; 1; 1; 2; 2; 2; 2; 2; 3; 3; 4]%Z.
(* pyXSteam/Regions.py:1011-1011 *)
Definition T1_ps_J1 : list Z := [0; 1; 2; 3; 11; 31; 0; 1; 2; 3; 12; 31; 0; 1; 2; 9; 31; 10; 32; 32]%Z.
(* pyXSteam/Regions.py:1012-1033 *)
Definition T1_ps_n1 : list dec := [
  174.78268058307; 34.806930892873; 6.5292584978455; 0.33039981775489; -1.9281382923196e-07; 
  -2.4909197244573e-23; -0.26107636489332; 0.22592965981586; -0.064256463395226; 
  7.8876289270526e-03; 3.5672110607366e-10; 1.7332496994895e-24; 5.6608900654837e-04; 
  -3.2635483139717e-04; 4.4778286690632e-05; -5.1322156908507e-10; -4.2522657042207e-26; 
  2.6400441360689e-13; 7.8124600459723e-29; -3.0732199903668e-31]%dec.
(* pyXSteam/Regions.py:1003-1039, Region1.T1_ps *)
Definition T1_ps (p s : num) : res num :=
  let* Pi := div p #1 in
  let* Sigma := div s #1 in
  let T := (#0)%num in
  let* T := for_each (combine (slice 0 20 T1_ps_n1) (combine (slice 0 20 T1_ps_I1) (slice 0 20 T1_ps_J1))) T (fun T '(n1_i, (I1_i, J1_i)) =>
      let* q3 := powz Pi I1_i in
      let* q4 := powz (Sigma + #2) J1_i in
      let T := (T + (lit n1_i) * q3 * q4)%num in
      Ok T) in
  Ok T.

(* pyXSteam/Regions.py:1051-1051 *)
Definition p1_hs_I1 : list Z := [0; 0; 0; 0; 0; 0; 0; 0; 1; 1; 1; 1; 2; 2; 2; 3; 4; 4; 5]%Z.
(* pyXSteam/Regions.py:1052-1052 *)
Definition p1_hs_J1 : list Z := [0; 1; 2; 4; 5; 6; 8; 14; 0; 1; 4; 6; 0; 1; 10; 4; 1; 4; 0]%Z.
(* pyXSteam/Regions.py:1053-1073 *)
Definition p1_hs_n1 : list dec := [
  -0.691997014660582; -18.361254878756; -9.28332409297335; 65.9639569909906; 
  -16.2060388912024; 450.620017338667; 854.68067822417; 6075.23214001162; 32.6487682621856; 
  -26.9408844582931; -319.9478483343; -928.35430704332; 30.3634537455249; -65.0540422444146; 
  -4309.9131651613; -747.512324096068; 730.000345529245; 1142.84032569021; -436.407041874559]%dec.
(* pyXSteam/Regions.py:1042-1079, Region1.p1_hs *)
Definition p1_hs (h s : num) : res num :=
  let* eta := div h #3400 in
  let* Sigma := div s #7.6 in
  let p := (#0)%num in
  let* p := for_each (combine (slice 0 19 p1_hs_n1) (combine (slice 0 19 p1_hs_I1) (slice 0 19 p1_hs_J1))) p (fun p '(n1_i, (I1_i, J1_i)) =>
      let* q3 := powz (eta + #0.05) I1_i in
      let* q4 := powz (Sigma + #0.05) J1_i in
      let p := (p + (lit n1_i) * q3 * q4)%num in
      Ok p) in
  Ok (p * #100).

End Model.
