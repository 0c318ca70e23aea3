(** GENERATED by tools/translate.py from pyXSteam/Regions.py, class Region2 (T2_prho is in ModRegion4.v) -- do not edit.
    Text of the Python source, function by function; see DESIGN.md. *)
From Coq Require Import ZArith List Bool.
From Verif Require Import Py ModConstants ModBorders.
Import ListNotations.
Open Scope Z_scope.
Open Scope num_scope.

Section Model.
Context {N : Num} {F : Fuel}.

(* pyXSteam/Regions.py:1126-1170 *)
Definition v2_pT_Ir : list Z := [
  1; 1; 1; 1; 1; 2; 2; 2; 2; 2; 3; 3; 3; 3; 3; 4; 4; 4; 5; 6; 6; 6; 7; 7; 7; 8; 8; 9; 10; 10; 
  10; 16; 16; 18; 20; 20; 20; 21; 22; 23; 24; 24; 24]%Z.
(* pyXSteam/Regions.py:1171-1215 *)
Definition v2_pT_Jr : list Z := [
  0; 1; 2; 3; 6; 1; 2; 4; 7; 36; 0; 1; 3; 6; 35; 1; 2; 3; 7; 3; 16; 35; 0; 11; 25; 8; 36; 13; 
  4; 10; 14; 29; 50; 57; 20; 35; 48; 21; 53; 39; 26; 40; 58]%Z.
(* pyXSteam/Regions.py:1216-1260 *)
Definition v2_pT_nr : list dec := [
  -1.7731742473213e-03; -0.017834862292358; -0.045996013696365; -0.057581259083432; 
  -0.05032527872793; -3.3032641670203e-05; -1.8948987516315e-04; -3.9392777243355e-03; 
  -0.043797295650573; -2.6674547914087e-05; 2.0481737692309e-08; 4.3870667284435e-07; 
  -3.227767723857e-05; -1.5033924542148e-03; -0.040668253562649; -7.8847309559367e-10; 
  1.2790717852285e-08; 4.8225372718507e-07; 2.2922076337661e-06; -1.6714766451061e-11; 
  -2.1171472321355e-03; -23.895741934104; -5.905956432427e-18; -1.2621808899101e-06; 
  -0.038946842435739; 1.1256211360459e-11; -8.2311340897998; 1.9809712802088e-08; 
  1.0406965210174e-19; -1.0234747095929e-13; -1.0018179379511e-09; -8.0882908646985e-11; 
  0.10693031879409; -0.33662250574171; 8.9185845355421e-25; 3.0629316876232e-13; 
  -4.2002467698208e-06; -5.9056029685639e-26; 3.7826947613457e-06; -1.2768608934681e-15; 
  7.3087610595061e-29; 5.5414715350778e-17; -9.436970724121e-07]%dec.
(* pyXSteam/Regions.py:1119-1268, Region2.v2_pT *)
Definition v2_pT (p T : num) : res num :=
  let R := SPECIFIC_GAS_CONSTANT in
  let Pi := p in
  let* tau := div #540 T in
  let* g0_pi := div #1 Pi in
  let gr_pi := (#0)%num in
  let* gr_pi := for_each (combine (slice 0 43 v2_pT_nr) (combine (slice 0 43 v2_pT_Ir) (slice 0 43 v2_pT_Jr))) gr_pi (fun gr_pi '(nr_i, (Ir_i, Jr_i)) =>
      let* q3 := powz Pi ((Ir_i - 1)%Z) in
      let* q4 := powz (tau - #0.5) Jr_i in
      let gr_pi := (gr_pi + (lit nr_i) * int Ir_i * q3 * q4)%num in
      Ok gr_pi) in
  let* q5 := div (R * T) p in
  div (q5 * Pi * (g0_pi + gr_pi)) #1000.

(* pyXSteam/Regions.py:1278-1278 *)
Definition h2_pT_J0 : list Z := [0; 1; -5; -4; -3; -2; -1; 2; 3]%Z.
(* pyXSteam/Regions.py:1279-1289 *)
Definition h2_pT_n0 : list dec := [
  -9.6927686500217; 10.086655968018; -0.005608791128302; 0.071452738081455; 
  -0.40710498223928; 1.4240819171444; -4.383951131945; -0.28408632460772; 0.021268463753307]%dec.
(* pyXSteam/Regions.py:1290-1334 *)
Definition h2_pT_Ir : list Z := [
  1; 1; 1; 1; 1; 2; 2; 2; 2; 2; 3; 3; 3; 3; 3; 4; 4; 4; 5; 6; 6; 6; 7; 7; 7; 8; 8; 9; 10; 10; 
  10; 16; 16; 18; 20; 20; 20; 21; 22; 23; 24; 24; 24]%Z.
(* pyXSteam/Regions.py:1335-1379 *)
Definition h2_pT_Jr : list Z := [
  0; 1; 2; 3; 6; 1; 2; 4; 7; 36; 0; 1; 3; 6; 35; 1; 2; 3; 7; 3; 16; 35; 0; 11; 25; 8; 36; 13; 
  4; 10; 14; 29; 50; 57; 20; 35; 48; 21; 53; 39; 26; 40; 58]%Z.
(* pyXSteam/Regions.py:1380-1424 *)
Definition h2_pT_nr : list dec := [
  -1.7731742473213e-03; -0.017834862292358; -0.045996013696365; -0.057581259083432; 
  -0.05032527872793; -3.3032641670203e-05; -1.8948987516315e-04; -3.9392777243355e-03; 
  -0.043797295650573; -2.6674547914087e-05; 2.0481737692309e-08; 4.3870667284435e-07; 
  -3.227767723857e-05; -1.5033924542148e-03; -0.040668253562649; -7.8847309559367e-10; 
  1.2790717852285e-08; 4.8225372718507e-07; 2.2922076337661e-06; -1.6714766451061e-11; 
  -2.1171472321355e-03; -23.895741934104; -5.905956432427e-18; -1.2621808899101e-06; 
  -0.038946842435739; 1.1256211360459e-11; -8.2311340897998; 1.9809712802088e-08; 
  1.0406965210174e-19; -1.0234747095929e-13; -1.0018179379511e-09; -8.0882908646985e-11; 
  0.10693031879409; -0.33662250574171; 8.9185845355421e-25; 3.0629316876232e-13; 
  -4.2002467698208e-06; -5.9056029685639e-26; 3.7826947613457e-06; -1.2768608934681e-15; 
  7.3087610595061e-29; 5.5414715350778e-17; -9.436970724121e-07]%dec.
(* pyXSteam/Regions.py:1271-1434, Region2.h2_pT *)
Definition h2_pT (p T : num) : res num :=
  let R := SPECIFIC_GAS_CONSTANT in
  let Pi := p in
  let* tau := div #540 T in
  let g0_tau := (#0)%num in
  let* g0_tau := for_each (combine (slice 0 9 h2_pT_n0) (slice 0 9 h2_pT_J0)) g0_tau (fun g0_tau '(n0_i, J0_i) =>
      let* q2 := powz tau ((J0_i - 1)%Z) in
      let g0_tau := (g0_tau + (lit n0_i) * int J0_i * q2)%num in
      Ok g0_tau) in
  let gr_tau := (#0)%num in
  let* gr_tau := for_each (combine (slice 0 43 h2_pT_nr) (combine (slice 0 43 h2_pT_Ir) (slice 0 43 h2_pT_Jr))) gr_tau (fun gr_tau '(nr_i, (Ir_i, Jr_i)) =>
      let* q3 := powz Pi Ir_i in
      let* q4 := powz (tau - #0.5) ((Jr_i - 1)%Z) in
      let gr_tau := (gr_tau + (lit nr_i) * q3 * int Jr_i * q4)%num in
      Ok gr_tau) in
  Ok (R * T * tau * (g0_tau + gr_tau)).

(* pyXSteam/Regions.py:1444-1444 *)
Definition u2_pT_J0 : list Z := [0; 1; -5; -4; -3; -2; -1; 2; 3]%Z.
(* pyXSteam/Regions.py:1445-1455 *)
Definition u2_pT_n0 : list dec := [
  -9.6927686500217; 10.086655968018; -0.005608791128302; 0.071452738081455; 
  -0.40710498223928; 1.4240819171444; -4.383951131945; -0.28408632460772; 0.021268463753307]%dec.
(* pyXSteam/Regions.py:1456-1500 *)
Definition u2_pT_Ir : list Z := [
  1; 1; 1; 1; 1; 2; 2; 2; 2; 2; 3; 3; 3; 3; 3; 4; 4; 4; 5; 6; 6; 6; 7; 7; 7; 8; 8; 9; 10; 10; 
  10; 16; 16; 18; 20; 20; 20; 21; 22; 23; 24; 24; 24]%Z.
(* pyXSteam/Regions.py:1501-1545 *)
Definition u2_pT_Jr : list Z := [
  0; 1; 2; 3; 6; 1; 2; 4; 7; 36; 0; 1; 3; 6; 35; 1; 2; 3; 7; 3; 16; 35; 0; 11; 25; 8; 36; 13; 
  4; 10; 14; 29; 50; 57; 20; 35; 48; 21; 53; 39; 26; 40; 58]%Z.
(* pyXSteam/Regions.py:1546-1590 *)
Definition u2_pT_nr : list dec := [
  -1.7731742473213e-03; -0.017834862292358; -0.045996013696365; -0.057581259083432; 
  -0.05032527872793; -3.3032641670203e-05; -1.8948987516315e-04; -3.9392777243355e-03; 
  -0.043797295650573; -2.6674547914087e-05; 2.0481737692309e-08; 4.3870667284435e-07; 
  -3.227767723857e-05; -1.5033924542148e-03; -0.040668253562649; -7.8847309559367e-10; 
  1.2790717852285e-08; 4.8225372718507e-07; 2.2922076337661e-06; -1.6714766451061e-11; 
  -2.1171472321355e-03; -23.895741934104; -5.905956432427e-18; -1.2621808899101e-06; 
  -0.038946842435739; 1.1256211360459e-11; -8.2311340897998; 1.9809712802088e-08; 
  1.0406965210174e-19; -1.0234747095929e-13; -1.0018179379511e-09; -8.0882908646985e-11; 
  0.10693031879409; -0.33662250574171; 8.9185845355421e-25; 3.0629316876232e-13; 
  -4.2002467698208e-06; -5.9056029685639e-26; 3.7826947613457e-06; -1.2768608934681e-15; 
  7.3087610595061e-29; 5.5414715350778e-17; -9.436970724121e-07]%dec.
(* pyXSteam/Regions.py:1437-1603, Region2.u2_pT *)
Definition u2_pT (p T : num) : res num :=
  let R := SPECIFIC_GAS_CONSTANT in
  let Pi := p in
  let* tau := div #540 T in
  let* g0_pi := div #1 Pi in
  let g0_tau := (#0)%num in
  let* g0_tau := for_each (combine (slice 0 9 u2_pT_n0) (slice 0 9 u2_pT_J0)) g0_tau (fun g0_tau '(n0_i, J0_i) =>
      let* q3 := powz tau ((J0_i - 1)%Z) in
      let g0_tau := (g0_tau + (lit n0_i) * int J0_i * q3)%num in
      Ok g0_tau) in
  let gr_pi := (#0)%num in
  let gr_tau := (#0)%num in
  let* (gr_pi, gr_tau) := for_each (combine (slice 0 43 u2_pT_nr) (combine (slice 0 43 u2_pT_Ir) (slice 0 43 u2_pT_Jr))) (gr_pi, gr_tau) (fun '(gr_pi, gr_tau) '(nr_i, (Ir_i, Jr_i)) =>
      let* q4 := powz Pi ((Ir_i - 1)%Z) in
      let* q5 := powz (tau - #0.5) Jr_i in
      let gr_pi := (gr_pi + (lit nr_i) * int Ir_i * q4 * q5)%num in
      let* q6 := powz Pi Ir_i in
      let* q7 := powz (tau - #0.5) ((Jr_i - 1)%Z) in
      let gr_tau := (gr_tau + (lit nr_i) * q6 * int Jr_i * q7)%num in
      Ok (gr_pi, gr_tau)) in
  Ok (R * T * (tau * (g0_tau + gr_tau) - Pi * (g0_pi + gr_pi))).

(* pyXSteam/Regions.py:1613-1613 *)
Definition s2_pT_J0 : list Z := [0; 1; -5; -4; -3; -2; -1; 2; 3]%Z.
(* pyXSteam/Regions.py:1614-1624 *)
Definition s2_pT_n0 : list dec := [
  -9.6927686500217; 10.086655968018; -0.005608791128302; 0.071452738081455; 
  -0.40710498223928; 1.4240819171444; -4.383951131945; -0.28408632460772; 0.021268463753307]%dec.
(* pyXSteam/Regions.py:1625-1669 *)
Definition s2_pT_Ir : list Z := [
  1; 1; 1; 1; 1; 2; 2; 2; 2; 2; 3; 3; 3; 3; 3; 4; 4; 4; 5; 6; 6; 6; 7; 7; 7; 8; 8; 9; 10; 10; 
  10; 16; 16; 18; 20; 20; 20; 21; 22; 23; 24; 24; 24]%Z.
(* pyXSteam/Regions.py:1670-1714 *)
Definition s2_pT_Jr : list Z := [
  0; 1; 2; 3; 6; 1; 2; 4; 7; 36; 0; 1; 3; 6; 35; 1; 2; 3; 7; 3; 16; 35; 0; 11; 25; 8; 36; 13; 
  4; 10; 14; 29; 50; 57; 20; 35; 48; 21; 53; 39; 26; 40; 58]%Z.
(* pyXSteam/Regions.py:1715-1759 *)
Definition s2_pT_nr : list dec := [
  -1.7731742473213e-03; -0.017834862292358; -0.045996013696365; -0.057581259083432; 
  -0.05032527872793; -3.3032641670203e-05; -1.8948987516315e-04; -3.9392777243355e-03; 
  -0.043797295650573; -2.6674547914087e-05; 2.0481737692309e-08; 4.3870667284435e-07; 
  -3.227767723857e-05; -1.5033924542148e-03; -0.040668253562649; -7.8847309559367e-10; 
  1.2790717852285e-08; 4.8225372718507e-07; 2.2922076337661e-06; -1.6714766451061e-11; 
  -2.1171472321355e-03; -23.895741934104; -5.905956432427e-18; -1.2621808899101e-06; 
  -0.038946842435739; 1.1256211360459e-11; -8.2311340897998; 1.9809712802088e-08; 
  1.0406965210174e-19; -1.0234747095929e-13; -1.0018179379511e-09; -8.0882908646985e-11; 
  0.10693031879409; -0.33662250574171; 8.9185845355421e-25; 3.0629316876232e-13; 
  -4.2002467698208e-06; -5.9056029685639e-26; 3.7826947613457e-06; -1.2768608934681e-15; 
  7.3087610595061e-29; 5.5414715350778e-17; -9.436970724121e-07]%dec.
(* pyXSteam/Regions.py:1606-1773, Region2.s2_pT *)
Definition s2_pT (p T : num) : res num :=
  let R := SPECIFIC_GAS_CONSTANT in
  let Pi := p in
  let* tau := div #540 T in
  let* g0 := log Pi in
  let g0_tau := (#0)%num in
  let* (g0, g0_tau) := for_each (combine (slice 0 9 s2_pT_n0) (slice 0 9 s2_pT_J0)) (g0, g0_tau) (fun '(g0, g0_tau) '(n0_i, J0_i) =>
      let* q3 := powz tau J0_i in
      let g0 := (g0 + (lit n0_i) * q3)%num in
      let* q4 := powz tau ((J0_i - 1)%Z) in
      let g0_tau := (g0_tau + (lit n0_i) * int J0_i * q4)%num in
      Ok (g0, g0_tau)) in
  let gr := (#0)%num in
  let gr_tau := (#0)%num in
  let* (gr, gr_tau) := for_each (combine (slice 0 43 s2_pT_nr) (combine (slice 0 43 s2_pT_Ir) (slice 0 43 s2_pT_Jr))) (gr, gr_tau) (fun '(gr, gr_tau) '(nr_i, (Ir_i, Jr_i)) =>
      let* q5 := powz Pi Ir_i in
      let* q6 := powz (tau - #0.5) Jr_i in
      let gr := (gr + (lit nr_i) * q5 * q6)%num in
      let* q7 := powz Pi Ir_i in
      let* q8 := powz (tau - #0.5) ((Jr_i - 1)%Z) in
      let gr_tau := (gr_tau + (lit nr_i) * q7 * int Jr_i * q8)%num in
      Ok (gr, gr_tau)) in
  Ok (R * (tau * (g0_tau + gr_tau) - (g0 + gr))).

(* pyXSteam/Regions.py:1783-1783 *)
Definition Cp2_pT_J0 : list Z := [0; 1; -5; -4; -3; -2; -1; 2; 3]%Z.
(* pyXSteam/Regions.py:1784-1794 *)
Definition Cp2_pT_n0 : list dec := [
  -9.6927686500217; 10.086655968018; -0.005608791128302; 0.071452738081455; 
  -0.40710498223928; 1.4240819171444; -4.383951131945; -0.28408632460772; 0.021268463753307]%dec.
(* pyXSteam/Regions.py:1795-1839 *)
Definition Cp2_pT_Ir : list Z := [
  1; 1; 1; 1; 1; 2; 2; 2; 2; 2; 3; 3; 3; 3; 3; 4; 4; 4; 5; 6; 6; 6; 7; 7; 7; 8; 8; 9; 10; 10; 
  10; 16; 16; 18; 20; 20; 20; 21; 22; 23; 24; 24; 24]%Z.
(* pyXSteam/Regions.py:1840-1884 *)
Definition Cp2_pT_Jr : list Z := [
  0; 1; 2; 3; 6; 1; 2; 4; 7; 36; 0; 1; 3; 6; 35; 1; 2; 3; 7; 3; 16; 35; 0; 11; 25; 8; 36; 13; 
  4; 10; 14; 29; 50; 57; 20; 35; 48; 21; 53; 39; 26; 40; 58]%Z.
(* pyXSteam/Regions.py:1885-1929 *)
Definition Cp2_pT_nr : list dec := [
  -1.7731742473213e-03; -0.017834862292358; -0.045996013696365; -0.057581259083432; 
  -0.05032527872793; -3.3032641670203e-05; -1.8948987516315e-04; -3.9392777243355e-03; 
  -0.043797295650573; -2.6674547914087e-05; 2.0481737692309e-08; 4.3870667284435e-07; 
  -3.227767723857e-05; -1.5033924542148e-03; -0.040668253562649; -7.8847309559367e-10; 
  1.2790717852285e-08; 4.8225372718507e-07; 2.2922076337661e-06; -1.6714766451061e-11; 
  -2.1171472321355e-03; -23.895741934104; -5.905956432427e-18; -1.2621808899101e-06; 
  -0.038946842435739; 1.1256211360459e-11; -8.2311340897998; 1.9809712802088e-08; 
  1.0406965210174e-19; -1.0234747095929e-13; -1.0018179379511e-09; -8.0882908646985e-11; 
  0.10693031879409; -0.33662250574171; 8.9185845355421e-25; 3.0629316876232e-13; 
  -4.2002467698208e-06; -5.9056029685639e-26; 3.7826947613457e-06; -1.2768608934681e-15; 
  7.3087610595061e-29; 5.5414715350778e-17; -9.436970724121e-07]%dec.
(* pyXSteam/Regions.py:1776-1941, Region2.Cp2_pT *)
Definition Cp2_pT (p T : num) : res num :=
  let R := SPECIFIC_GAS_CONSTANT in
  let Pi := p in
  let* tau := div #540 T in
  let g0_tautau := (#0)%num in
  let* g0_tautau := for_each (combine (slice 0 9 Cp2_pT_n0) (slice 0 9 Cp2_pT_J0)) g0_tautau (fun g0_tautau '(n0_i, J0_i) =>
      let* q2 := powz tau ((J0_i - 2)%Z) in
      let g0_tautau := (g0_tautau + (lit n0_i) * int J0_i * int ((J0_i - 1)%Z) * q2)%num in
      Ok g0_tautau) in
  let gr_tautau := (#0)%num in
  let* gr_tautau := for_each (combine (slice 0 43 Cp2_pT_nr) (combine (slice 0 43 Cp2_pT_Ir) (slice 0 43 Cp2_pT_Jr))) gr_tautau (fun gr_tautau '(nr_i, (Ir_i, Jr_i)) =>
      let* q3 := powz Pi Ir_i in
      let* q4 := powz (tau - #0.5) ((Jr_i - 2)%Z) in
      let gr_tautau := (gr_tautau + (lit nr_i) * q3 * int Jr_i * int ((Jr_i - 1)%Z) * q4)%num in
      Ok gr_tautau) in
  let* q5 := powz tau 2 in
  Ok ((- R) * q5 * (g0_tautau + gr_tautau)).

(* pyXSteam/Regions.py:1951-1951 *)
Definition Cv2_pT_J0 : list Z := [0; 1; -5; -4; -3; -2; -1; 2; 3]%Z.
(* pyXSteam/Regions.py:1952-1962 *)
Definition Cv2_pT_n0 : list dec := [
  -9.6927686500217; 10.086655968018; -0.005608791128302; 0.071452738081455; 
  -0.40710498223928; 1.4240819171444; -4.383951131945; -0.28408632460772; 0.021268463753307]%dec.
(* pyXSteam/Regions.py:1963-2007 *)
Definition Cv2_pT_Ir : list Z := [
  1; 1; 1; 1; 1; 2; 2; 2; 2; 2; 3; 3; 3; 3; 3; 4; 4; 4; 5; 6; 6; 6; 7; 7; 7; 8; 8; 9; 10; 10; 
  10; 16; 16; 18; 20; 20; 20; 21; 22; 23; 24; 24; 24]%Z.
(* pyXSteam/Regions.py:2008-2052 *)
Definition Cv2_pT_Jr : list Z := [
  0; 1; 2; 3; 6; 1; 2; 4; 7; 36; 0; 1; 3; 6; 35; 1; 2; 3; 7; 3; 16; 35; 0; 11; 25; 8; 36; 13; 
  4; 10; 14; 29; 50; 57; 20; 35; 48; 21; 53; 39; 26; 40; 58]%Z.
(* pyXSteam/Regions.py:2053-2097 *)
Definition Cv2_pT_nr : list dec := [
  -1.7731742473213e-03; -0.017834862292358; -0.045996013696365; -0.057581259083432; 
  -0.05032527872793; -3.3032641670203e-05; -1.8948987516315e-04; -3.9392777243355e-03; 
  -0.043797295650573; -2.6674547914087e-05; 2.0481737692309e-08; 4.3870667284435e-07; 
  -3.227767723857e-05; -1.5033924542148e-03; -0.040668253562649; -7.8847309559367e-10; 
  1.2790717852285e-08; 4.8225372718507e-07; 2.2922076337661e-06; -1.6714766451061e-11; 
  -2.1171472321355e-03; -23.895741934104; -5.905956432427e-18; -1.2621808899101e-06; 
  -0.038946842435739; 1.1256211360459e-11; -8.2311340897998; 1.9809712802088e-08; 
  1.0406965210174e-19; -1.0234747095929e-13; -1.0018179379511e-09; -8.0882908646985e-11; 
  0.10693031879409; -0.33662250574171; 8.9185845355421e-25; 3.0629316876232e-13; 
  -4.2002467698208e-06; -5.9056029685639e-26; 3.7826947613457e-06; -1.2768608934681e-15; 
  7.3087610595061e-29; 5.5414715350778e-17; -9.436970724121e-07]%dec.
(* pyXSteam/Regions.py:1944-2123, Region2.Cv2_pT *)
Definition Cv2_pT (p T : num) : res num :=
  let R := SPECIFIC_GAS_CONSTANT in
  let Pi := p in
  let* tau := div #540 T in
  let g0_tautau := (#0)%num in
  let* g0_tautau := for_each (combine (slice 0 9 Cv2_pT_n0) (slice 0 9 Cv2_pT_J0)) g0_tautau (fun g0_tautau '(n0_i, J0_i) =>
      let* q2 := powz tau ((J0_i - 2)%Z) in
      let g0_tautau := (g0_tautau + (lit n0_i) * int J0_i * int ((J0_i - 1)%Z) * q2)%num in
      Ok g0_tautau) in
  let gr_pi := (#0)%num in
  let gr_pitau := (#0)%num in
  let gr_pipi := (#0)%num in
  let gr_tautau := (#0)%num in
  let* (gr_pi, gr_pipi, gr_pitau, gr_tautau) := for_each (combine (slice 0 43 Cv2_pT_nr) (combine (slice 0 43 Cv2_pT_Ir) (slice 0 43 Cv2_pT_Jr))) (gr_pi, gr_pipi, gr_pitau, gr_tautau) (fun '(gr_pi, gr_pipi, gr_pitau, gr_tautau) '(nr_i, (Ir_i, Jr_i)) =>
      let* q3 := powz Pi ((Ir_i - 1)%Z) in
      let* q4 := powz (tau - #0.5) Jr_i in
      let gr_pi := (gr_pi + (lit nr_i) * int Ir_i * q3 * q4)%num in
      let* q5 := powz Pi ((Ir_i - 2)%Z) in
      let* q6 := powz (tau - #0.5) Jr_i in
      let gr_pipi := (gr_pipi + (lit nr_i) * int Ir_i * int ((Ir_i - 1)%Z) * q5 * q6)%num in
      let* q7 := powz Pi ((Ir_i - 1)%Z) in
      let* q8 := powz (tau - #0.5) ((Jr_i - 1)%Z) in
      let gr_pitau := (gr_pitau + (lit nr_i) * int Ir_i * q7 * int Jr_i * q8)%num in
      let* q9 := powz Pi Ir_i in
      let* q10 := powz (tau - #0.5) ((Jr_i - 2)%Z) in
      let gr_tautau := (gr_tautau + (lit nr_i) * q9 * int Jr_i * int ((Jr_i - 1)%Z) * q10)%num in
      Ok (gr_pi, gr_pipi, gr_pitau, gr_tautau)) in
  let* q11 := powz tau 2 in
  let* q12 := powz (#1 + Pi * gr_pi - tau * Pi * gr_pitau) 2 in
  let* q13 := powz Pi 2 in
  let* q14 := div q12 (#1 - q13 * gr_pipi) in
  Ok (R * ((- q11) * (g0_tautau + gr_tautau) - q14)).

(* pyXSteam/Regions.py:2133-2133 *)
Definition w2_pT_J0 : list Z := [0; 1; -5; -4; -3; -2; -1; 2; 3]%Z.
(* pyXSteam/Regions.py:2134-2144 *)
Definition w2_pT_n0 : list dec := [
  -9.6927686500217; 10.086655968018; -0.005608791128302; 0.071452738081455; 
  -0.40710498223928; 1.4240819171444; -4.383951131945; -0.28408632460772; 0.021268463753307]%dec.
(* pyXSteam/Regions.py:2145-2189 *)
Definition w2_pT_Ir : list Z := [
  1; 1; 1; 1; 1; 2; 2; 2; 2; 2; 3; 3; 3; 3; 3; 4; 4; 4; 5; 6; 6; 6; 7; 7; 7; 8; 8; 9; 10; 10; 
  10; 16; 16; 18; 20; 20; 20; 21; 22; 23; 24; 24; 24]%Z.
(* pyXSteam/Regions.py:2190-2234 *)
Definition w2_pT_Jr : list Z := [
  0; 1; 2; 3; 6; 1; 2; 4; 7; 36; 0; 1; 3; 6; 35; 1; 2; 3; 7; 3; 16; 35; 0; 11; 25; 8; 36; 13; 
  4; 10; 14; 29; 50; 57; 20; 35; 48; 21; 53; 39; 26; 40; 58]%Z.
(* pyXSteam/Regions.py:2235-2279 *)
Definition w2_pT_nr : list dec := [
  -1.7731742473213e-03; -0.017834862292358; -0.045996013696365; -0.057581259083432; 
  -0.05032527872793; -3.3032641670203e-05; -1.8948987516315e-04; -3.9392777243355e-03; 
  -0.043797295650573; -2.6674547914087e-05; 2.0481737692309e-08; 4.3870667284435e-07; 
  -3.227767723857e-05; -1.5033924542148e-03; -0.040668253562649; -7.8847309559367e-10; 
  1.2790717852285e-08; 4.8225372718507e-07; 2.2922076337661e-06; -1.6714766451061e-11; 
  -2.1171472321355e-03; -23.895741934104; -5.905956432427e-18; -1.2621808899101e-06; 
  -0.038946842435739; 1.1256211360459e-11; -8.2311340897998; 1.9809712802088e-08; 
  1.0406965210174e-19; -1.0234747095929e-13; -1.0018179379511e-09; -8.0882908646985e-11; 
  0.10693031879409; -0.33662250574171; 8.9185845355421e-25; 3.0629316876232e-13; 
  -4.2002467698208e-06; -5.9056029685639e-26; 3.7826947613457e-06; -1.2768608934681e-15; 
  7.3087610595061e-29; 5.5414715350778e-17; -9.436970724121e-07]%dec.
(* pyXSteam/Regions.py:2126-2312, Region2.w2_pT *)
Definition w2_pT (p T : num) : res num :=
  let R := SPECIFIC_GAS_CONSTANT in
  let Pi := p in
  let* tau := div #540 T in
  let g0_tautau := (#0)%num in
  let* g0_tautau := for_each (combine (slice 0 9 w2_pT_n0) (slice 0 9 w2_pT_J0)) g0_tautau (fun g0_tautau '(n0_i, J0_i) =>
      let* q2 := powz tau ((J0_i - 2)%Z) in
      let g0_tautau := (g0_tautau + (lit n0_i) * int J0_i * int ((J0_i - 1)%Z) * q2)%num in
      Ok g0_tautau) in
  let gr_pi := (#0)%num in
  let gr_pitau := (#0)%num in
  let gr_pipi := (#0)%num in
  let gr_tautau := (#0)%num in
  let* (gr_pi, gr_pipi, gr_pitau, gr_tautau) := for_each (combine (slice 0 43 w2_pT_nr) (combine (slice 0 43 w2_pT_Ir) (slice 0 43 w2_pT_Jr))) (gr_pi, gr_pipi, gr_pitau, gr_tautau) (fun '(gr_pi, gr_pipi, gr_pitau, gr_tautau) '(nr_i, (Ir_i, Jr_i)) =>
      let* q3 := powz Pi ((Ir_i - 1)%Z) in
      let* q4 := powz (tau - #0.5) Jr_i in
      let gr_pi := (gr_pi + (lit nr_i) * int Ir_i * q3 * q4)%num in
      let* q5 := powz Pi ((Ir_i - 2)%Z) in
      let* q6 := powz (tau - #0.5) Jr_i in
      let gr_pipi := (gr_pipi + (lit nr_i) * int Ir_i * int ((Ir_i - 1)%Z) * q5 * q6)%num in
      let* q7 := powz Pi ((Ir_i - 1)%Z) in
      let* q8 := powz (tau - #0.5) ((Jr_i - 1)%Z) in
      let gr_pitau := (gr_pitau + (lit nr_i) * int Ir_i * q7 * int Jr_i * q8)%num in
      let* q9 := powz Pi Ir_i in
      let* q10 := powz (tau - #0.5) ((Jr_i - 2)%Z) in
      let gr_tautau := (gr_tautau + (lit nr_i) * q9 * int Jr_i * int ((Jr_i - 1)%Z) * q10)%num in
      Ok (gr_pi, gr_pipi, gr_pitau, gr_tautau)) in
  let* q11 := powz Pi 2 in
  let* q12 := powz gr_pi 2 in
  let* q13 := powz Pi 2 in
  let* q14 := powz (#1 + Pi * gr_pi - tau * Pi * gr_pitau) 2 in
  let* q15 := powz tau 2 in
  let* q16 := div q14 (q15 * (g0_tautau + gr_tautau)) in
  let* q17 := div (#1000 * R * T * (#1 + #2 * Pi * gr_pi + q11 * q12)) (#1 - q13 * gr_pipi + q16) in
  powf q17 #0.5.

(* pyXSteam/Regions.py:2330-2365 *)
Definition T2_ph_Ji : list Z := [
  0; 1; 2; 3; 7; 20; 0; 1; 2; 3; 7; 9; 11; 18; 44; 0; 2; 7; 36; 38; 40; 42; 44; 24; 44; 12; 
  32; 44; 32; 36; 42; 34; 44; 28]%Z.
(* pyXSteam/Regions.py:2366-2401 *)
Definition T2_ph_Ii : list Z := [
  0; 0; 0; 0; 0; 0; 1; 1; 1; 1; 1; 1; 1; 1; 1; 2; 2; 2; 2; 2; 2; 2; 2; 3; 3; 4; 4; 4; 5; 5; 
  5; 6; 6; 7]%Z.
(* pyXSteam/Regions.py:2402-2437 *)
Definition T2_ph_ni : list dec := [
  1089.8952318288; 849.51654495535; -107.81748091826; 33.153654801263; -7.4232016790248; 
  11.765048724356; 1.844574935579; -4.1792700549624; 6.2478196935812; -17.344563108114; 
  -200.58176862096; 271.96065473796; -455.11318285818; 3091.9688604755; 252266.40357872; 
  -6.1707422868339e-03; -0.31078046629583; 11.670873077107; 128127984.04046; 
  -985549096.23276; 2822454697.3002; -3594897141.0703; 1722734991.3197; -13551.334240775; 
  12848734.66465; 1.3865724283226; 235988.32556514; -13105236.545054; 7399.9835474766; 
  -551966.9703006; 3715408.5996233; 19127.72923966; -415351.64835634; -62.459855192507]%dec.
(* pyXSteam/Regions.py:2445-2484 *)
Definition T2_ph_Ji_2 : list Z := [
  0; 1; 2; 12; 18; 24; 28; 40; 0; 2; 6; 12; 18; 24; 28; 40; 2; 8; 18; 40; 1; 2; 12; 24; 2; 
  12; 18; 24; 28; 40; 18; 24; 40; 28; 2; 28; 1; 40]%Z.
(* pyXSteam/Regions.py:2485-2524 *)
Definition T2_ph_Ii_2 : list Z := [
  0; 0; 0; 0; 0; 0; 0; 0; 1; 1; 1; 1; 1; 1; 1; 1; 2; 2; 2; 2; 3; 3; 3; 3; 4; 4; 4; 4; 4; 4; 
  5; 5; 5; 6; 7; 7; 9; 9]%Z.
(* pyXSteam/Regions.py:2525-2564 *)
Definition T2_ph_ni_2 : list dec := [
  1489.5041079516; 743.07798314034; -97.708318797837; 2.4742464705674; -0.63281320016026; 
  1.1385952129658; -0.47811863648625; 8.5208123431544e-03; 0.93747147377932; 3.3593118604916; 
  3.3809355601454; 0.16844539671904; 0.73875745236695; -0.47128737436186; 0.15020273139707; 
  -0.002176411421975; -0.021810755324761; -0.10829784403677; -0.046333324635812; 
  7.1280351959551e-05; 1.1032831789999e-04; 1.8955248387902e-04; 3.0891541160537e-03; 
  1.3555504554949e-03; 2.8640237477456e-07; -1.0779857357512e-05; -7.6462712454814e-05; 
  1.4052392818316e-05; -3.1083814331434e-05; -1.0302738212103e-06; 2.821728163504e-07; 
  1.2704902271945e-06; 7.3803353468292e-08; -1.1030139238909e-08; -8.1456365207833e-14; 
  -2.5180545682962e-11; -1.7565233969407e-18; 8.6934156344163e-15]%dec.
(* pyXSteam/Regions.py:2573-2597 *)
Definition T2_ph_Ji_3 : list Z := [0; 4; 0; 2; 0; 2; 0; 1; 0; 2; 0; 1; 4; 8; 4; 0; 1; 4; 10; 12; 16; 20; 22]%Z.
(* pyXSteam/Regions.py:2598-2622 *)
Definition T2_ph_Ii_3 : list Z := [-7; -7; -6; -6; -5; -5; -2; -2; -1; -1; 0; 0; 1; 1; 2; 6; 6; 6; 6; 6; 6; 6; 6]%Z.
(* pyXSteam/Regions.py:2623-2647 *)
Definition T2_ph_ni_3 : list dec := [
  -3236839855524.2; 7326335090218.1; 358250899454.47; -583401318515.9; -10783068217.47; 
  20825544563.171; 610747.83564516; 859777.2253558; -25745.72360417; 31081.088422714; 
  1208.2315865936; 482.19755109255; 3.7966001272486; -10.842984880077; -0.04536417267666; 
  1.4559115658698e-13; 1.126159740723e-12; -1.7804982240686e-11; 1.2324579690832e-07; 
  -1.1606921130984e-06; 2.7846367088554e-05; -5.9270038474176e-04; 1.2918582991878e-03]%dec.
(* pyXSteam/Regions.py:2315-2652, Region2.T2_ph *)
Definition T2_ph (p h : num) : res num :=
  let* sub_reg :=
      if (p <? #4)%num then
        let sub_reg := 1 in
        Ok sub_reg
      else
        let* q2 := let* q1 := powz h 2 in Ok (p <? (#905.84278514723 - #0.67955786399241 * h + #1.2809002730136e-04 * q1)) in
        if q2 then
          let sub_reg := 2 in
          Ok sub_reg
        else
          let sub_reg := 3 in
          Ok sub_reg in
  if (Z.eqb sub_reg 1)%num then
    let Ts := (#0)%num in
    let* hs := div h #2000 in
    let* Ts := for_each (combine (slice 0 34 T2_ph_ni) (combine (slice 0 34 T2_ph_Ii) (slice 0 34 T2_ph_Ji))) Ts (fun Ts '(ni_i, (Ii_i, Ji_i)) =>
        let* q4 := powz p Ii_i in
        let* q5 := powz (hs - #2.1) Ji_i in
        let Ts := (Ts + (lit ni_i) * q4 * q5)%num in
        Ok Ts) in
    Ok Ts
  else
    if (Z.eqb sub_reg 2)%num then
      let Ts := (#0)%num in
      let* hs := div h #2000 in
      let* Ts := for_each (combine (slice 0 38 T2_ph_ni_2) (combine (slice 0 38 T2_ph_Ii_2) (slice 0 38 T2_ph_Ji_2))) Ts (fun Ts '(ni_i, (Ii_i, Ji_i)) =>
          let* q7 := powz (p - #2) Ii_i in
          let* q8 := powz (hs - #2.6) Ji_i in
          let Ts := (Ts + (lit ni_i) * q7 * q8)%num in
          Ok Ts) in
      Ok Ts
    else
      let Ts := (#0)%num in
      let* hs := div h #2000 in
      let* Ts := for_each (combine (slice 0 23 T2_ph_ni_3) (combine (slice 0 23 T2_ph_Ii_3) (slice 0 23 T2_ph_Ji_3))) Ts (fun Ts '(ni_i, (Ii_i, Ji_i)) =>
          let* q10 := powz (p + #25) Ii_i in
          let* q11 := powz (hs - #1.8) Ji_i in
          let Ts := (Ts + (lit ni_i) * q10 * q11)%num in
          Ok Ts) in
      Ok Ts.

(* pyXSteam/Regions.py:2672-2719 *)
Definition T2_ps_Ii : list dec := [
  -1.5; -1.5; -1.5; -1.5; -1.5; -1.5; -1.25; -1.25; -1.25; -1; -1; -1; -1; -1; -1; -0.75; 
  -0.75; -0.5; -0.5; -0.5; -0.5; -0.25; -0.25; -0.25; -0.25; 0.25; 0.25; 0.25; 0.25; 0.5; 
  0.5; 0.5; 0.5; 0.5; 0.5; 0.5; 0.75; 0.75; 0.75; 0.75; 1; 1; 1.25; 1.25; 1.5; 1.5]%dec.
(* pyXSteam/Regions.py:2720-2767 *)
Definition T2_ps_Ji : list Z := [
  -24; -23; -19; -13; -11; -10; -19; -15; -6; -26; -21; -17; -16; -9; -8; -15; -14; -26; -13; 
  -9; -7; -27; -25; -11; -6; 1; 4; 8; 11; 0; 1; 5; 6; 10; 14; 16; 0; 4; 9; 17; 7; 18; 3; 15; 
  5; 18]%Z.
(* pyXSteam/Regions.py:2768-2815 *)
Definition T2_ps_ni : list dec := [
  -392359.83861984; 515265.7382727; 40482.443161048; -321.93790923902; 96.961424218694; 
  -22.867846371773; -449429.14124357; -5011.8336020166; 0.35684463560015; 44235.33584819; 
  -13673.388811708; 421632.60207864; 22516.925837475; 474.42144865646; -149.31130797647; 
  -197811.26320452; -23554.39947076; -19070.616302076; 55375.669883164; 3829.3691437363; 
  -603.91860580567; 1936.3102620331; 4266.064369861; -5978.0638872718; -704.01463926862; 
  338.36784107553; 20.862786635187; 0.033834172656196; -4.3124428414893e-05; 166.53791356412; 
  -139.86292055898; -0.78849547999872; 0.072132411753872; -5.9754839398283e-03; 
  -1.2141358953904e-05; 2.3227096733871e-07; -10.538463566194; 2.0718925496502; 
  -0.072193155260427; 2.074988708112e-07; -0.018340657911379; 2.9036272348696e-07; 
  0.21037527893619; 2.5681239729999e-04; -0.012799002933781; -8.2198102652018e-06]%dec.
(* pyXSteam/Regions.py:2825-2870 *)
Definition T2_ps_Ii_2 : list Z := [
  -6; -6; -5; -5; -4; -4; -4; -3; -3; -3; -3; -2; -2; -2; -2; -1; -1; -1; -1; -1; 0; 0; 0; 0; 
  0; 0; 0; 1; 1; 1; 1; 1; 1; 2; 2; 2; 3; 3; 3; 4; 4; 5; 5; 5]%Z.
(* pyXSteam/Regions.py:2871-2916 *)
Definition T2_ps_Ji_2 : list Z := [
  0; 11; 0; 11; 0; 1; 11; 0; 1; 11; 12; 0; 1; 6; 10; 0; 1; 5; 8; 9; 0; 1; 2; 4; 5; 6; 9; 0; 
  1; 2; 3; 7; 8; 0; 1; 5; 0; 1; 3; 0; 1; 0; 1; 2]%Z.
(* pyXSteam/Regions.py:2917-2962 *)
Definition T2_ps_ni_2 : list dec := [
  316876.65083497; 20.864175881858; -398593.99803599; -21.816058518877; 223697.85194242; 
  -2784.1703445817; 9.920743607148; -75197.512299157; 2970.8605951158; -3.4406878548526; 
  0.38815564249115; 17511.29508575; -1423.7112854449; 1.0943803364167; 0.89971619308495; 
  -3375.9740098958; 471.62885818355; -1.9188241993679; 0.41078580492196; -0.33465378172097; 
  1387.0034777505; -406.63326195838; 41.72734715961; 2.1932549434532; -1.0320050009077; 
  0.35882943516703; 5.2511453726066e-03; 12.838916450705; -2.8642437219381; 0.56912683664855; 
  -0.099962954584931; -3.2632037778459e-03; 2.3320922576723e-04; -0.1533480985745; 
  0.029072288239902; 3.7534702741167e-04; 1.7296691702411e-03; -3.8556050844504e-04; 
  -3.5017712292608e-05; -1.4566393631492e-05; 5.6420857267269e-06; 4.1286150074605e-08; 
  -2.0684671118824e-08; 1.6409393674725e-09]%dec.
(* pyXSteam/Regions.py:2971-3002 *)
Definition T2_ps_Ii_3 : list Z := [-2; -2; -1; 0; 0; 0; 0; 1; 1; 1; 1; 2; 2; 2; 3; 3; 3; 4; 4; 4; 5; 5; 5; 6; 6; 7; 7; 7; 7; 7]%Z.
(* pyXSteam/Regions.py:3003-3034 *)
Definition T2_ps_Ji_3 : list Z := [0; 1; 0; 0; 1; 2; 3; 0; 1; 3; 4; 0; 1; 2; 0; 1; 5; 0; 1; 4; 0; 1; 2; 0; 1; 0; 1; 3; 4; 5]%Z.
(* pyXSteam/Regions.py:3035-3066 *)
Definition T2_ps_ni_3 : list dec := [
  909.68501005365; 2404.566708842; -591.6232638713; 541.45404128074; -270.98308411192; 
  979.76525097926; -469.66772959435; 14.399274604723; -19.104204230429; 5.3299167111971; 
  -21.252975375934; -0.3114733441376; 0.60334840894623; -0.042764839702509; 
  5.8185597255259e-03; -0.014597008284753; 5.6631175631027e-03; -7.6155864584577e-05; 
  2.2440342919332e-04; -1.2561095013413e-05; 6.3323132660934e-07; -2.0541989675375e-06; 
  3.6405370390082e-08; -2.9759897789215e-09; 1.0136618529763e-08; 5.9925719692351e-12; 
  -2.0677870105164e-11; -2.0874278181886e-11; 1.0162166825089e-10; -1.6429828281347e-10]%dec.
(* pyXSteam/Regions.py:2655-3072, Region2.T2_ps *)
Definition T2_ps (p s : num) : res num :=
  let* sub_reg :=
      if (p <? #4)%num then
        let sub_reg := 1 in
        Ok sub_reg
      else
        if (s <? #5.85)%num then
          let sub_reg := 3 in
          Ok sub_reg
        else
          let sub_reg := 2 in
          Ok sub_reg in
  if (Z.eqb sub_reg 1)%num then
    let Pi := p in
    let* Sigma := div s #2 in
    let teta := (#0)%num in
    let* teta := for_each (combine (slice 0 46 T2_ps_ni) (combine (slice 0 46 T2_ps_Ii) (slice 0 46 T2_ps_Ji))) teta (fun teta '(ni_i, (Ii_i, Ji_i)) =>
        let* q2 := powf Pi (lit Ii_i) in
        let* q3 := powz (Sigma - #2) Ji_i in
        let teta := (teta + (lit ni_i) * q2 * q3)%num in
        Ok teta) in
    Ok teta
  else
    if (Z.eqb sub_reg 2)%num then
      let Pi := p in
      let* Sigma := div s #0.7853 in
      let teta := (#0)%num in
      let* teta := for_each (combine (slice 0 44 T2_ps_ni_2) (combine (slice 0 44 T2_ps_Ii_2) (slice 0 44 T2_ps_Ji_2))) teta (fun teta '(ni_i, (Ii_i, Ji_i)) =>
          let* q5 := powz Pi Ii_i in
          let* q6 := powz (#10 - Sigma) Ji_i in
          let teta := (teta + (lit ni_i) * q5 * q6)%num in
          Ok teta) in
      Ok teta
    else
      let Pi := p in
      let* Sigma := div s #2.9251 in
      let teta := (#0)%num in
      let* teta := for_each (combine (slice 0 30 T2_ps_ni_3) (combine (slice 0 30 T2_ps_Ii_3) (slice 0 30 T2_ps_Ji_3))) teta (fun teta '(ni_i, (Ii_i, Ji_i)) =>
          let* q8 := powz Pi Ii_i in
          let* q9 := powz (#2 - Sigma) Ji_i in
          let teta := (teta + (lit ni_i) * q8 * q9)%num in
          Ok teta) in
      Ok teta.

(* pyXSteam/Regions.py:3097-3127 *)
Definition p2_hs_Ii : list Z := [0; 0; 0; 0; 0; 0; 1; 1; 1; 1; 1; 1; 1; 1; 1; 1; 2; 2; 2; 3; 3; 3; 3; 3; 4; 5; 5; 6; 7]%Z.
(* pyXSteam/Regions.py:3128-3158 *)
Definition p2_hs_Ji : list Z := [
  1; 3; 6; 16; 20; 22; 0; 1; 2; 3; 5; 6; 10; 16; 20; 22; 3; 16; 20; 0; 2; 3; 6; 16; 16; 3; 
  16; 3; 1]%Z.
(* pyXSteam/Regions.py:3159-3189 *)
Definition p2_hs_ni : list dec := [
  -1.82575361923032e-02; -0.125229548799536; 0.592290437320145; 6.04769706185122; 
  238.624965444474; -298.639090222922; 0.051225081304075; -0.437266515606486; 
  0.413336902999504; -5.16468254574773; -5.57014838445711; 12.8555037824478; 11.414410895329; 
  -119.504225652714; -2847.7798596156; 4317.57846408006; 1.1289404080265; 1974.09186206319; 
  1516.12444706087; 1.41324451421235e-02; 0.585501282219601; -2.97258075863012; 
  5.94567314847319; -6236.56565798905; 9659.86235133332; 6.81500934948134; -6332.07286824489; 
  -5.5891922446576; 4.00645798472063e-02]%dec.
(* pyXSteam/Regions.py:3199-3233 *)
Definition p2_hs_Ii_2 : list Z := [
  0; 0; 0; 0; 0; 1; 1; 1; 1; 1; 1; 2; 2; 2; 3; 3; 3; 3; 4; 4; 5; 5; 6; 6; 6; 7; 7; 8; 8; 8; 
  8; 12; 14]%Z.
(* pyXSteam/Regions.py:3234-3268 *)
Definition p2_hs_Ji_2 : list Z := [
  0; 1; 2; 4; 8; 0; 1; 2; 3; 5; 12; 1; 6; 18; 0; 1; 7; 12; 1; 16; 1; 12; 1; 8; 18; 1; 16; 1; 
  3; 14; 18; 10; 16]%Z.
(* pyXSteam/Regions.py:3269-3303 *)
Definition p2_hs_ni_2 : list dec := [
  8.01496989929495e-02; -0.543862807146111; 0.337455597421283; 8.9055545115745; 
  313.840736431485; 0.797367065977789; -1.2161697355624; 8.72803386937477; -16.9769781757602; 
  -186.552827328416; 95115.9274344237; -18.9168510120494; -4334.0703719484; 543212633.012715; 
  0.144793408386013; 128.024559637516; -67230.9534071268; 33697238.0095287; -586.63419676272; 
  -22140322476.9889; 1716.06668708389; -570817595.806302; -3121.09693178482; 
  -2078413.8463301; 3056059461577.86; 3221.57004314333; 326810259797.295; -1441.04158934487; 
  410.694867802691; 109077066873.024; -24796465425889.3; 1888019068.65134; -123651009018773]%dec.
(* pyXSteam/Regions.py:3313-3345 *)
Definition p2_hs_Ii_3 : list Z := [
  0; 0; 0; 0; 0; 0; 1; 1; 1; 1; 1; 2; 2; 2; 2; 2; 3; 3; 3; 3; 3; 4; 5; 5; 5; 5; 6; 6; 10; 12; 
  16]%Z.
(* pyXSteam/Regions.py:3346-3378 *)
Definition p2_hs_Ji_3 : list Z := [
  0; 1; 2; 3; 4; 8; 0; 2; 5; 8; 14; 2; 3; 7; 10; 18; 0; 5; 8; 16; 18; 18; 1; 4; 6; 14; 8; 18; 
  7; 7; 10]%Z.
(* pyXSteam/Regions.py:3379-3411 *)
Definition p2_hs_ni_3 : list dec := [
  0.112225607199012; -3.39005953606712; -32.0503911730094; -197.5973051049; 
  -407.693861553446; 13294.3775222331; 1.70846839774007; 37.3694198142245; 3581.44365815434; 
  423014.446424664; -751071025.760063; 52.3446127607898; -228.351290812417; 
  -960652.417056937; -80705929.2526074; 1626980172256.69; 0.772465073604171; 
  46392.9973837746; -13731788.5134128; 1704703926305.12; -25110462818730.8; 31774883083552; 
  53.8685623675312; -55308.9094625169; -1028615.22421405; 2042494187562.34; 273918446.626977; 
  -2.63963146312685e15; -1078908541.08088; -29649262098.0124; -1.11754907323424e15]%dec.
(* pyXSteam/Regions.py:3075-3418, Region2.p2_hs *)
Definition p2_hs (h s : num) : res num :=
  let* sub_reg :=
      let* q6 := let* q4 := powz s 2 in let* q5 := powz s 3 in Ok (h <? (#(-3498.98083432139) + #2575.60716905876 * s - #421.073558227969 * q4 + #27.6349063799944 * q5)) in
      if q6 then
        let sub_reg := 1 in
        Ok sub_reg
      else
        if (s <? #5.85)%num then
          let sub_reg := 3 in
          Ok sub_reg
        else
          let sub_reg := 2 in
          Ok sub_reg in
  if (Z.eqb sub_reg 1)%num then
    let* eta := div h #4200 in
    let* Sigma := div s #12 in
    let Pi := (#0)%num in
    let* Pi := for_each (combine (slice 0 29 p2_hs_ni) (combine (slice 0 29 p2_hs_Ii) (slice 0 29 p2_hs_Ji))) Pi (fun Pi '(ni_i, (Ii_i, Ji_i)) =>
        let* q9 := powz (eta - #0.5) Ii_i in
        let* q10 := powz (Sigma - #1.2) Ji_i in
        let Pi := (Pi + (lit ni_i) * q9 * q10)%num in
        Ok Pi) in
    let* q11 := powz Pi 4 in
    let p2_hs := (q11 * #4)%num in
    Ok p2_hs
  else
    if (Z.eqb sub_reg 2)%num then
      let* eta := div h #4100 in
      let* Sigma := div s #7.9 in
      let Pi := (#0)%num in
      let* Pi := for_each (combine (slice 0 33 p2_hs_ni_2) (combine (slice 0 33 p2_hs_Ii_2) (slice 0 33 p2_hs_Ji_2))) Pi (fun Pi '(ni_i, (Ii_i, Ji_i)) =>
          let* q14 := powz (eta - #0.6) Ii_i in
          let* q15 := powz (Sigma - #1.01) Ji_i in
          let Pi := (Pi + (lit ni_i) * q14 * q15)%num in
          Ok Pi) in
      let* q16 := powz Pi 4 in
      let p2_hs := (q16 * #100)%num in
      Ok p2_hs
    else
      let* eta := div h #3500 in
      let* Sigma := div s #5.9 in
      let Pi := (#0)%num in
      let* Pi := for_each (combine (slice 0 31 p2_hs_ni_3) (combine (slice 0 31 p2_hs_Ii_3) (slice 0 31 p2_hs_Ji_3))) Pi (fun Pi '(ni_i, (Ii_i, Ji_i)) =>
          let* q19 := powz (eta - #0.7) Ii_i in
          let* q20 := powz (Sigma - #1.1) Ji_i in
          let Pi := (Pi + (lit ni_i) * q19 * q20)%num in
          Ok Pi) in
      let* q21 := powz Pi 4 in
      let p2_hs := (q21 * #100)%num in
      Ok p2_hs.

End Model.
