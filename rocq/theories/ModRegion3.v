(** GENERATED by tools/translate.py from pyXSteam/Regions.py, class Region3 (h3_pT is in ModRegion4.v) -- do not edit.
    Text of the Python source, function by function; see DESIGN.md. *)
From Coq Require Import ZArith List Bool.
From Verif Require Import Py ModConstants ModBorders ModRegion1 ModRegion2.
Import ListNotations.
Open Scope Z_scope.
Open Scope num_scope.

Section Model.
Context {N : Num} {F : Fuel}.

(* pyXSteam/Regions.py:3467-3508 *)
Definition p3_rhoT_Ii : list Z := [
  0; 0; 0; 0; 0; 0; 0; 0; 1; 1; 1; 1; 2; 2; 2; 2; 2; 2; 3; 3; 3; 3; 3; 4; 4; 4; 4; 5; 5; 5; 
  6; 6; 6; 7; 8; 9; 9; 10; 10; 11]%Z.
(* pyXSteam/Regions.py:3509-3550 *)
Definition p3_rhoT_Ji : list Z := [
  0; 0; 1; 2; 7; 10; 12; 23; 2; 6; 15; 17; 0; 2; 6; 7; 22; 26; 0; 2; 4; 16; 26; 0; 2; 4; 26; 
  1; 3; 26; 0; 2; 26; 2; 26; 2; 26; 0; 1; 26]%Z.
(* pyXSteam/Regions.py:3551-3592 *)
Definition p3_rhoT_ni : list dec := [
  1.0658070028513; -15.732845290239; 20.944396974307; -7.6867707878716; 2.6185947787954; 
  -2.808078114862; 1.2053369696517; -8.4566812812502e-03; -1.2654315477714; -1.1524407806681; 
  0.88521043984318; -0.64207765181607; 0.38493460186671; -0.85214708824206; 4.8972281541877; 
  -3.0502617256965; 0.039420536879154; 0.12558408424308; -0.2799932969871; 1.389979956946; 
  -2.018991502357; -8.2147637173963e-03; -0.47596035734923; 0.0439840744735; 
  -0.44476435428739; 0.90572070719733; 0.70522450087967; 0.10770512626332; -0.32913623258954; 
  -0.50871062041158; -0.022175400873096; 0.094260751665092; 0.16436278447961; 
  -0.013503372241348; -0.014834345352472; 5.7922953628084e-04; 3.2308904703711e-03; 
  8.0964802996215e-05; -1.6557679795037e-04; -4.4923899061815e-05]%dec.
(* pyXSteam/Regions.py:3460-3603, Region3.p3_rhoT *)
Definition p3_rhoT (rho T : num) : res num :=
  let R := SPECIFIC_GAS_CONSTANT in
  let tc := CRITICAL_TEMPERATURE in
  let rhoc := (#322.0)%num in
  let* delta := div rho rhoc in
  let* tau := div tc T in
  let fidelta := (#0)%num in
  let* fidelta := for_each (combine (slice 1 40 p3_rhoT_ni) (combine (slice 1 40 p3_rhoT_Ii) (slice 1 40 p3_rhoT_Ji))) fidelta (fun fidelta '(ni_i, (Ii_i, Ji_i)) =>
      let* q3 := powz delta ((Ii_i - 1)%Z) in
      let* q4 := powz tau Ji_i in
      let fidelta := (fidelta + (lit ni_i) * int Ii_i * q3 * q4)%num in
      Ok fidelta) in
  let* q5 := item p3_rhoT_ni 0 in
  let* q6 := div (lit q5) delta in
  let fidelta := (fidelta + q6)%num in
  div (rho * R * T * delta * fidelta) #1000.0.

(* pyXSteam/Regions.py:3613-3654 *)
Definition u3_rhoT_Ii : list Z := [
  0; 0; 0; 0; 0; 0; 0; 0; 1; 1; 1; 1; 2; 2; 2; 2; 2; 2; 3; 3; 3; 3; 3; 4; 4; 4; 4; 5; 5; 5; 
  6; 6; 6; 7; 8; 9; 9; 10; 10; 11]%Z.
(* pyXSteam/Regions.py:3655-3696 *)
Definition u3_rhoT_Ji : list Z := [
  0; 0; 1; 2; 7; 10; 12; 23; 2; 6; 15; 17; 0; 2; 6; 7; 22; 26; 0; 2; 4; 16; 26; 0; 2; 4; 26; 
  1; 3; 26; 0; 2; 26; 2; 26; 2; 26; 0; 1; 26]%Z.
(* pyXSteam/Regions.py:3697-3738 *)
Definition u3_rhoT_ni : list dec := [
  1.0658070028513; -15.732845290239; 20.944396974307; -7.6867707878716; 2.6185947787954; 
  -2.808078114862; 1.2053369696517; -8.4566812812502e-03; -1.2654315477714; -1.1524407806681; 
  0.88521043984318; -0.64207765181607; 0.38493460186671; -0.85214708824206; 4.8972281541877; 
  -3.0502617256965; 0.039420536879154; 0.12558408424308; -0.2799932969871; 1.389979956946; 
  -2.018991502357; -8.2147637173963e-03; -0.47596035734923; 0.0439840744735; 
  -0.44476435428739; 0.90572070719733; 0.70522450087967; 0.10770512626332; -0.32913623258954; 
  -0.50871062041158; -0.022175400873096; 0.094260751665092; 0.16436278447961; 
  -0.013503372241348; -0.014834345352472; 5.7922953628084e-04; 3.2308904703711e-03; 
  8.0964802996215e-05; -1.6557679795037e-04; -4.4923899061815e-05]%dec.
(* pyXSteam/Regions.py:3606-3747, Region3.u3_rhoT *)
Definition u3_rhoT (rho T : num) : res num :=
  let R := SPECIFIC_GAS_CONSTANT in
  let tc := CRITICAL_TEMPERATURE in
  let rhoc := (#322.0)%num in
  let* delta := div rho rhoc in
  let* tau := div tc T in
  let fitau := (#0)%num in
  let* fitau := for_each (combine (slice 1 40 u3_rhoT_ni) (combine (slice 1 40 u3_rhoT_Ii) (slice 1 40 u3_rhoT_Ji))) fitau (fun fitau '(ni_i, (Ii_i, Ji_i)) =>
      let* q3 := powz delta Ii_i in
      let* q4 := powz tau ((Ji_i - 1)%Z) in
      let fitau := (fitau + (lit ni_i) * q3 * int Ji_i * q4)%num in
      Ok fitau) in
  Ok (R * T * (tau * fitau)).

(* pyXSteam/Regions.py:3757-3798 *)
Definition h3_rhoT_Ii : list Z := [
  0; 0; 0; 0; 0; 0; 0; 0; 1; 1; 1; 1; 2; 2; 2; 2; 2; 2; 3; 3; 3; 3; 3; 4; 4; 4; 4; 5; 5; 5; 
  6; 6; 6; 7; 8; 9; 9; 10; 10; 11]%Z.
(* pyXSteam/Regions.py:3799-3840 *)
Definition h3_rhoT_Ji : list Z := [
  0; 0; 1; 2; 7; 10; 12; 23; 2; 6; 15; 17; 0; 2; 6; 7; 22; 26; 0; 2; 4; 16; 26; 0; 2; 4; 26; 
  1; 3; 26; 0; 2; 26; 2; 26; 2; 26; 0; 1; 26]%Z.
(* pyXSteam/Regions.py:3841-3882 *)
Definition h3_rhoT_ni : list dec := [
  1.0658070028513; -15.732845290239; 20.944396974307; -7.6867707878716; 2.6185947787954; 
  -2.808078114862; 1.2053369696517; -8.4566812812502e-03; -1.2654315477714; -1.1524407806681; 
  0.88521043984318; -0.64207765181607; 0.38493460186671; -0.85214708824206; 4.8972281541877; 
  -3.0502617256965; 0.039420536879154; 0.12558408424308; -0.2799932969871; 1.389979956946; 
  -2.018991502357; -8.2147637173963e-03; -0.47596035734923; 0.0439840744735; 
  -0.44476435428739; 0.90572070719733; 0.70522450087967; 0.10770512626332; -0.32913623258954; 
  -0.50871062041158; -0.022175400873096; 0.094260751665092; 0.16436278447961; 
  -0.013503372241348; -0.014834345352472; 5.7922953628084e-04; 3.2308904703711e-03; 
  8.0964802996215e-05; -1.6557679795037e-04; -4.4923899061815e-05]%dec.
(* pyXSteam/Regions.py:3750-3894, Region3.h3_rhoT *)
Definition h3_rhoT (rho T : num) : res num :=
  let R := SPECIFIC_GAS_CONSTANT in
  let tc := CRITICAL_TEMPERATURE in
  let rhoc := (#322.0)%num in
  let* delta := div rho rhoc in
  let* tau := div tc T in
  let fidelta := (#0)%num in
  let fitau := (#0)%num in
  let* (fidelta, fitau) := for_each (combine (slice 1 40 h3_rhoT_ni) (combine (slice 1 40 h3_rhoT_Ii) (slice 1 40 h3_rhoT_Ji))) (fidelta, fitau) (fun '(fidelta, fitau) '(ni_i, (Ii_i, Ji_i)) =>
      let* q3 := powz delta ((Ii_i - 1)%Z) in
      let* q4 := powz tau Ji_i in
      let fidelta := (fidelta + (lit ni_i) * int Ii_i * q3 * q4)%num in
      let* q5 := powz delta Ii_i in
      let* q6 := powz tau ((Ji_i - 1)%Z) in
      let fitau := (fitau + (lit ni_i) * q5 * int Ji_i * q6)%num in
      Ok (fidelta, fitau)) in
  let* q7 := item h3_rhoT_ni 0 in
  let* q8 := div (lit q7) delta in
  let fidelta := (fidelta + q8)%num in
  Ok (R * T * (tau * fitau + delta * fidelta)).

(* pyXSteam/Regions.py:3904-3945 *)
Definition s3_rhoT_Ii : list Z := [
  0; 0; 0; 0; 0; 0; 0; 0; 1; 1; 1; 1; 2; 2; 2; 2; 2; 2; 3; 3; 3; 3; 3; 4; 4; 4; 4; 5; 5; 5; 
  6; 6; 6; 7; 8; 9; 9; 10; 10; 11]%Z.
(* pyXSteam/Regions.py:3946-3987 *)
Definition s3_rhoT_Ji : list Z := [
  0; 0; 1; 2; 7; 10; 12; 23; 2; 6; 15; 17; 0; 2; 6; 7; 22; 26; 0; 2; 4; 16; 26; 0; 2; 4; 26; 
  1; 3; 26; 0; 2; 26; 2; 26; 2; 26; 0; 1; 26]%Z.
(* pyXSteam/Regions.py:3988-4029 *)
Definition s3_rhoT_ni : list dec := [
  1.0658070028513; -15.732845290239; 20.944396974307; -7.6867707878716; 2.6185947787954; 
  -2.808078114862; 1.2053369696517; -8.4566812812502e-03; -1.2654315477714; -1.1524407806681; 
  0.88521043984318; -0.64207765181607; 0.38493460186671; -0.85214708824206; 4.8972281541877; 
  -3.0502617256965; 0.039420536879154; 0.12558408424308; -0.2799932969871; 1.389979956946; 
  -2.018991502357; -8.2147637173963e-03; -0.47596035734923; 0.0439840744735; 
  -0.44476435428739; 0.90572070719733; 0.70522450087967; 0.10770512626332; -0.32913623258954; 
  -0.50871062041158; -0.022175400873096; 0.094260751665092; 0.16436278447961; 
  -0.013503372241348; -0.014834345352472; 5.7922953628084e-04; 3.2308904703711e-03; 
  8.0964802996215e-05; -1.6557679795037e-04; -4.4923899061815e-05]%dec.
(* pyXSteam/Regions.py:3897-4041, Region3.s3_rhoT *)
Definition s3_rhoT (rho T : num) : res num :=
  let R := SPECIFIC_GAS_CONSTANT in
  let tc := CRITICAL_TEMPERATURE in
  let rhoc := (#322.0)%num in
  let* delta := div rho rhoc in
  let* tau := div tc T in
  let fi := (#0)%num in
  let fitau := (#0)%num in
  let* (fi, fitau) := for_each (combine (slice 1 40 s3_rhoT_ni) (combine (slice 1 40 s3_rhoT_Ii) (slice 1 40 s3_rhoT_Ji))) (fi, fitau) (fun '(fi, fitau) '(ni_i, (Ii_i, Ji_i)) =>
      let* q3 := powz delta Ii_i in
      let* q4 := powz tau Ji_i in
      let fi := (fi + (lit ni_i) * q3 * q4)%num in
      let* q5 := powz delta Ii_i in
      let* q6 := powz tau ((Ji_i - 1)%Z) in
      let fitau := (fitau + (lit ni_i) * q5 * int Ji_i * q6)%num in
      Ok (fi, fitau)) in
  let* q7 := item s3_rhoT_ni 0 in
  let* q8 := log delta in
  let fi := (fi + (lit q7) * q8)%num in
  Ok (R * (tau * fitau - fi)).

(* pyXSteam/Regions.py:4051-4092 *)
Definition Cp3_rhoT_Ii : list Z := [
  0; 0; 0; 0; 0; 0; 0; 0; 1; 1; 1; 1; 2; 2; 2; 2; 2; 2; 3; 3; 3; 3; 3; 4; 4; 4; 4; 5; 5; 5; 
  6; 6; 6; 7; 8; 9; 9; 10; 10; 11]%Z.
(* pyXSteam/Regions.py:4093-4134 *)
Definition Cp3_rhoT_Ji : list Z := [
  0; 0; 1; 2; 7; 10; 12; 23; 2; 6; 15; 17; 0; 2; 6; 7; 22; 26; 0; 2; 4; 16; 26; 0; 2; 4; 26; 
  1; 3; 26; 0; 2; 26; 2; 26; 2; 26; 0; 1; 26]%Z.
(* pyXSteam/Regions.py:4135-4176 *)
Definition Cp3_rhoT_ni : list dec := [
  1.0658070028513; -15.732845290239; 20.944396974307; -7.6867707878716; 2.6185947787954; 
  -2.808078114862; 1.2053369696517; -8.4566812812502e-03; -1.2654315477714; -1.1524407806681; 
  0.88521043984318; -0.64207765181607; 0.38493460186671; -0.85214708824206; 4.8972281541877; 
  -3.0502617256965; 0.039420536879154; 0.12558408424308; -0.2799932969871; 1.389979956946; 
  -2.018991502357; -8.2147637173963e-03; -0.47596035734923; 0.0439840744735; 
  -0.44476435428739; 0.90572070719733; 0.70522450087967; 0.10770512626332; -0.32913623258954; 
  -0.50871062041158; -0.022175400873096; 0.094260751665092; 0.16436278447961; 
  -0.013503372241348; -0.014834345352472; 5.7922953628084e-04; 3.2308904703711e-03; 
  8.0964802996215e-05; -1.6557679795037e-04; -4.4923899061815e-05]%dec.
(* pyXSteam/Regions.py:4044-4204, Region3.Cp3_rhoT *)
Definition Cp3_rhoT (rho T : num) : res num :=
  let R := SPECIFIC_GAS_CONSTANT in
  let tc := CRITICAL_TEMPERATURE in
  let rhoc := (#322.0)%num in
  let* delta := div rho rhoc in
  let* tau := div tc T in
  let fitautau := (#0)%num in
  let fidelta := (#0)%num in
  let fideltatau := (#0)%num in
  let fideltadelta := (#0)%num in
  let* (fitautau, fidelta, fideltatau, fideltadelta) := for_each (combine (slice 1 40 Cp3_rhoT_ni) (combine (slice 1 40 Cp3_rhoT_Ii) (slice 1 40 Cp3_rhoT_Ji))) (fitautau, fidelta, fideltatau, fideltadelta) (fun '(fitautau, fidelta, fideltatau, fideltadelta) '(ni_i, (Ii_i, Ji_i)) =>
      let* q3 := powz delta Ii_i in
      let* q4 := powz tau ((Ji_i - 2)%Z) in
      let fitautau := (fitautau + (lit ni_i) * q3 * int Ji_i * int ((Ji_i - 1)%Z) * q4)%num in
      let* q5 := powz delta ((Ii_i - 1)%Z) in
      let* q6 := powz tau Ji_i in
      let fidelta := (fidelta + (lit ni_i) * int Ii_i * q5 * q6)%num in
      let* q7 := powz delta ((Ii_i - 1)%Z) in
      let* q8 := powz tau ((Ji_i - 1)%Z) in
      let fideltatau := (fideltatau + (lit ni_i) * int Ii_i * q7 * int Ji_i * q8)%num in
      let* q9 := powz delta ((Ii_i - 2)%Z) in
      let* q10 := powz tau Ji_i in
      let fideltadelta := (fideltadelta + (lit ni_i) * int Ii_i * int ((Ii_i - 1)%Z) * q9 * q10)%num in
      Ok (fitautau, fidelta, fideltatau, fideltadelta)) in
  let* q11 := item Cp3_rhoT_ni 0 in
  let* q12 := div (lit q11) delta in
  let fidelta := (fidelta + q12)%num in
  let* q13 := item Cp3_rhoT_ni 0 in
  let* q14 := powz delta 2 in
  let* q15 := div (lit q13) q14 in
  let fideltadelta := (fideltadelta - q15)%num in
  let* q16 := powz tau 2 in
  let* q17 := powz (delta * fidelta - delta * tau * fideltatau) 2 in
  let* q18 := powz delta 2 in
  let* q19 := div q17 (#2 * delta * fidelta + q18 * fideltadelta) in
  Ok (R * ((- q16) * fitautau + q19)).

(* pyXSteam/Regions.py:4214-4255 *)
Definition Cv3_rhoT_Ii : list Z := [
  0; 0; 0; 0; 0; 0; 0; 0; 1; 1; 1; 1; 2; 2; 2; 2; 2; 2; 3; 3; 3; 3; 3; 4; 4; 4; 4; 5; 5; 5; 
  6; 6; 6; 7; 8; 9; 9; 10; 10; 11]%Z.
(* pyXSteam/Regions.py:4256-4297 *)
Definition Cv3_rhoT_Ji : list Z := [
  0; 0; 1; 2; 7; 10; 12; 23; 2; 6; 15; 17; 0; 2; 6; 7; 22; 26; 0; 2; 4; 16; 26; 0; 2; 4; 26; 
  1; 3; 26; 0; 2; 26; 2; 26; 2; 26; 0; 1; 26]%Z.
(* pyXSteam/Regions.py:4298-4339 *)
Definition Cv3_rhoT_ni : list dec := [
  1.0658070028513; -15.732845290239; 20.944396974307; -7.6867707878716; 2.6185947787954; 
  -2.808078114862; 1.2053369696517; -8.4566812812502e-03; -1.2654315477714; -1.1524407806681; 
  0.88521043984318; -0.64207765181607; 0.38493460186671; -0.85214708824206; 4.8972281541877; 
  -3.0502617256965; 0.039420536879154; 0.12558408424308; -0.2799932969871; 1.389979956946; 
  -2.018991502357; -8.2147637173963e-03; -0.47596035734923; 0.0439840744735; 
  -0.44476435428739; 0.90572070719733; 0.70522450087967; 0.10770512626332; -0.32913623258954; 
  -0.50871062041158; -0.022175400873096; 0.094260751665092; 0.16436278447961; 
  -0.013503372241348; -0.014834345352472; 5.7922953628084e-04; 3.2308904703711e-03; 
  8.0964802996215e-05; -1.6557679795037e-04; -4.4923899061815e-05]%dec.
(* pyXSteam/Regions.py:4207-4353, Region3.Cv3_rhoT *)
Definition Cv3_rhoT (rho T : num) : res num :=
  let R := SPECIFIC_GAS_CONSTANT in
  let tc := CRITICAL_TEMPERATURE in
  let rhoc := (#322.0)%num in
  let* delta := div rho rhoc in
  let* tau := div tc T in
  let fitautau := (#0)%num in
  let* fitautau := for_each (combine (slice 1 40 Cv3_rhoT_ni) (combine (slice 1 40 Cv3_rhoT_Ii) (slice 1 40 Cv3_rhoT_Ji))) fitautau (fun fitautau '(ni_i, (Ii_i, Ji_i)) =>
      let* q3 := powz delta Ii_i in
      let* q4 := powz tau ((Ji_i - 2)%Z) in
      let fitautau := (fitautau + (lit ni_i) * q3 * int Ji_i * int ((Ji_i - 1)%Z) * q4)%num in
      Ok fitautau) in
  Ok (R * (- (tau * tau * fitautau))).

(* pyXSteam/Regions.py:4363-4404 *)
Definition w3_rhoT_Ii : list Z := [
  0; 0; 0; 0; 0; 0; 0; 0; 1; 1; 1; 1; 2; 2; 2; 2; 2; 2; 3; 3; 3; 3; 3; 4; 4; 4; 4; 5; 5; 5; 
  6; 6; 6; 7; 8; 9; 9; 10; 10; 11]%Z.
(* pyXSteam/Regions.py:4405-4446 *)
Definition w3_rhoT_Ji : list Z := [
  0; 0; 1; 2; 7; 10; 12; 23; 2; 6; 15; 17; 0; 2; 6; 7; 22; 26; 0; 2; 4; 16; 26; 0; 2; 4; 26; 
  1; 3; 26; 0; 2; 26; 2; 26; 2; 26; 0; 1; 26]%Z.
(* pyXSteam/Regions.py:4447-4488 *)
Definition w3_rhoT_ni : list dec := [
  1.0658070028513; -15.732845290239; 20.944396974307; -7.6867707878716; 2.6185947787954; 
  -2.808078114862; 1.2053369696517; -8.4566812812502e-03; -1.2654315477714; -1.1524407806681; 
  0.88521043984318; -0.64207765181607; 0.38493460186671; -0.85214708824206; 4.8972281541877; 
  -3.0502617256965; 0.039420536879154; 0.12558408424308; -0.2799932969871; 1.389979956946; 
  -2.018991502357; -8.2147637173963e-03; -0.47596035734923; 0.0439840744735; 
  -0.44476435428739; 0.90572070719733; 0.70522450087967; 0.10770512626332; -0.32913623258954; 
  -0.50871062041158; -0.022175400873096; 0.094260751665092; 0.16436278447961; 
  -0.013503372241348; -0.014834345352472; 5.7922953628084e-04; 3.2308904703711e-03; 
  8.0964802996215e-05; -1.6557679795037e-04; -4.4923899061815e-05]%dec.
(* pyXSteam/Regions.py:4356-4522, Region3.w3_rhoT *)
Definition w3_rhoT (rho T : num) : res num :=
  let R := SPECIFIC_GAS_CONSTANT in
  let tc := CRITICAL_TEMPERATURE in
  let rhoc := (#322.0)%num in
  let* delta := div rho rhoc in
  let* tau := div tc T in
  let fitautau := (#0)%num in
  let fidelta := (#0)%num in
  let fideltatau := (#0)%num in
  let fideltadelta := (#0)%num in
  let* (fitautau, fidelta, fideltatau, fideltadelta) := for_each (combine (slice 1 40 w3_rhoT_ni) (combine (slice 1 40 w3_rhoT_Ii) (slice 1 40 w3_rhoT_Ji))) (fitautau, fidelta, fideltatau, fideltadelta) (fun '(fitautau, fidelta, fideltatau, fideltadelta) '(ni_i, (Ii_i, Ji_i)) =>
      let* q3 := powz delta Ii_i in
      let* q4 := powz tau ((Ji_i - 2)%Z) in
      let fitautau := (fitautau + (lit ni_i) * q3 * int Ji_i * int ((Ji_i - 1)%Z) * q4)%num in
      let* q5 := powz delta ((Ii_i - 1)%Z) in
      let* q6 := powz tau Ji_i in
      let fidelta := (fidelta + (lit ni_i) * int Ii_i * q5 * q6)%num in
      let* q7 := powz delta ((Ii_i - 1)%Z) in
      let* q8 := powz tau ((Ji_i - 1)%Z) in
      let fideltatau := (fideltatau + (lit ni_i) * int Ii_i * q7 * int Ji_i * q8)%num in
      let* q9 := powz delta ((Ii_i - 2)%Z) in
      let* q10 := powz tau Ji_i in
      let fideltadelta := (fideltadelta + (lit ni_i) * int Ii_i * int ((Ii_i - 1)%Z) * q9 * q10)%num in
      Ok (fitautau, fidelta, fideltatau, fideltadelta)) in
  let* q11 := item w3_rhoT_ni 0 in
  let* q12 := div (lit q11) delta in
  let fidelta := (fidelta + q12)%num in
  let* q13 := item w3_rhoT_ni 0 in
  let* q14 := powz delta 2 in
  let* q15 := div (lit q13) q14 in
  let fideltadelta := (fideltadelta - q15)%num in
  let* q16 := powz delta 2 in
  let* q17 := powz (delta * fidelta - delta * tau * fideltatau) 2 in
  let* q18 := powz tau 2 in
  let* q19 := div q17 (q18 * fitautau) in
  powf (#1000 * R * T * (#2 * delta * fidelta + q16 * fideltadelta - q19)) #0.5.

(* pyXSteam/Regions.py:4543-4575 *)
Definition T3_ph_Ii : list Z := [
  -12; -12; -12; -12; -12; -12; -12; -12; -10; -10; -10; -8; -8; -8; -8; -5; -3; -2; -2; -2; 
  -1; -1; 0; 0; 1; 3; 3; 4; 4; 10; 12]%Z.
(* pyXSteam/Regions.py:4576-4608 *)
Definition T3_ph_Ji : list Z := [
  0; 1; 2; 6; 14; 16; 20; 22; 1; 5; 12; 0; 2; 4; 10; 2; 0; 1; 3; 4; 0; 2; 0; 1; 1; 0; 1; 0; 
  3; 4; 5]%Z.
(* pyXSteam/Regions.py:4609-4641 *)
Definition T3_ph_ni : list dec := [
  -1.33645667811215e-07; 4.55912656802978e-06; -1.46294640700979e-05; 6.3934131297008e-03; 
  372.783927268847; -7186.54377460447; 573494.7521034; -2675693.29111439; 
  -3.34066283302614e-05; -2.45479214069597e-02; 47.8087847764996; 7.64664131818904e-06; 
  1.28350627676972e-03; 1.71219081377331e-02; -8.51007304583213; -1.36513461629781e-02; 
  -3.84460997596657e-06; 3.37423807911655e-03; -0.551624873066791; 0.72920227710747; 
  -9.92522757376041e-03; -0.119308831407288; 0.793929190615421; 0.454270731799386; 
  0.20999859125991; -6.42109823904738e-03; -0.023515586860454; 2.52233108341612e-03; 
  -7.64885133368119e-03; 1.36176427574291e-02; -1.33027883575669e-02]%dec.
(* pyXSteam/Regions.py:4651-4685 *)
Definition T3_ph_Ii_2 : list Z := [
  -12; -12; -10; -10; -10; -10; -10; -8; -8; -8; -8; -8; -6; -6; -6; -4; -4; -3; -2; -2; -1; 
  -1; -1; -1; -1; -1; 0; 0; 1; 3; 5; 6; 8]%Z.
(* pyXSteam/Regions.py:4686-4720 *)
Definition T3_ph_Ji_2 : list Z := [
  0; 1; 0; 1; 5; 10; 12; 0; 1; 2; 4; 10; 0; 1; 2; 0; 1; 5; 0; 4; 2; 4; 6; 10; 14; 16; 0; 2; 
  1; 1; 1; 1; 1]%Z.
(* pyXSteam/Regions.py:4721-4755 *)
Definition T3_ph_ni_2 : list dec := [
  3.2325457364492e-05; -1.27575556587181e-04; -4.75851877356068e-04; 1.56183014181602e-03; 
  0.105724860113781; -85.8514221132534; 724.140095480911; 2.96475810273257e-03; 
  -5.92721983365988e-03; -1.26305422818666e-02; -0.115716196364853; 84.9000969739595; 
  -1.08602260086615e-02; 1.54304475328851e-02; 7.50455441524466e-02; 2.52520973612982e-02; 
  -6.02507901232996e-02; -3.07622221350501; -5.74011959864879e-02; 5.03471360939849; 
  -0.925081888584834; 3.91733882917546; -77.314600713019; 9493.08762098587; 
  -1410437.19679409; 8491662.30819026; 0.861095729446704; 0.32334644281172; 
  0.873281936020439; -0.436653048526683; 0.286596714529479; -0.131778331276228; 
  6.76682064330275e-03]%dec.
(* pyXSteam/Regions.py:4525-4762, Region3.T3_ph *)
Definition T3_ph (p h : num) : res num :=
  let* q1 := powz p 2 in
  let* q2 := powz p 3 in
  let h3ab := (#2014.64004206875 + #3.74696550136983 * p - #2.19921901054187e-02 * q1 + #8.7513168600995e-05 * q2)%num in
  if (h <? h3ab)%num then
    let* ps := div p #100 in
    let* hs := div h #2300 in
    let Ts := (#0)%num in
    let* Ts := for_each (combine (slice 0 31 T3_ph_ni) (combine (slice 0 31 T3_ph_Ii) (slice 0 31 T3_ph_Ji))) Ts (fun Ts '(ni_i, (Ii_i, Ji_i)) =>
        let* q5 := powz (ps + #0.24) Ii_i in
        let* q6 := powz (hs - #0.615) Ji_i in
        let Ts := (Ts + (lit ni_i) * q5 * q6)%num in
        Ok Ts) in
    let T3_ph := (Ts * #760)%num in
    Ok T3_ph
  else
    let* hs := div h #2800 in
    let* ps := div p #100 in
    let Ts := (#0)%num in
    let* Ts := for_each (combine (slice 0 33 T3_ph_ni_2) (combine (slice 0 33 T3_ph_Ii_2) (slice 0 33 T3_ph_Ji_2))) Ts (fun Ts '(ni_i, (Ii_i, Ji_i)) =>
        let* q9 := powz (ps + #0.298) Ii_i in
        let* q10 := powz (hs - #0.72) Ji_i in
        let Ts := (Ts + (lit ni_i) * q9 * q10)%num in
        Ok Ts) in
    let T3_ph := (Ts * #860)%num in
    Ok T3_ph.

(* pyXSteam/Regions.py:4782-4815 *)
Definition v3_ph_Ii : list Z := [
  -12; -12; -12; -12; -10; -10; -10; -8; -8; -6; -6; -6; -4; -4; -3; -2; -2; -1; -1; -1; -1; 
  0; 0; 1; 1; 1; 2; 2; 3; 4; 5; 8]%Z.
(* pyXSteam/Regions.py:4816-4849 *)
Definition v3_ph_Ji : list Z := [
  6; 8; 12; 18; 4; 7; 10; 5; 12; 3; 4; 22; 2; 3; 7; 3; 16; 0; 1; 2; 3; 0; 1; 0; 1; 2; 0; 2; 
  0; 2; 2; 2]%Z.
(* pyXSteam/Regions.py:4850-4883 *)
Definition v3_ph_ni : list dec := [
  5.29944062966028e-03; -0.170099690234461; 11.1323814312927; -2178.98123145125; 
  -5.06061827980875e-04; 0.556495239685324; -9.43672726094016; -0.297856807561527; 
  93.9353943717186; 1.92944939465981e-02; 0.421740664704763; -3689141.2628233; 
  -7.37566847600639e-03; -0.354753242424366; -1.99768169338727; 1.15456297059049; 
  5683.6687581596; 8.08169540124668e-03; 0.172416341519307; 1.04270175292927; 
  -0.297691372792847; 0.560394465163593; 0.275234661176914; -0.148347894866012; 
  -6.51142513478515e-02; -2.92468715386302; 6.64876096952665e-02; 3.52335014263844; 
  -1.46340792313332e-02; -2.24503486668184; 1.10533464706142; -4.08757344495612e-02]%dec.
(* pyXSteam/Regions.py:4893-4924 *)
Definition v3_ph_Ii_2 : list Z := [
  -12; -12; -8; -8; -8; -8; -8; -8; -6; -6; -6; -6; -6; -6; -4; -4; -4; -3; -3; -2; -2; -1; 
  -1; -1; -1; 0; 1; 1; 2; 2]%Z.
(* pyXSteam/Regions.py:4925-4956 *)
Definition v3_ph_Ji_2 : list Z := [0; 1; 0; 1; 3; 6; 7; 8; 0; 1; 2; 5; 6; 10; 3; 6; 10; 0; 2; 1; 2; 0; 1; 4; 5; 0; 0; 1; 2; 6]%Z.
(* pyXSteam/Regions.py:4957-4988 *)
Definition v3_ph_ni_2 : list dec := [
  -2.25196934336318e-09; 1.40674363313486e-08; 2.3378408528056e-06; -3.31833715229001e-05; 
  1.07956778514318e-03; -0.271382067378863; 1.07202262490333; -0.853821329075382; 
  -2.15214194340526e-05; 7.6965608822273e-04; -4.31136580433864e-03; 0.453342167309331; 
  -0.507749535873652; -100.475154528389; -0.219201924648793; -3.21087965668917; 
  607.567815637771; 5.57686450685932e-04; 0.18749904002955; 9.05368030448107e-03; 
  0.285417173048685; 3.29924030996098e-02; 0.239897419685483; 4.82754995951394; 
  -11.8035753702231; 0.169490044091791; -1.79967222507787e-02; 3.71810116332674e-02; 
  -5.36288335065096e-02; 1.6069710109252]%dec.
(* pyXSteam/Regions.py:4765-4995, Region3.v3_ph *)
Definition v3_ph (p h : num) : res num :=
  let* q1 := powz p 2 in
  let* q2 := powz p 3 in
  let h3ab := (#2014.64004206875 + #3.74696550136983 * p - #2.19921901054187e-02 * q1 + #8.7513168600995e-05 * q2)%num in
  if (h <? h3ab)%num then
    let* ps := div p #100 in
    let* hs := div h #2100 in
    let vs := (#0)%num in
    let* vs := for_each (combine (slice 0 32 v3_ph_ni) (combine (slice 0 32 v3_ph_Ii) (slice 0 32 v3_ph_Ji))) vs (fun vs '(ni_i, (Ii_i, Ji_i)) =>
        let* q5 := powz (ps + #0.128) Ii_i in
        let* q6 := powz (hs - #0.727) Ji_i in
        let vs := (vs + (lit ni_i) * q5 * q6)%num in
        Ok vs) in
    let v3_ph := (vs * #0.0028)%num in
    Ok v3_ph
  else
    let* ps := div p #100 in
    let* hs := div h #2800 in
    let vs := (#0)%num in
    let* vs := for_each (combine (slice 0 30 v3_ph_ni_2) (combine (slice 0 30 v3_ph_Ii_2) (slice 0 30 v3_ph_Ji_2))) vs (fun vs '(ni_i, (Ii_i, Ji_i)) =>
        let* q9 := powz (ps + #0.0661) Ii_i in
        let* q10 := powz (hs - #0.72) Ji_i in
        let vs := (vs + (lit ni_i) * q9 * q10)%num in
        Ok vs) in
    let v3_ph := (vs * #0.0088)%num in
    Ok v3_ph.

(* pyXSteam/Regions.py:5010-5044 *)
Definition T3_ps_Ii : list Z := [
  -12; -12; -10; -10; -10; -10; -8; -8; -8; -8; -6; -6; -6; -5; -5; -5; -4; -4; -4; -2; -2; 
  -1; -1; 0; 0; 0; 1; 2; 2; 3; 8; 8; 10]%Z.
(* pyXSteam/Regions.py:5045-5079 *)
Definition T3_ps_Ji : list Z := [
  28; 32; 4; 10; 12; 14; 5; 7; 8; 28; 2; 6; 32; 0; 14; 32; 6; 10; 36; 1; 4; 1; 6; 0; 1; 4; 0; 
  0; 3; 2; 0; 1; 2]%Z.
(* pyXSteam/Regions.py:5080-5114 *)
Definition T3_ps_ni : list dec := [
  1500420082.63875; -159397258480.424; 5.02181140217975e-04; -67.2057767855466; 
  1450.58545404456; -8238.8953488889; -0.154852214233853; 11.2305046746695; 
  -29.7000213482822; 43856513263.5495; 1.37837838635464e-03; -2.97478527157462; 
  9717779473494.13; -5.71527767052398e-05; 28830.794977842; -74442828926270.3; 
  12.8017324848921; -368.275545889071; 6.64768904779177e15; 0.044935925195888; 
  -4.22897836099655; -0.240614376434179; -4.74341365254924; 0.72409399912611; 
  0.923874349695897; 3.99043655281015; 3.84066651868009e-02; -3.59344365571848e-03; 
  -0.735196448821653; 0.188367048396131; 1.41064266818704e-04; -2.57418501496337e-03; 
  1.23220024851555e-03]%dec.
(* pyXSteam/Regions.py:5124-5153 *)
Definition T3_ps_Ii_2 : list Z := [
  -12; -12; -12; -12; -8; -8; -8; -6; -6; -6; -5; -5; -5; -5; -5; -4; -3; -3; -2; 0; 2; 3; 4; 
  5; 6; 8; 12; 14]%Z.
(* pyXSteam/Regions.py:5154-5183 *)
Definition T3_ps_Ji_2 : list Z := [1; 3; 4; 7; 0; 1; 3; 0; 2; 4; 0; 1; 2; 4; 6; 12; 1; 6; 2; 0; 1; 1; 0; 24; 0; 3; 1; 2]%Z.
(* pyXSteam/Regions.py:5184-5213 *)
Definition T3_ps_ni_2 : list dec := [
  0.52711170160166; -40.1317830052742; 153.020073134484; -2247.99398218827; 
  -0.193993484669048; -1.40467557893768; 42.6799878114024; 0.752810643416743; 
  22.6657238616417; -622.873556909932; -0.660823667935396; 0.841267087271658; 
  -25.3717501764397; 485.708963532948; 880.531517490555; 2650155.92794626; 
  -0.359287150025783; -656.991567673753; 2.41768149185367; 0.856873461222588; 
  0.655143675313458; -0.213535213206406; 5.62974957606348e-03; -316955725450471; 
  -6.99997000152457e-04; 1.19845803210767e-02; 1.93848122022095e-05; -2.15095749182309e-05]%dec.
(* pyXSteam/Regions.py:4998-5220, Region3.T3_ps *)
Definition T3_ps (p s : num) : res num :=
  if (s <=? #4.41202148223476)%num then
    let* Sigma := div s #4.4 in
    let* Pi := div p #100 in
    let teta := (#0)%num in
    let* teta := for_each (combine (slice 0 33 T3_ps_ni) (combine (slice 0 33 T3_ps_Ii) (slice 0 33 T3_ps_Ji))) teta (fun teta '(ni_i, (Ii_i, Ji_i)) =>
        let* q3 := powz (Pi + #0.24) Ii_i in
        let* q4 := powz (Sigma - #0.703) Ji_i in
        let teta := (teta + (lit ni_i) * q3 * q4)%num in
        Ok teta) in
    let T3_ps := (teta * #760)%num in
    Ok T3_ps
  else
    let* Sigma := div s #5.3 in
    let* Pi := div p #100 in
    let teta := (#0)%num in
    let* teta := for_each (combine (slice 0 28 T3_ps_ni_2) (combine (slice 0 28 T3_ps_Ii_2) (slice 0 28 T3_ps_Ji_2))) teta (fun teta '(ni_i, (Ii_i, Ji_i)) =>
        let* q7 := powz (Pi + #0.76) Ii_i in
        let* q8 := powz (Sigma - #0.818) Ji_i in
        let teta := (teta + (lit ni_i) * q7 * q8)%num in
        Ok teta) in
    let T3_ps := (teta * #860)%num in
    Ok T3_ps.

(* pyXSteam/Regions.py:5235-5264 *)
Definition v3_ps_Ii : list Z := [
  -12; -12; -12; -10; -10; -10; -10; -8; -8; -8; -8; -6; -5; -4; -3; -3; -2; -2; -1; -1; 0; 
  0; 0; 1; 2; 4; 5; 6]%Z.
(* pyXSteam/Regions.py:5265-5294 *)
Definition v3_ps_Ji : list Z := [10; 12; 14; 4; 8; 10; 20; 5; 6; 14; 16; 28; 1; 5; 2; 4; 3; 8; 1; 2; 0; 1; 3; 0; 0; 2; 2; 0]%Z.
(* pyXSteam/Regions.py:5295-5324 *)
Definition v3_ps_ni : list dec := [
  79.5544074093975; -2382.6124298459; 17681.3100617787; -1.10524727080379e-03; 
  -15.3213833655326; 297.544599376982; -35031520.6871242; 0.277513761062119; 
  -0.523964271036888; -148011.182995403; 1600148.99374266; 1708023226634.27; 
  2.46866996006494e-04; 1.6532608479798; -0.118008384666987; 2.537986423559; 
  0.965127704669424; -28.2172420532826; 0.203224612353823; 1.10648186063513; 
  0.52612794845128; 0.277000018736321; 1.08153340501132; -7.44127885357893e-02; 
  1.64094443541384e-02; -6.80468275301065e-02; 0.025798857610164; -1.45749861944416e-04]%dec.
(* pyXSteam/Regions.py:5334-5366 *)
Definition v3_ps_Ii_2 : list Z := [
  -12; -12; -12; -12; -12; -12; -10; -10; -10; -10; -8; -5; -5; -5; -4; -4; -4; -4; -3; -2; 
  -2; -2; -2; -2; -2; 0; 0; 0; 1; 1; 2]%Z.
(* pyXSteam/Regions.py:5367-5399 *)
Definition v3_ps_Ji_2 : list Z := [0; 1; 2; 3; 5; 6; 0; 1; 2; 4; 0; 1; 2; 3; 0; 1; 2; 3; 1; 0; 1; 2; 3; 4; 12; 0; 1; 2; 0; 2; 2]%Z.
(* pyXSteam/Regions.py:5400-5432 *)
Definition v3_ps_ni_2 : list dec := [
  5.91599780322238e-05; -1.85465997137856e-03; 1.04190510480013e-02; 5.9864730203859e-03; 
  -0.771391189901699; 1.72549765557036; -4.67076079846526e-04; 1.34533823384439e-02; 
  -8.08094336805495e-02; 0.508139374365767; 1.28584643361683e-03; -1.63899353915435; 
  5.86938199318063; -2.92466667918613; -6.14076301499537e-03; 5.76199014049172; 
  -12.1613320606788; 1.67637540957944; -7.44135838773463; 3.78168091437659e-02; 
  4.01432203027688; 16.0279837479185; 3.17848779347728; -3.58362310304853; -1159952.60446827; 
  0.199256573577909; -0.122270624794624; -19.1449143716586; -1.50448002905284e-02; 
  14.6407900162154; -3.2747778718823]%dec.
(* pyXSteam/Regions.py:5223-5439, Region3.v3_ps *)
Definition v3_ps (p s : num) : res num :=
  if (s <=? #4.41202148223476)%num then
    let* Pi := div p #100 in
    let* Sigma := div s #4.4 in
    let omega := (#0)%num in
    let* omega := for_each (combine (slice 0 28 v3_ps_ni) (combine (slice 0 28 v3_ps_Ii) (slice 0 28 v3_ps_Ji))) omega (fun omega '(ni_i, (Ii_i, Ji_i)) =>
        let* q3 := powz (Pi + #0.187) Ii_i in
        let* q4 := powz (Sigma - #0.755) Ji_i in
        let omega := (omega + (lit ni_i) * q3 * q4)%num in
        Ok omega) in
    let v3_ps := (omega * #0.0028)%num in
    Ok v3_ps
  else
    let* Pi := div p #100 in
    let* Sigma := div s #5.3 in
    let omega := (#0)%num in
    let* omega := for_each (combine (slice 0 31 v3_ps_ni_2) (combine (slice 0 31 v3_ps_Ii_2) (slice 0 31 v3_ps_Ji_2))) omega (fun omega '(ni_i, (Ii_i, Ji_i)) =>
        let* q7 := powz (Pi + #0.298) Ii_i in
        let* q8 := powz (Sigma - #0.816) Ji_i in
        let omega := (omega + (lit ni_i) * q7 * q8)%num in
        Ok omega) in
    let v3_ps := (omega * #0.0088)%num in
    Ok v3_ps.

(* pyXSteam/Regions.py:5452-5486 *)
Definition p3_hs_Ii : list Z := [
  0; 0; 0; 1; 1; 1; 1; 1; 2; 2; 3; 3; 3; 4; 4; 4; 4; 5; 6; 7; 8; 10; 10; 14; 18; 20; 22; 22; 
  24; 28; 28; 32; 32]%Z.
(* pyXSteam/Regions.py:5487-5521 *)
Definition p3_hs_Ji : list Z := [
  0; 1; 5; 0; 3; 4; 8; 14; 6; 16; 0; 2; 3; 0; 1; 4; 5; 28; 28; 24; 1; 32; 36; 22; 28; 36; 16; 
  28; 36; 16; 36; 10; 28]%Z.
(* pyXSteam/Regions.py:5522-5556 *)
Definition p3_hs_ni : list dec := [
  7.70889828326934; -26.0835009128688; 267.416218930389; 17.2221089496844; -293.54233214597; 
  614.135601882478; -61056.2757725674; -65127225.1118219; 73591.9313521937; 
  -11664650591.4191; 35.5267086434461; -596.144543825955; -475.842430145708; 
  69.6781965359503; 335.674250377312; 25052.6809130882; 146997.380630766; 
  5.38069315091534e19; 1.43619827291346e21; 3.64985866165994e19; -2547.41561156775; 
  2.40120197096563e27; -3.93847464679496e29; 1.47073407024852e24; -4.26391250432059e31; 
  1.94509340621077e38; 6.66212132114896e23; 7.06777016552858e33; 1.75563621975576e41; 
  1.08408607429124e28; 7.30872705175151e43; 1.5914584739887e24; 3.77121605943324e40]%dec.
(* pyXSteam/Regions.py:5566-5602 *)
Definition p3_hs_Ii_2 : list Z := [
  -12; -12; -12; -12; -12; -10; -10; -10; -10; -8; -8; -6; -6; -6; -6; -5; -4; -4; -4; -3; 
  -3; -3; -3; -2; -2; -1; 0; 2; 2; 5; 6; 8; 10; 14; 14]%Z.
(* pyXSteam/Regions.py:5603-5639 *)
Definition p3_hs_Ji_2 : list Z := [
  2; 10; 12; 14; 20; 2; 10; 14; 18; 2; 8; 2; 6; 7; 8; 10; 4; 5; 8; 1; 3; 5; 6; 0; 1; 0; 3; 0; 
  1; 0; 1; 1; 1; 3; 7]%Z.
(* pyXSteam/Regions.py:5640-5676 *)
Definition p3_hs_ni_2 : list dec := [
  1.25244360717979e-13; -1.26599322553713e-02; 5.06878030140626; 31.7847171154202; 
  -391041.161399932; -9.75733406392044e-11; -18.6312419488279; 510.973543414101; 
  373847.005822362; 2.99804024666572e-08; 20.0544393820342; -4.98030487662829e-06; 
  -10.230180636003; 55.2819126990325; -206.211367510878; -7940.12232324823; 7.82248472028153; 
  -58.6544326902468; 3550.73647696481; -1.15303107290162e-04; -1.75092403171802; 
  257.98168774816; -727.048374179467; 1.21644822609198e-04; 3.93137871762692e-02; 
  7.04181005909296e-03; -82.910820069811; -0.26517881813125; 13.7531682453991; 
  -52.2394090753046; 2405.56298941048; -22736.1631268929; 89074.6343932567; 
  -23923456.5822486; 5687958081.29714]%dec.
(* pyXSteam/Regions.py:5442-5684, Region3.p3_hs *)
Definition p3_hs (h s : num) : res num :=
  if (s <? #4.41202148223476)%num then
    let* Sigma := div s #4.4 in
    let* eta := div h #2300 in
    let Pi := (#0)%num in
    let* Pi := for_each (combine (slice 0 33 p3_hs_ni) (combine (slice 0 33 p3_hs_Ii) (slice 0 33 p3_hs_Ji))) Pi (fun Pi '(ni_i, (Ii_i, Ji_i)) =>
        let* q3 := powz (eta - #1.01) Ii_i in
        let* q4 := powz (Sigma - #0.75) Ji_i in
        let Pi := (Pi + (lit ni_i) * q3 * q4)%num in
        Ok Pi) in
    let p3_hs := (Pi * #99)%num in
    Ok p3_hs
  else
    let* Sigma := div s #5.3 in
    let* eta := div h #2800 in
    let Pi := (#0)%num in
    let* Pi := for_each (combine (slice 0 35 p3_hs_ni_2) (combine (slice 0 35 p3_hs_Ii_2) (slice 0 35 p3_hs_Ji_2))) Pi (fun Pi '(ni_i, (Ii_i, Ji_i)) =>
        let* q7 := powz (eta - #0.681) Ii_i in
        let* q8 := powz (Sigma - #0.792) Ji_i in
        let Pi := (Pi + (lit ni_i) * q7 * q8)%num in
        Ok Pi) in
    div #16.6 Pi.

(* pyXSteam/Regions.py:5732-5760, Region3.T3_prho *)
Definition T3_prho (p rho : num) : res num :=
  let Low_Bound := (#623.15)%num in
  let High_Bound := (#1073.15)%num in
  let ps := (#(-1000))%num in
  let* (Ts, ps, High_Bound, Low_Bound) := while fuel
       (fun '(Ts, ps, High_Bound, Low_Bound) => Ok (((fabs (p - ps)) >? #0.00000001)%num))
       (fun '(Ts, ps, High_Bound, Low_Bound) =>
         let last_ps := ps in
         let* Ts := div (Low_Bound + High_Bound) #2 in
         let* ps := p3_rhoT rho Ts in
         if (last_ps =? ps)%num then
           Ok (Break (Some Ts, ps, High_Bound, Low_Bound))
         else
         if (ps >? p)%num then
           let High_Bound := Ts in
           Ok (Next (Some Ts, ps, High_Bound, Low_Bound))
         else
           let Low_Bound := Ts in
           Ok (Next (Some Ts, ps, High_Bound, Low_Bound)))
       (None, ps, High_Bound, Low_Bound) in
  local Ts.

End Model.
