{
 "claims": [
  {
   "property": "C01",
   "status": "proved",
   "theorems": [
    "C01_round_trip",
    "C01_order",
    "C01_nan",
    "C01_fraction"
   ],
   "note": ""
  },
  {
   "property": "C02",
   "status": "proved",
   "theorems": [
    "C02_default_exact",
    "C02_round_trip"
   ],
   "note": "relative error 2 u + u^2 proved, u = 2^-53, for 2^-1000 <= |x| <= 2^1000"
  },
  {
   "property": "C03",
   "status": "proved",
   "theorems": [
    "C03_factors",
    "C03_factors_MKS"
   ],
   "note": ""
  },
  {
   "property": "C04",
   "status": "proved",
   "theorems": [
    "C04_valid",
    "C04_invalid",
    "C04_construct"
   ],
   "note": ""
  },
  {
   "property": "C05",
   "status": "proved",
   "theorems": [
    "C05_history",
    "C05_fresh"
   ],
   "note": "any arithmetic"
  },
  {
   "property": "C06",
   "status": "proved",
   "theorems": [
    "C06_covariant",
    "C06_criticalDensity_refuted",
    "C06_hw_criticalDensity_refuted",
    "C06_hw_my_refuted",
    "C06_hw_tc_refuted",
    "C06_p_hrho"
   ],
   "note": "covariant for every function outside the stated list; refuted for the four functions named in the property"
  },
  {
   "property": "C07",
   "status": "proved",
   "theorems": [
    "C07_outside",
    "C07_outside_float"
   ],
   "note": "exact and binary64, any pow/log/exp"
  },
  {
   "property": "C08",
   "status": "proved",
   "theorems": [
    "C08_pt_nan",
    "C08_pt_nan_float",
    "C08_sat_nan_float",
    "C08_quality_refuted",
    "C08_quality_float_refuted"
   ],
   "note": "exact and binary64"
  },
  {
   "property": "C09",
   "status": "proved",
   "theorems": [
    "C09_quality",
    "C09_quality_float"
   ],
   "note": "exact and binary64"
  },
  {
   "property": "C10",
   "status": "proved",
   "theorems": [
    "C10_hL_t",
    "C10_hV_t",
    "C10_slivers",
    "C10_refuted",
    "C10_between",
    "C10_hL_p",
    "C10_hV_p",
    "C10_h_px",
    "C10_h_px_nan",
    "C10_h_tx",
    "C10_h_tx_nan"
   ],
   "note": "The property is false; C10_refuted, C10_slivers and the iff theorems locate every leak of the marker itself in hL_t, hV_t, h_px (0<=x<=1) and h_tx (0<=x<=1, T>=273.15 K) in exact arithmetic, for every unit system. C10_hL_p, C10_hV_p and C10_between show the complement: elsewhere values lie above -1 kJ/kg. The NaN theorems give the leak for a pressure or temperature that is not a number."
  },
  {
   "property": "C11",
   "status": "proved",
   "theorems": [
    "C11_regions"
   ],
   "note": "any arithmetic"
  },
  {
   "property": "C12",
   "status": "proved",
   "theorems": [
    "C12_region_map",
    "C12_total",
    "C12_nan"
   ],
   "note": "exact arithmetic"
  },
  {
   "property": "C13",
   "status": "proved",
   "theorems": [
    "C13_p_hrho"
   ],
   "note": ""
  },
  {
   "property": "C14",
   "status": "proved",
   "theorems": [
    "C14_hint",
    "C14_no_hint",
    "C14_unique_refuted",
    "C14_unknown_hint",
    "C14_sublimation"
   ],
   "note": "Ranges with hint, without hint, unknown hints and psubl_t for every temperature and unit system, including NaN. The uniqueness clause is proved false as coded: from 256.164 to 273.16 K a pressure of ice V is returned without hint although ice Ih is possible (C14_unique_refuted)."
  },
  {
   "property": "C15",
   "status": "proved",
   "theorems": [
    "C15_raises",
    "C15_slivers",
    "C15_refuted"
   ],
   "note": "The property is false; C15_raises covers every unit system, every enthalpy classified as wet and every entropy of the two slivers; C15_slivers shows that at each such entropy there is such a state."
  },
  {
   "property": "C16",
   "status": "proved",
   "theorems": [
    "C16_density1",
    "C16_density2",
    "C16_density_any"
   ],
   "note": "exact arithmetic, and as a division in any arithmetic"
  },
  {
   "property": "C17",
   "status": "proved",
   "theorems": [
    "C17_ends",
    "C17_hs",
    "C17_hs_refuted",
    "C17_fuel"
   ],
   "note": "C17_ends covers every API call except t_hs, p_hs, tc_hs; C17_hs covers those under the bound on p3sat_h; C17_hs_refuted shows that the bound is needed; C17_fuel says that more fuel does not change an answer."
  },
  {
   "property": "C18",
   "status": "proved",
   "theorems": [
    "C18_hL",
    "C18_hV",
    "C18_t_ph",
    "C18_t_ps",
    "C18_hL_binary64",
    "C18_hV_binary64",
    "C18_t_ph_binary64",
    "C18_t_ps_binary64"
   ],
   "note": "Exact arithmetic in every unit system (strictly inside the bracket) and binary64 with any C library."
  },
  {
   "property": "C19",
   "status": "proved",
   "theorems": [
    "C19_hL",
    "C19_hV",
    "C19_hL_any",
    "C19_hV_any",
    "C19_t_ph_any",
    "C19_t_ps_any",
    "C19_h_pt_any",
    "C19_t_ph_inverse",
    "C19_t_ps_inverse",
    "C19_first_guess_refuted"
   ],
   "note": "Any arithmetic: the equation is met, or the value repeats an earlier one or the first guess. Exact arithmetic: hL_p, hV_p converge on the whole dense range; t_ph and t_ps invert h_pt and s_pt in region 5 except when h-1 is the enthalpy at 1673.15 K, where t_ph is wrong (C19_first_guess_refuted)."
  },
  {
   "property": "C20",
   "status": "proved",
   "theorems": [
    "C20_energy"
   ],
   "note": ""
  },
  {
   "property": "C21",
   "status": "proved",
   "theorems": [
    "C21_helmholtz",
    "C21_helmholtz_answers",
    "C21_gibbs",
    "C21_answers"
   ],
   "note": "regions 1, 2, 5 inside the region; region 3 for all positive rho and T"
  },
  {
   "property": "C22",
   "status": "proved",
   "theorems": [
    "C22_cv",
    "C22_w",
    "C22_region3_cp",
    "C22_region3_w"
   ],
   "note": "regions 1, 2, 5 unconditional; region 3 wherever the code answers (the formula has a pole on the spinodal)"
  },
  {
   "property": "C23",
   "status": "proved",
   "theorems": [
    "C23_tsat_psat",
    "C23_psat_tsat",
    "C23_answers",
    "C23_published"
   ],
   "note": ""
  },
  {
   "property": "C24",
   "status": "proved",
   "theorems": [
    "C24_psat",
    "C24_tsat"
   ],
   "note": ""
  },
  {
   "property": "C25",
   "status": "proved",
   "theorems": [
    "C25_fixed_points"
   ],
   "note": ""
  },
  {
   "property": "C26",
   "status": "proved",
   "theorems": [
    "C26_inverse_T",
    "C26_inverse_p",
    "C26_rises"
   ],
   "note": "Both inverse directions to 1e-6 and strict growth, on the stated ranges, in exact arithmetic."
  },
  {
   "property": "C27",
   "status": "proved",
   "theorems": [
    "C27_x_ph",
    "C27_x_ps",
    "C27_h_px"
   ],
   "note": "Every pressure with 0.000611657 < p < 22.06395 MPa, every unit system, every h, s and x. From 16.529 MPa up hL_p and hV_p are bisections; `enough` asks for 32 rounds of loop fuel there (C17 shows the fuel is only a device of the model)."
  },
  {
   "property": "C28",
   "status": "proved",
   "theorems": [
    "C28_ph_low",
    "C28_ps_low",
    "C28_between",
    "C28_inverse_low",
    "C28_region4_ph",
    "C28_region4_ps",
    "C28_region4_inverse",
    "C28_inverse_refuted"
   ],
   "note": "Below 16.529 MPa (C28_*_low) region 4 is exactly the set hL < h < hV, and h_ps inverts s_ph for s >= 0. Up to 22.06395 MPa (C28_region4_*): every state that region_ph or region_ps puts in region 4, because there the region test uses p3sat_h / p3sat_s instead of the saturation lines. C28_inverse_refuted: with s < 0 region_ps answers 0 and h_ps is NaN."
  },
  {
   "property": "C29",
   "status": "proved",
   "theorems": [
    "C29_range",
    "C29_falls"
   ],
   "note": "Positive, strictly falling from 273.16 K, zero at 647.096 K, NaN above; answered from 0.01 K up as coded."
  },
  {
   "property": "C30",
   "status": "proved",
   "theorems": [
    "C30_ice_Ih",
    "C30_other_ices",
    "C30_ice_VII_refuted",
    "C30_sublimation",
    "C30_triple_point"
   ],
   "note": "All clauses, in every unit system; ice VII rises up to 715 K (the limit in IAPWS R14). The code answers up to 751 K where the formula falls again: C30_ice_VII_refuted."
  },
  {
   "property": "C31",
   "status": "proved",
   "theorems": [
    "C31_vapour_above"
   ],
   "note": "Every 0.000611657 < p < 22.06395 MPa and every unit system."
  },
  {
   "property": "C32",
   "status": "proved",
   "theorems": [
    "C32_wet_ph",
    "C32_wet_ps",
    "C32_wet_any"
   ],
   "note": "exact and any arithmetic"
  },
  {
   "property": "C33",
   "status": "proved",
   "theorems": [
    "C33_region_5",
    "C33_refuted"
   ],
   "note": "refuted as the property says, with witness 30 MPa, 1500 K"
  },
  {
   "property": "C34",
   "status": "proved",
   "theorems": [
    "C34_region2_volume",
    "C34_refuted",
    "C34_above_2073"
   ],
   "note": "The property is false; C34_region2_volume (any arithmetic, hence binary64 too) shows the temperature used meets the region 2 volume equation, C34_refuted gives a state where the enthalpy is off by more than 1 kJ/kg, C34_above_2073 shows that states from 2073.15 K to 2273.15 K up to 10 MPa are not classified as region 5 by density."
  },
  {
   "property": "C35",
   "status": "proved",
   "theorems": [
    "C35_stable"
   ],
   "note": ""
  },
  {
   "property": "C36",
   "status": "proved",
   "theorems": [
    "C36_my_pt",
    "C36_my_pt_positive",
    "C36_my_ph",
    "C36_my_ph_positive"
   ],
   "note": "my_pt and my_ph: exactly where they answer, and the value is the viscosity formula at the density and temperature the interface reports; both positive wherever they answer."
  },
  {
   "property": "C37",
   "status": "proved",
   "theorems": [
    "C37_pr_pt",
    "C37_pr_ph",
    "C37_pr_pt_units",
    "C37_pr_ph_units"
   ],
   "note": "Prandtl number is Cp*1000*my/tc in SI units, from the values the public functions report, and does not depend on the unit system."
  },
  {
   "property": "C38",
   "status": "proved",
   "theorems": [
    "C38_on_line",
    "C38_outside",
    "C38_tsat_p",
    "C38_sat_s",
    "C38_tsat_p_everywhere_refuted"
   ],
   "note": "C38_on_line: for every entropy in range both functions answer and the pair solves the published saturation equation (IF97 eq. 29). C38_outside: NaN outside. C38_tsat_p: agreement with tsat_p on 0.001..4.411 and 4.426..9.155 kJ/(kg K). C38_tsat_p_everywhere_refuted: near both triple-point ends and the critical point psat_s leaves the range of tsat_p, which then answers NaN (s = 0.0009)."
  },
  {
   "property": "C39",
   "status": "proved",
   "theorems": [
    "C39_vx_ph",
    "C39_vx_ps"
   ],
   "note": "Every 0.000611657 < p < 22.06395 MPa, every h or s, every unit system; denominator positive."
  },
  {
   "property": "C40",
   "status": "proved",
   "theorems": [
    "C40_viscosity",
    "C40_viscosity_outside",
    "C40_viscosity_nan",
    "C40_viscosity_positive",
    "C40_conductivity",
    "C40_conductivity_outside",
    "C40_conductivity_nan",
    "C40_default"
   ],
   "note": ""
  },
  {
   "property": "C41",
   "status": "proved",
   "theorems": [
    "C41_constants",
    "C41_triple_point",
    "C41_critical_point"
   ],
   "note": ""
  },
  {
   "property": "C42",
   "status": "proved",
   "theorems": [
    "C42_by_pressure"
   ],
   "note": ""
  },
  {
   "property": "C43",
   "status": "proved",
   "theorems": [
    "C43_temperature",
    "C43_pressure"
   ],
   "note": ""
  },
  {
   "property": "C44",
   "status": "proved",
   "theorems": [
    "C44_map_ph",
    "C44_map_ps",
    "C44_agree_ph",
    "C44_agree_ps",
    "C44_region5_refuted"
   ],
   "note": "Exact map of region_ph and region_ps for every 0.000611657 < p < 16.529 and agreement with region_pT in regions 1 and 2. The region 5 seam misclassification is proved as _refuted. Pressures from 16.529 MPa up are not covered."
  },
  {
   "property": "C45",
   "status": "proved",
   "theorems": [
    "C45_tc_pt",
    "C45_tc_ph",
    "C45_tc_pt_positive",
    "C45_tc_ph_positive"
   ],
   "note": "Exact characterisation of tc_pt and tc_ph; both positive wherever they answer."
  },
  {
   "property": "C46",
   "status": "proved",
   "theorems": [
    "C46_ph",
    "C46_ps",
    "C46_hs",
    "C46_ph_any",
    "C46_ps_any",
    "C46_hs_any",
    "C46_region3_ph",
    "C46_region3_ps",
    "C46_region3_pt",
    "C46_region3_v",
    "C46_wet_nan"
   ],
   "note": "C46_ph/C46_ps/C46_hs: exact arithmetic, every unit system. C46_*_any: bare units in any arithmetic, binary64 included. C46_region3_*: region 3 functions are the region 3 equation at the reported density and temperature. C46_wet_nan: heat capacities and speed of sound are NaN in regions 4 and 0."
  },
  {
   "property": "C47",
   "status": "proved",
   "theorems": [
    "C47_t_ph",
    "C47_t_ps",
    "C47_round_ph",
    "C47_round_ps",
    "C47_round_hs"
   ],
   "note": "C47_t_ph and C47_t_ps start from (p,h) and (p,s) and need only the region the code itself selects; C47_round_* go there and back. Proved by enclosing the composition of the equations over the whole region (BoundR1.v). The two slivers 16.529 <= p < 16.5292 MPa and T = 623.15 K above 16.5292 MPa are left out of C47_round_ph because region_ph itself calls them region 3 or differs there; C47_t_ph has no such exception."
  },
  {
   "property": "C48",
   "status": "proved",
   "theorems": [
    "C48_answers",
    "C48_bounds"
   ],
   "note": "Enclosures of the backward equations of regions 2 and 3 over their whole (p,h) range, C47 for region 1, T4_p up to the critical pressure, the bisection bracket for region 5."
  },
  {
   "property": "C49",
   "status": "proved",
   "theorems": [
    "C49_gibbs"
   ],
   "note": "Ties the region 1, 2, 3 and 4 equations to each other: the saturation pressure equation is where the region 1 and region 2 Gibbs energies meet."
  },
  {
   "property": "C50",
   "status": "proved",
   "theorems": [
    "C50_fundamental"
   ],
   "note": ""
  },
  {
   "property": "C51",
   "status": "proved",
   "theorems": [
    "C51_regions_1_3",
    "C51_regions_2_3",
    "C51_regions_2_5"
   ],
   "note": "Border between regions 1 and 2 is C49."
  },
  {
   "property": "C52",
   "status": "proved",
   "theorems": [
    "C52_t_ph",
    "C52_round_ph"
   ],
   "note": "Exact arithmetic. The three sub-equations are compared with the forward equation on a covering of the region by interval Taylor models of degree 5, checked by computation inside Coq. IAPWS quotes 10 to 25 mK; the bound proved is 50 mK. Near the B23 line (p >= 16.529 MPa) region_pT = 2 does not imply region_ph = 2, hence the extra hypothesis of C52_round_ph."
  },
  {
   "property": "C53",
   "status": "proved",
   "theorems": [
    "C53_solves"
   ],
   "note": "Exact arithmetic. The residuals are enclosed on a covering of the region by interval Taylor models of degree 5, checked by computation inside Coq. The largest residuals found numerically are 0.027 MPa and 0.127 kJ/kg."
  },
  {
   "property": "C54",
   "status": "proved",
   "theorems": [
    "C54_refuted",
    "C54_raises",
    "C54_where"
   ],
   "note": "Counterexample (C54_refuted), the full failing band (C54_raises) and a description of the states in it (C54_where). Exact arithmetic."
  },
  {
   "property": "C55",
   "status": "proved",
   "theorems": [
    "C55_region",
    "C55_p_hs",
    "C55_t_hs",
    "C55_border_13",
    "C55_border_23"
   ],
   "note": "Exact real arithmetic. The saturated liquid of the same entropy, the 100 MPa isobar and the 623.15 K isotherm are compared with the state through the convexity of the Gibbs energy (ProofHs3), the fitted curves by Taylor enclosures along each curve (BoundHs). States with negative entropy are left out because region_hs rejects s < -0.0001545."
  },
  {
   "property": "C56",
   "status": "proved",
   "theorems": [
    "C56_expands",
    "C56_entropy",
    "C56_cold_refuted"
   ],
   "note": "Exact real arithmetic. The sign of the temperature derivative of the volume is settled by enclosure over each region (BoundE, BoundE2); the entropy statement follows from the Maxwell relation ds/dp = -dv/dT proved in ProofThermo. C56_cold_refuted shows that the 277.5 K hypothesis cannot be dropped."
  },
  {
   "property": "C57",
   "status": "proved",
   "theorems": [
    "C57_t_ps",
    "C57_round_ps"
   ],
   "note": "Exact arithmetic. The three sub-equations are compared with the forward equation on a covering of the region by interval Taylor models of degree 5 to 8, with the quarter powers of the pressure as a series of their own, checked by computation inside Coq. IAPWS quotes 10 to 25 mK; the bound proved is 50 mK."
  }
 ]
}