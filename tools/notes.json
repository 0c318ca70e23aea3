{
 "C01": {
  "status": "proved",
  "note": ""
 },
 "C02": {
  "status": "proved",
  "note": "relative error 2 u + u^2 proved, u = 2^-53, for 2^-1000 <= |x| <= 2^1000"
 },
 "C03": {
  "status": "proved",
  "note": ""
 },
 "C04": {
  "status": "proved",
  "note": ""
 },
 "C05": {
  "status": "proved",
  "note": "any arithmetic"
 },
 "C06": {
  "status": "proved",
  "note": "covariant for every function outside the stated list; refuted for the four functions named in the property"
 },
 "C07": {
  "status": "proved",
  "note": "exact and binary64, any pow/log/exp"
 },
 "C08": {
  "status": "proved",
  "note": "exact and binary64"
 },
 "C09": {
  "status": "proved",
  "note": "exact and binary64"
 },
 "C16": {
  "status": "proved",
  "note": "exact arithmetic, and as a division in any arithmetic"
 },
 "C11": {
  "status": "proved",
  "note": "any arithmetic"
 },
 "C12": {
  "status": "proved",
  "note": "exact arithmetic"
 },
 "C13": {
  "status": "proved",
  "note": ""
 },
 "C32": {
  "status": "proved",
  "note": "exact and any arithmetic"
 },
 "C33": {
  "status": "proved",
  "note": "refuted as the property says, with witness 30 MPa, 1500 K"
 },
 "C20": {
  "status": "proved",
  "note": ""
 },
 "C21": {
  "status": "proved",
  "note": "regions 1, 2, 5 inside the region; region 3 for all positive rho and T"
 },
 "C22": {
  "status": "proved",
  "note": "regions 1, 2, 5 unconditional; region 3 wherever the code answers (the formula has a pole on the spinodal)"
 },
 "C23": {
  "status": "proved",
  "note": ""
 },
 "C24": {
  "status": "proved",
  "note": ""
 },
 "C25": {
  "status": "proved",
  "note": ""
 },
 "C38": {
  "status": "proved",
  "note": "C38_on_line: for every entropy in range both functions answer and the pair solves the published saturation equation (IF97 eq. 29). C38_outside: NaN outside. C38_tsat_p: agreement with tsat_p on 0.001..4.411 and 4.426..9.155 kJ/(kg K). C38_tsat_p_everywhere_refuted: near both triple-point ends and the critical point psat_s leaves the range of tsat_p, which then answers NaN (s = 0.0009)."
 },
 "C41": {
  "status": "proved",
  "note": ""
 },
 "C42": {
  "status": "proved",
  "note": ""
 },
 "C40": {
  "status": "proved",
  "note": ""
 },
 "C35": {
  "status": "proved",
  "note": ""
 },
 "C43": {
  "status": "proved",
  "note": ""
 },
 "C44": {
  "status": "proved",
  "note": "Exact map of region_ph and region_ps for every 0.000611657 < p < 16.529 and agreement with region_pT in regions 1 and 2. The region 5 seam misclassification is proved as _refuted. Pressures from 16.529 MPa up are not covered."
 },
 "C27": {
  "status": "proved",
  "note": "Every pressure with 0.000611657 < p < 22.06395 MPa, every unit system, every h, s and x. From 16.529 MPa up hL_p and hV_p are bisections; `enough` asks for 32 rounds of loop fuel there (C17 shows the fuel is only a device of the model)."
 },
 "C28": {
  "status": "proved",
  "note": "Below 16.529 MPa (C28_*_low) region 4 is exactly the set hL < h < hV, and h_ps inverts s_ph for s >= 0. Up to 22.06395 MPa (C28_region4_*): every state that region_ph or region_ps puts in region 4, because there the region test uses p3sat_h / p3sat_s instead of the saturation lines. C28_inverse_refuted: with s < 0 region_ps answers 0 and h_ps is NaN."
 },
 "C31": {
  "status": "proved",
  "note": "Every 0.000611657 < p < 22.06395 MPa and every unit system."
 },
 "C39": {
  "status": "proved",
  "note": "Every 0.000611657 < p < 22.06395 MPa, every h or s, every unit system; denominator positive."
 },
 "C14": {
  "status": "proved",
  "note": "Ranges with hint, without hint, unknown hints and psubl_t for every temperature and unit system, including NaN. The uniqueness clause is proved false as coded: from 256.164 to 273.16 K a pressure of ice V is returned without hint although ice Ih is possible (C14_unique_refuted)."
 },
 "C26": {
  "status": "proved",
  "note": "Both inverse directions to 1e-6 and strict growth, on the stated ranges, in exact arithmetic."
 },
 "C29": {
  "status": "proved",
  "note": "Positive, strictly falling from 273.16 K, zero at 647.096 K, NaN above; answered from 0.01 K up as coded."
 },
 "C30": {
  "status": "proved",
  "note": "All clauses, in every unit system; ice VII rises up to 715 K (the limit in IAPWS R14). The code answers up to 751 K where the formula falls again: C30_ice_VII_refuted."
 },
 "C36": {
  "status": "proved",
  "note": "my_pt and my_ph: exactly where they answer, and the value is the viscosity formula at the density and temperature the interface reports; both positive wherever they answer."
 },
 "C37": {
  "status": "proved",
  "note": "Prandtl number is Cp*1000*my/tc in SI units, from the values the public functions report, and does not depend on the unit system."
 },
 "C45": {
  "status": "proved",
  "note": "Exact characterisation of tc_pt and tc_ph; both positive wherever they answer."
 },
 "C17": {
  "status": "proved",
  "note": "C17_ends covers every API call except t_hs, p_hs, tc_hs; C17_hs covers those under the bound on p3sat_h; C17_hs_refuted shows that the bound is needed; C17_fuel says that more fuel does not change an answer."
 },
 "C18": {
  "status": "proved",
  "note": "Exact arithmetic in every unit system (strictly inside the bracket) and binary64 with any C library."
 },
 "C19": {
  "status": "proved",
  "note": "Any arithmetic: the equation is met, or the value repeats an earlier one or the first guess. Exact arithmetic: hL_p, hV_p converge on the whole dense range; t_ph and t_ps invert h_pt and s_pt in region 5 except when h-1 is the enthalpy at 1673.15 K, where t_ph is wrong (C19_first_guess_refuted)."
 },
 "C10": {
  "status": "proved",
  "note": "The property is false; C10_refuted, C10_slivers and the iff theorems locate every leak of the marker itself in hL_t, hV_t, h_px (0<=x<=1) and h_tx (0<=x<=1, T>=273.15 K) in exact arithmetic, for every unit system. C10_hL_p, C10_hV_p and C10_between show the complement: elsewhere values lie above -1 kJ/kg. The NaN theorems give the leak for a pressure or temperature that is not a number."
 },
 "C15": {
  "status": "proved",
  "note": "The property is false; C15_raises covers every unit system, every enthalpy classified as wet and every entropy of the two slivers; C15_slivers shows that at each such entropy there is such a state."
 },
 "C34": {
  "status": "proved",
  "note": "The property is false; C34_region2_volume (any arithmetic, hence binary64 too) shows the temperature used meets the region 2 volume equation, C34_refuted gives a state where the enthalpy is off by more than 1 kJ/kg, C34_above_2073 shows that states from 2073.15 K to 2273.15 K up to 10 MPa are not classified as region 5 by density."
 },
 "C46": {
  "status": "proved",
  "note": "C46_ph/C46_ps/C46_hs: exact arithmetic, every unit system. C46_*_any: bare units in any arithmetic, binary64 included. C46_region3_*: region 3 functions are the region 3 equation at the reported density and temperature. C46_wet_nan: heat capacities and speed of sound are NaN in regions 4 and 0."
 },
 "C47": {
  "status": "proved",
  "note": "C47_t_ph and C47_t_ps start from (p,h) and (p,s) and need only the region the code itself selects; C47_round_* go there and back. Proved by enclosing the composition of the equations over the whole region (BoundR1.v). The two slivers 16.529 <= p < 16.5292 MPa and T = 623.15 K above 16.5292 MPa are left out of C47_round_ph because region_ph itself calls them region 3 or differs there; C47_t_ph has no such exception."
 },
 "C48": {
  "status": "proved",
  "note": "Enclosures of the backward equations of regions 2 and 3 over their whole (p,h) range, C47 for region 1, T4_p up to the critical pressure, the bisection bracket for region 5."
 },
 "C49": {
  "status": "proved",
  "note": "Ties the region 1, 2, 3 and 4 equations to each other: the saturation pressure equation is where the region 1 and region 2 Gibbs energies meet."
 },
 "C50": {
  "status": "proved",
  "note": ""
 },
 "C51": {
  "status": "proved",
  "note": "Border between regions 1 and 2 is C49."
 },
 "C52": {
  "status": "proved",
  "note": "Exact arithmetic. The three sub-equations are compared with the forward equation on a covering of the region by interval Taylor models of degree 5, checked by computation inside Coq. IAPWS quotes 10 to 25 mK; the bound proved is 50 mK. Near the B23 line (p >= 16.529 MPa) region_pT = 2 does not imply region_ph = 2, hence the extra hypothesis of C52_round_ph."
 },
 "C53": {
  "status": "proved",
  "note": "Exact arithmetic. The residuals are enclosed on a covering of the region by interval Taylor models of degree 5, checked by computation inside Coq. The largest residuals found numerically are 0.027 MPa and 0.127 kJ/kg."
 },
 "C54": {
  "status": "proved",
  "note": "Counterexample (C54_refuted), the full failing band (C54_raises) and a description of the states in it (C54_where). Exact arithmetic."
 },
 "C55": {
  "status": "proved",
  "note": "Exact real arithmetic. The saturated liquid of the same entropy, the 100 MPa isobar and the 623.15 K isotherm are compared with the state through the convexity of the Gibbs energy (ProofHs3), the fitted curves by Taylor enclosures along each curve (BoundHs). States with negative entropy are left out because region_hs rejects s < -0.0001545."
 },
 "C56": {
  "status": "proved",
  "note": "Exact real arithmetic. The sign of the temperature derivative of the volume is settled by enclosure over each region (BoundE, BoundE2); the entropy statement follows from the Maxwell relation ds/dp = -dv/dT proved in ProofThermo. C56_cold_refuted shows that the 277.5 K hypothesis cannot be dropped."
 },
 "C57": {
  "status": "proved",
  "note": "Exact arithmetic. The three sub-equations are compared with the forward equation on a covering of the region by interval Taylor models of degree 5 to 8, with the quarter powers of the pressure as a series of their own, checked by computation inside Coq. IAPWS quotes 10 to 25 mK; the bound proved is 50 mK."
 }
}