{"id": "C01", "title": "Unit conversion is a bijection", "statement": "For every quantity (p, T, h, v, s, u, Cp, Cv, w, tc, st, my) and every unit system, converting to SI and back, or from SI and back, gives the value that was put in (in exact arithmetic), raises nothing, and preserves order. x and vx are returned unchanged when they lie in [0,1] and raise ValueError otherwise, NaN included.", "quantifier": "all real values, all 12 quantity pairs, all 3 unit systems; x, vx: all values", "why_tests_cant": "a test samples a few values per pair; a factor that is multiplied in one direction and multiplied again in the other survives any test of a single direction", "anchors": ["pyXSteam/UnitConverter.py:toSIunit_*", "pyXSteam/UnitConverter.py:fromSIunit_*"]}
{"id": "C02", "title": "Unit conversion round trips in binary64", "statement": "In IEEE binary64, with the default unit system the converters return their argument unchanged (NaN and infinities included), and in the other unit systems a round trip of a multiplicative quantity is off by a relative error of at most 4 units of roundoff (2^-53) as long as no intermediate value overflows or is subnormal.", "quantifier": "all binary64 values, all multiplicative quantities, all unit systems", "why_tests_cant": "2^64 inputs per converter; the error bound is a statement about every one of them", "anchors": ["pyXSteam/UnitConverter.py:toSIunit_*", "pyXSteam/UnitConverter.py:fromSIunit_*"]}
{"id": "C03", "title": "Conversion factors agree with the SI definitions", "statement": "Each conversion factor of the ft/lb/s system agrees with the factor that follows from the definitions of inch, pound, standard gravity, BTU (IT) and degree Fahrenheit to a stated relative accuracy (2e-9 for p, v, s; exact for h, u, w; 2e-6 for Cp, Cv, tc, st, my).", "quantifier": "all 12 quantities, all values", "why_tests_cant": "the tests compare with tables produced by the same factors; they never derive a factor from the unit definitions", "anchors": ["pyXSteam/UnitConverter.py:toSIunit_*", "pyXSteam/Constants.py"]}
{"id": "C04", "title": "Unit system selection", "statement": "The constructor and set_unitSystem accept exactly the ints 0, 1 and 2; anything else (other ints, None, True, 1.0, strings) raises ValueError, and a failed set_unitSystem leaves the object in its previous unit system. Constructing without an argument selects the K/MPa system.", "quantifier": "all Python objects, all previous states", "why_tests_cant": "the argument type is unbounded; tests try one or two bad values", "anchors": ["pyXSteam/UnitConverter.py:UnitConverter.__init__", "pyXSteam/UnitConverter.py:set_unitSystem", "pyXSteam/XSteam.py:XSteam.__init__"]}
{"id": "C05", "title": "Results do not depend on history", "statement": "After any sequence of property calls and (successful or failing) unit system changes, every property function answers what a fresh object in the last successfully selected unit system answers.", "quantifier": "all finite sequences of API calls, all functions, all arguments", "why_tests_cant": "call sequences are unbounded", "anchors": ["pyXSteam/XSteam.py:XSteam", "pyXSteam/UnitConverter.py:UnitConverter"]}
{"id": "C06", "title": "Unit covariance of the API", "statement": "A property function gives the same physical answer in every unit system: calling it in unit system u on converted arguments is the converted answer of the K/MPa system, exceptions included. Violated by criticalDensity, XSteam_HW.criticalDensity, XSteam_HW.my_rhoT and XSteam_HW.tc_rhoT, which convert with the wrong quantity and give different physical answers. p_hrho converts wrongly too, but since it answers 10 MPa always (C13), its answers agree whenever both calls answer.", "quantifier": "every public function of XSteam, all arguments (exact arithmetic), all unit systems", "why_tests_cant": "tests run each function in one unit system only (all of them MKS, plus a few FLS points)", "anchors": ["pyXSteam/XSteam.py:XSteam", "pyXSteam/XSteam_HW.py:XSteam_HW", "pyXSteam/UnitConverter.py"]}
{"id": "C07", "title": "Saturation functions: NaN outside the range", "statement": "hV_p, hL_p, vV_p, vL_p, sV_p, sL_p, uV_p, uL_p, CpV_p, CpL_p, CvV_p, CvL_p, wV_p, wL_p, tsat_p return NaN and raise nothing for every pressure that is not strictly between 0.000611657 and 22.06395 MPa, and the _t versions for every temperature not strictly between 273.15 and 647.096 K (psat_t: 273.1), NaN and infinities included.", "quantifier": "all binary64 inputs including NaN and infinities, whatever pow/log/exp the platform provides", "why_tests_cant": "the outside of the range is infinite and includes NaN; tests probe no more than one point per function", "anchors": ["pyXSteam/XSteam.py:hV_p", "pyXSteam/XSteam.py:tsat_p", "pyXSteam/XSteam.py:psat_t"]}
{"id": "C08", "title": "NaN in, NaN out", "statement": "A NaN pressure or temperature makes h_pt, v_pt, rho_pt, s_pt, u_pt, Cp_pt, Cv_pt, w_pt, my_pt and the saturation functions return NaN without raising. It does not hold for quality: x_ph, x_ps, vx_ph, vx_ps of a NaN enthalpy or entropy raise an exception at every pressure in range.", "quantifier": "all other arguments, all unit systems, binary64", "why_tests_cant": "NaN combines with every value of the other argument", "anchors": ["pyXSteam/XSteam.py", "pyXSteam/RegionSelection.py:region_pT", "pyXSteam/UnitConverter.py:fromSIunit_x"]}
{"id": "C09", "title": "Quality outside [0,1]", "statement": "h_px and h_tx are documented to return NaN for a quality outside [0,1]; they raise ValueError for every such quality (and for NaN), whatever the other argument; the NaN branch for x is unreachable.", "quantifier": "all p or t, all x outside [0,1], all unit systems", "why_tests_cant": "for all inputs; the tests only use x = 0.5", "anchors": ["pyXSteam/XSteam.py:h_px", "pyXSteam/XSteam.py:h_tx", "pyXSteam/UnitConverter.py:toSIunit_x"]}
{"id": "C10", "title": "The internal out-of-range marker -99999 never reaches the user", "statement": "No property function returns a value computed from the internal marker -99999 for out-of-range input. Violated: hL_t, hV_t return the marker itself for temperatures just above 273.15 K and just below 647.096 K, h_px and h_tx for pressures below 0.000611657 and from 22.06395 to 22.064 MPa.", "quantifier": "all inputs of hL_t, hV_t, h_px, h_tx; exact location of the leaks", "why_tests_cant": "the leaks sit in slivers of 0.01 K or 0.00005 MPa between two range checks that disagree", "anchors": ["pyXSteam/XSteam.py:hL_t", "pyXSteam/XSteam.py:hV_t", "pyXSteam/XSteam.py:h_px", "pyXSteam/XSteam.py:h_tx", "pyXSteam/Regions.py:Region4.h4L_p"]}
{"id": "C11", "title": "Region numbers", "statement": "Every region selection function returns 0, 1, 2, 3, 4 or 5 whenever it returns at all; region_hs never returns 5, so t_hs and p_hs never use region 5.", "quantifier": "all inputs, any arithmetic", "why_tests_cant": "all inputs", "anchors": ["pyXSteam/RegionSelection.py:region_pT", "pyXSteam/RegionSelection.py:region_ph", "pyXSteam/RegionSelection.py:region_ps", "pyXSteam/RegionSelection.py:region_hs", "pyXSteam/RegionSelection.py:region_prho"]}
{"id": "C12", "title": "Region selection in (p,T) is the IF97 map", "statement": "region_pT agrees with the IF97 region map: for 273.15 < T <= 1073.15 K and 0.000611 < p <= 100 MPa it returns 1, 2, 3 or 4 according to the saturation line and the region 2/3 boundary, 4 exactly within 1e-5 MPa of the saturation line (below 647.096 K, where the 2/3 boundary does not come first), 5 exactly for 1073.15 < T < 2273.15 K and p < 50 MPa, and 0 elsewhere. It never raises.", "quantifier": "all real p and T", "why_tests_cant": "the map is two dimensional with curved boundaries", "anchors": ["pyXSteam/RegionSelection.py:region_pT", "pyXSteam/Regions.py:Region4.p4_T", "pyXSteam/RegionBorders.py:B23p_T"]}
{"id": "C13", "title": "p_hrho ignores its arguments", "statement": "p_hrho is meant to return the pressure with density rho at enthalpy h. It returns 10 MPa (in user units) for every h and rho for which it returns at all: its iteration compares the density with itself and stops in the first round.", "quantifier": "all h, rho, unit systems, any arithmetic", "why_tests_cant": "there is no test; a test at 10 MPa would even pass", "anchors": ["pyXSteam/XSteam.py:p_hrho"]}
{"id": "C14", "title": "Melting and sublimation pressure: ranges and hint", "statement": "pmelt_t returns a pressure exactly on the temperature range of the ice selected by the hint (or, without hint, on the ranges where the ice is unique) and NaN elsewhere; an unknown hint raises ValueError for every temperature; psubl_t returns a pressure exactly for 50 <= T < 273.16 K (as coded) and NaN elsewhere.", "quantifier": "all temperatures, all hint objects, all unit systems", "why_tests_cant": "unbounded hints, and half-open intervals whose end points have measure zero", "anchors": ["pyXSteam/XSteam.py:pmelt_t", "pyXSteam/XSteam.py:psubl_t", "pyXSteam/IAPWS_R14.py"]}
{"id": "C15", "title": "t_hs and p_hs in the wet steam region", "statement": "t_hs and p_hs return a value for wet steam states. Violated: for entropies in (5.210887663, 5.210887825] and for entropies from 9.15546555571324 up to 9.155759395 every wet state raises UnboundLocalError.", "quantifier": "all enthalpies classified as wet steam, all entropies of the two slivers", "why_tests_cant": "the first sliver is 1.6e-7 kJ/kg/K wide; no sampled test meets it", "anchors": ["pyXSteam/XSteam.py:t_hs", "pyXSteam/XSteam.py:p_hs", "pyXSteam/Regions.py:Region4.T4_hs", "pyXSteam/RegionSelection.py:region_hs"]}
{"id": "C16", "title": "Density is the reciprocal of specific volume", "statement": "rhoV_p, rhoL_p, rhoV_t, rhoL_t, rho_pt, rho_ph, rho_ps return 1/v of the corresponding volume function: NaN exactly when v is NaN, the same exception when v raises, and rho*v = 1 otherwise.", "quantifier": "all inputs, all unit systems", "why_tests_cant": "all inputs", "anchors": ["pyXSteam/XSteam.py:rhoV_p", "pyXSteam/XSteam.py:rho_pt"]}
{"id": "C17", "title": "Every iteration ends", "statement": "The bisection loops behind hL_p/hV_p (dense region), h_pt/v_pt/... in region 3, t_ph/t_ps in region 5 and h_prho always stop: in binary64 no input makes them run forever, whatever pow/log/exp the platform provides, and they stop within a bounded number of rounds. The search behind t_hs, p_hs and tc_hs stops as well as long as p3sat_h(h) is at most 2^28 in size or not a number; for an arbitrary pow and log of the platform this condition cannot be dropped, since then the search can run forever.", "quantifier": "all binary64 inputs incl. NaN and infinities, all pow/log/exp", "why_tests_cant": "termination for every input cannot be sampled", "anchors": ["pyXSteam/Regions.py:Region4.h4L_p", "pyXSteam/Regions.py:Region4.h4V_p", "pyXSteam/Regions.py:Region3.h3_pT", "pyXSteam/Regions.py:Region3.T3_prho", "pyXSteam/Regions.py:Region1.T1_prho", "pyXSteam/Regions.py:Region2.T2_prho", "pyXSteam/Regions.py:Region5.T5_ph", "pyXSteam/Regions.py:Region5.T5_ps", "pyXSteam/Regions.py:Region5.T5_prho", "pyXSteam/Regions.py:Region4.T4_hs", "pyXSteam/XSteam.py:t_hs", "pyXSteam/XSteam.py:p_hs"]}
{"id": "C18", "title": "Iterations stay inside their bracket", "statement": "Whatever the input, the value found by a bisection lies between the two bounds it started from: hL_p in the dense region stays in [1670.858218, 2087.23500164864], hV_p in [2087.23500164864, 2568.592004], region 5 temperatures in [1073.15, 2273.15] K.", "quantifier": "all inputs, exact and binary64 arithmetic", "why_tests_cant": "all inputs", "anchors": ["pyXSteam/Regions.py:Region4.h4L_p", "pyXSteam/Regions.py:Region4.h4V_p", "pyXSteam/Regions.py:Region5.T5_ph", "pyXSteam/Regions.py:Region5.T5_ps", "pyXSteam/Regions.py:Region5.T5_prho"]}
{"id": "C19", "title": "Iterations are accurate when they converge", "statement": "A bisection result either satisfies its defining equation to the stated tolerance, or the loop stopped because two successive function values were identical; in exact arithmetic hL_p converges for every pressure from 16.53 MPa to the critical pressure.", "quantifier": "all inputs", "why_tests_cant": "all inputs", "anchors": ["pyXSteam/Regions.py:Region4.h4L_p", "pyXSteam/Regions.py:Region4.h4V_p", "pyXSteam/Regions.py:Region3.h3_pT", "pyXSteam/Regions.py:Region5.T5_ph"]}
{"id": "C20", "title": "u = h - p v", "statement": "Internal energy, enthalpy and volume satisfy u = h - p v exactly (exact arithmetic) at every state of regions 1, 2 and 5 in terms of (p,T), and of region 3 in terms of density and temperature.", "quantifier": "all p and T (all rho and T)", "why_tests_cant": "the three functions carry separate copies of the coefficient tables; a wrong digit in one of them is invisible away from the tabulated points", "anchors": ["pyXSteam/Regions.py:Region1.u1_pT", "pyXSteam/Regions.py:Region2.u2_pT", "pyXSteam/Regions.py:Region5.u5_pT", "pyXSteam/Regions.py:Region3.u3_rhoT"]}
{"id": "C21", "title": "Enthalpy, entropy and volume come from one potential", "statement": "In regions 1, 2 and 5: dh/dT = Cp, T ds/dT = Cp, ds/dp = -dv/dT and dh/dp = v - T dv/dT at every state; in region 3: du/dT = Cv, T ds/dT = Cv, ds/drho = -(dp/dT)/rho^2.", "quantifier": "all p and T inside the region (all rho and T)", "why_tests_cant": "statements about derivatives at uncountably many states", "anchors": ["pyXSteam/Regions.py:Region1", "pyXSteam/Regions.py:Region2", "pyXSteam/Regions.py:Region3", "pyXSteam/Regions.py:Region5"]}
{"id": "C22", "title": "Cv and speed of sound follow from the equation of state", "statement": "In regions 1, 2, 3 and 5, Cv and the speed of sound are the ones that follow thermodynamically from v(p,T) and Cp(p,T) (region 3: p(rho,T) and Cv): Cp - Cv = -T (dv/dT)^2/(dv/dp), w^2 = -v^2/(dv/dp + T/Cp (dv/dT)^2).", "quantifier": "all p and T where the formulas are defined", "why_tests_cant": "statements about derivatives at uncountably many states; a sign slip in the formula changes values slightly", "anchors": ["pyXSteam/Regions.py:Region1.w1_pT", "pyXSteam/Regions.py:Region1.Cv1_pT", "pyXSteam/Regions.py:Region2.w2_pT", "pyXSteam/Regions.py:Region3.w3_rhoT", "pyXSteam/Regions.py:Region5.w5_pT"]}
{"id": "C23", "title": "Saturation temperature inverts saturation pressure", "statement": "tsat_p(psat_t(t)) = t for every t whose saturation pressure is inside the range of tsat_p, and psat_t(tsat_p(p)) = p for every p in the range, in every unit system (exact arithmetic).", "quantifier": "all temperatures and pressures of the saturation line, all unit systems", "why_tests_cant": "tests check the two functions at 3 points each to 1e-8; they cannot establish that the closed forms are inverse to each other", "anchors": ["pyXSteam/XSteam.py:tsat_p", "pyXSteam/XSteam.py:psat_t", "pyXSteam/Regions.py:Region4.p4_T", "pyXSteam/Regions.py:Region4.T4_p"]}
{"id": "C24", "title": "Saturation line is strictly increasing", "statement": "psat_t is positive and strictly increasing on its whole range, and tsat_p is strictly increasing on its whole range, in every unit system.", "quantifier": "all pairs of temperatures or pressures in range", "why_tests_cant": "monotonicity is a statement about all pairs", "anchors": ["pyXSteam/XSteam.py:psat_t", "pyXSteam/XSteam.py:tsat_p"]}
{"id": "C25", "title": "Fixed points of the saturation line", "statement": "psat at 273.16 K is 611.657 Pa to 1e-7 relative, tsat at 0.101325 MPa is 373.124 K to 1 mK, psat at the critical temperature is 22.064 MPa to 1e-6 relative.", "quantifier": "the exact real value of the coded formula (no rounding)", "why_tests_cant": "a test shows the rounded value; the theorem bounds the exact value of the formula, which together with C23/C24 pins the curve", "anchors": ["pyXSteam/Regions.py:Region4.p4_T", "pyXSteam/Regions.py:Region4.T4_p"]}
{"id": "C26", "title": "The region 2/3 boundary functions are inverse to each other", "statement": "B23T_p(B23p_T(T)) = T to 1e-6 K for every T from 623.15 to 863.15 K and B23p_T(B23T_p(p)) = p to 1e-6 MPa for every p from 16.529 to 100 MPa; both are strictly increasing there.", "quantifier": "all T and p of the boundary", "why_tests_cant": "all points of a curve", "anchors": ["pyXSteam/RegionBorders.py:B23p_T", "pyXSteam/RegionBorders.py:B23T_p", "pyXSteam/RegionBorders.py:p3sat_h"]}
{"id": "C27", "title": "Quality is a fraction and inverts h_px", "statement": "x_ph returns a number in [0,1] for every enthalpy and every pressure in range (0 below the boiling line, 1 above the dew line), likewise x_ps, and x_ph(p, h_px(p,x)) = x for every x in [0,1].", "quantifier": "all p with 0.000611657 < p < 22.06395 MPa, all h, all s, all x in [0,1], all unit systems (exact arithmetic)", "why_tests_cant": "all inputs; the clamping branches are rarely sampled", "anchors": ["pyXSteam/XSteam.py:x_ph", "pyXSteam/XSteam.py:h_px", "pyXSteam/Regions.py:Region4.x4_ph"]}
{"id": "C28", "title": "Wet steam states interpolate between the saturation lines", "statement": "In region 4 the volume, entropy and internal energy given by (p,h) and the enthalpy, volume and internal energy given by (p,s) lie between the saturated liquid and saturated vapour values, move linearly with quality, and h_ps inverts s_ph: s_ph(p, h) = s implies h_ps(p, s) = h when s >= 0 (for s < 0, just above the triple point, it fails).", "quantifier": "all states in region 4, 0.000611657 < p < 22.06395 MPa; the inverse for entropies >= 0", "why_tests_cant": "all states", "anchors": ["pyXSteam/XSteam.py:v_ph", "pyXSteam/XSteam.py:s_ph", "pyXSteam/XSteam.py:h_ps", "pyXSteam/XSteam.py:u_ph"]}
{"id": "C29", "title": "Surface tension", "statement": "st_t is non-negative, strictly decreasing from 273.16 K up to the critical temperature, zero at the critical temperature, NaN above it. The lower range check compares Kelvin with 0.01, so every temperature from 0.01 K up is answered instead of rejected.", "quantifier": "all temperatures, all unit systems", "why_tests_cant": "monotonicity is about all pairs; the missing rejection is about an unsampled interval", "anchors": ["pyXSteam/XSteam.py:st_t", "pyXSteam/TransportProperties.py:Surface_Tension_T"]}
{"id": "C30", "title": "Melting and sublimation curves", "statement": "The melting pressure falls with temperature for ice Ih and rises for ices III, V, VI and VII over their ranges; the sublimation pressure rises; sublimation and ice-Ih melting pressure both equal 611.657 Pa at 273.16 K. Violated for ice VII: the code answers up to 751 K instead of 715 K (transposed digits of the IAPWS R14 limit), and the formula falls in the extra part.", "quantifier": "all pairs of temperatures in the range of each ice", "why_tests_cant": "monotonicity is about all pairs", "anchors": ["pyXSteam/IAPWS_R14.py"]}
{"id": "C31", "title": "Vapour lies above liquid", "statement": "At every saturation pressure up to 22.06395 MPa: hL_p < hV_p, sL_p < sV_p, 0 < vL_p < vV_p, uL_p < uV_p.", "quantifier": "all p with 0.000611657 < p < 22.06395 MPa, all unit systems", "why_tests_cant": "all points of a curve", "anchors": ["pyXSteam/XSteam.py:hL_p", "pyXSteam/XSteam.py:hV_p", "pyXSteam/XSteam.py:sL_p", "pyXSteam/XSteam.py:vL_p"]}
{"id": "C32", "title": "Temperature of wet steam", "statement": "Wherever region_ph says 4, t_ph(p,h) equals tsat_p(p), and likewise t_ps(p,s) where region_ps says 4: temperature of wet steam depends on pressure only.", "quantifier": "all states classified as wet, all unit systems, any arithmetic", "why_tests_cant": "all states", "anchors": ["pyXSteam/XSteam.py:t_ph", "pyXSteam/XSteam.py:t_ps", "pyXSteam/XSteam.py:tsat_p"]}
{"id": "C33", "title": "The region maps agree on the high temperature limits", "statement": "A pressure accepted at high temperature by the (p,t) functions is accepted by the (p,h), (p,s) and (p,rho) functions. Violated: between 10 and 50 MPa the (p,t) functions answer with region 5 formulas, while no (p,h), (p,s), (p,rho) call ever selects region 5 above 10 MPa.", "quantifier": "all pressures between 10 and 50 MPa, all second arguments", "why_tests_cant": "all states", "anchors": ["pyXSteam/RegionSelection.py:region_pT", "pyXSteam/RegionSelection.py:region_ph", "pyXSteam/RegionSelection.py:region_ps", "pyXSteam/RegionSelection.py:region_prho"]}
{"id": "C34", "title": "h_prho in region 5", "statement": "h_prho in region 5 should solve v5(p,T) = 1/rho. Violated: its iteration evaluates the region 2 volume instead, so the enthalpy differs from h_pt at the same state by more than 1 kJ/kg at 10 MPa; and states above 2073.15 K are not classified as region 5 at all.", "quantifier": "all p, rho classified as region 5", "why_tests_cant": "no test of h_prho in region 5", "anchors": ["pyXSteam/Regions.py:Region5.T5_prho", "pyXSteam/XSteam.py:h_prho"]}
{"id": "C35", "title": "Volume, heat capacities and speed of sound are positive", "statement": "In the whole of regions 1, 2 and 5, v_pt, Cp_pt, Cv_pt and w_pt return positive numbers and Cv <= Cp, in every unit system.", "quantifier": "all states region_pT puts in region 1, 2 or 5; all unit systems", "why_tests_cant": "all states of a two dimensional region", "anchors": ["pyXSteam/Regions.py:Region1.v1_pT", "pyXSteam/Regions.py:Region2.v2_pT", "pyXSteam/Regions.py:Region5.v5_pT", "pyXSteam/Regions.py:Region5.Cp5_pT"]}
{"id": "C36", "title": "Viscosity is positive and the two entry points agree", "statement": "Where my_pt or my_ph return a number it is positive, and my_ph(p,h) equals the viscosity formula at the density and temperature that rho_ph and t_ph report for the same state, as does my_pt with rho_pt.", "quantifier": "all states, all unit systems", "why_tests_cant": "the formula is duplicated in two functions; tests touch 6 points", "anchors": ["pyXSteam/TransportProperties.py:my_AllRegions_pT", "pyXSteam/TransportProperties.py:my_AllRegions_ph", "pyXSteam/XSteam.py:my_pt", "pyXSteam/XSteam.py:my_ph"]}
{"id": "C37", "title": "Prandtl number", "statement": "pr_pt and pr_ph equal Cp*my/tc of the corresponding API calls expressed in SI units, in every unit system, and therefore do not depend on the unit system.", "quantifier": "all states, all unit systems", "why_tests_cant": "tests use one unit system", "anchors": ["pyXSteam/XSteam.py:pr_pt", "pyXSteam/XSteam.py:pr_ph"]}
{"id": "C38", "title": "Saturation by entropy", "statement": "tsat_s(s) is the saturation temperature at the pressure psat_s(s) for every entropy in range, and both are NaN exactly outside (-0.0001545495919, 9.155759395).", "quantifier": "all entropies, all unit systems", "why_tests_cant": "all inputs", "anchors": ["pyXSteam/XSteam.py:tsat_s", "pyXSteam/XSteam.py:psat_s"]}
{"id": "C39", "title": "Volume fraction", "statement": "vx_ph and vx_ps return a number in [0,1] for every pressure in range: 0 on the liquid side, 1 on the vapour side; it is the volume share of the vapour, x vV / (x vV + (1-x) vL).", "quantifier": "all p with 0.000611657 < p < 22.06395 MPa, all h or s, all unit systems", "why_tests_cant": "all inputs", "anchors": ["pyXSteam/XSteam.py:vx_ph", "pyXSteam/XSteam.py:vx_ps"]}
{"id": "C40", "title": "Heavy water", "statement": "XSteam_HW.my_rhoT and tc_rhoT return NaN exactly outside 277..775 K and 277..825 K; in the default unit system they return the IAPWS R4 formula (micro Pa s, mW/(m K)). In the other unit systems the density is converted as a pressure and the viscosity result as a temperature.", "quantifier": "all densities and temperatures, all unit systems", "why_tests_cant": "the tests run in one unit system", "anchors": ["pyXSteam/XSteam_HW.py:my_rhoT", "pyXSteam/XSteam_HW.py:tc_rhoT"]}
{"id": "C41", "title": "Constants functions", "statement": "criticalTemperatur, criticalPressure, triplePointTemperatur, triplePointPressure, zeroPointTemperature return the documented constants converted to the selected unit system; the triple point lies on the saturation line of psat_t to 1e-7 relative. The critical point does not: psat_t of the critical temperature and tsat_p of the critical pressure are NaN; just below the critical temperature psat_t is the critical pressure to 1e-4.", "quantifier": "all unit systems", "why_tests_cant": "relates constants to the curve they are supposed to end", "anchors": ["pyXSteam/XSteam.py:criticalTemperatur", "pyXSteam/XSteam.py:triplePointPressure", "pyXSteam/Constants.py"]}
{"id": "C42", "title": "Saturation values by pressure and by temperature agree", "statement": "hV_t, hL_t, vV_t, vL_t, sV_t, sL_t, uV_t, ... at temperature t equal the corresponding _p function at pressure psat_t(t), for every t up to 623.14 K above the triple point and in every unit system (exact arithmetic).", "quantifier": "all temperatures of that range, all unit systems", "why_tests_cant": "all points of a curve; the two families switch formulas at different borders", "anchors": ["pyXSteam/XSteam.py:hV_t", "pyXSteam/XSteam.py:hV_p", "pyXSteam/XSteam.py:sL_t", "pyXSteam/XSteam.py:sL_p"]}
{"id": "C43", "title": "Monotone inside a region", "statement": "Within each of the regions 1, 2 and 5: at constant pressure h_pt and s_pt strictly rise with temperature; at constant temperature v_pt strictly falls with pressure.", "quantifier": "all pairs of states of the same region; all unit systems", "why_tests_cant": "A wrong coefficient or sign in one term of the tables may reverse the slope only in a small part of a region; sampling at table points cannot exclude that.", "anchors": ["pyXSteam/RegionSelection.py:region_pT", "pyXSteam/Regions.py:Region1", "pyXSteam/Regions.py:Region2", "pyXSteam/Regions.py:Region5", "pyXSteam/XSteam.py:h_pt", "pyXSteam/XSteam.py:s_pt", "pyXSteam/XSteam.py:v_pt"]}
{"id": "C44", "title": "Region selection by (p,h) and by (p,s) agrees with region selection by (p,T)", "statement": "Below 16.529 MPa region_ph and region_ps split the range exactly at the saturation lines and isotherms of the equations of state (the approximations used to speed up region_ph never change its answer), and a state in region 1 or 2 by (p,T) is in the same region by (p,h_pt(p,T)) and, for non-negative entropy, by (p,s_pt(p,T)). Region 5 states just above 1073.15 K can be taken for region 2.", "quantifier": "all pressures above 0.000611657 and below 16.529 MPa, all enthalpies/entropies/temperatures", "why_tests_cant": "The approximation could fail in a narrow band of pressures between any two sampled points; only a bound over the whole interval excludes that.", "anchors": ["pyXSteam/RegionSelection.py:region_ph", "pyXSteam/RegionSelection.py:region_ps", "pyXSteam/RegionSelection.py:region_pT"]}
{"id": "C45", "title": "Thermal conductivity follows one formulation", "statement": "tc_pt and tc_ph return a finite value exactly when rho_pt (rho_ph and t_ph) report a positive density and the pressure lies inside the published limit for the temperature, and the value is then the IAPS-1985 interpolating equation at that density and temperature; it is positive.", "quantifier": "all unit systems, all real pressures, temperatures and enthalpies", "why_tests_cant": "The test-suite checks five tabulated points; the equation has a division by the temperature distance from the critical point and three pressure limits that no sample exercises.", "anchors": ["pyXSteam/XSteam.py:tc_pt", "pyXSteam/XSteam.py:tc_ph", "pyXSteam/TransportProperties.py:tc_ptrho"]}
{"id": "C46", "title": "Asking by (p,h), (p,s) or (h,s) agrees with asking by (p,t)", "statement": "Where region_ph puts a state in region r of 1, 2 or 5, t_ph reports t and region_pT puts (p,t) in the same region, each of v_ph, rho_ph, s_ph, u_ph, Cp_ph, Cv_ph and w_ph at (p,h) returns exactly what the function of the same property returns at (p,t), and the same holds for v_ps, rho_ps, h_ps, u_ps, Cp_ps, Cv_ps and w_ps with region_ps and t_ps; t_hs(h,s) is t_ph at the pressure reported by p_hs. In region 3 the (p,h), (p,s) and (p,t) functions are the region 3 equation at the density and temperature the interface itself reports. Heat capacity and speed of sound are NaN for wet steam and outside the ranges.", "quantifier": "all unit systems, all real arguments (exact arithmetic), and all arguments in any arithmetic in bare units", "why_tests_cant": "The suite checks each function at a few points of its own table; it never compares the three interfaces with each other, so a wrong dispatch or a swapped argument in one of twenty-odd branches is only caught at the tabulated points.", "anchors": ["pyXSteam/XSteam.py:v_ph", "pyXSteam/XSteam.py:s_ph", "pyXSteam/XSteam.py:u_ph", "pyXSteam/XSteam.py:Cp_ph", "pyXSteam/XSteam.py:Cv_ph", "pyXSteam/XSteam.py:w_ph", "pyXSteam/XSteam.py:h_ps", "pyXSteam/XSteam.py:v_ps", "pyXSteam/XSteam.py:u_ps", "pyXSteam/XSteam.py:Cp_ps", "pyXSteam/XSteam.py:Cv_ps", "pyXSteam/XSteam.py:w_ps", "pyXSteam/XSteam.py:t_hs", "pyXSteam/XSteam.py:p_hs"]}
{"id": "C47", "title": "Liquid water: temperature from (p,h) and (p,s) and pressure from (h,s) undo the forward equations", "statement": "Wherever region_ph reports region 1, t_ph(p,h) is within 25 mK of a temperature between 273.15 K and 623.16 K at which the region 1 enthalpy equation gives exactly h; likewise t_ps(p,s) wherever region_ps reports region 1 (except at exactly 16.529 MPa, where region_ps never reports region 4). Hence for every liquid state (p,t): t_ph(p, h_pt(p,t)) and t_ps(p, s_pt(p,t)) return t up to 25 mK, and p_hs(h_pt(p,t), s_pt(p,t)) returns p up to 15 kPa where region_hs reports region 1. These are the tolerances of the IAPWS releases.", "quantifier": "all unit systems, all real arguments with the named region (exact arithmetic)", "why_tests_cant": "Tests compare a handful of table points with a relative tolerance. A wrong digit in one of the 20 to 30 coefficients of a backward equation can be invisible at these points and still shift the answer by degrees elsewhere; the claim is about every pressure and temperature of the region.", "anchors": ["pyXSteam/Regions.py:Region1.T1_ph", "pyXSteam/Regions.py:Region1.T1_ps", "pyXSteam/Regions.py:Region1.p1_hs", "pyXSteam/XSteam.py:t_ph", "pyXSteam/XSteam.py:t_ps", "pyXSteam/XSteam.py:p_hs", "pyXSteam/XSteam.py:h_pt", "pyXSteam/XSteam.py:s_pt", "pyXSteam/RegionSelection.py:region_ph", "pyXSteam/RegionSelection.py:region_ps"]}
{"id": "C48", "title": "t_ph always answers with a plausible temperature", "statement": "Wherever region_ph reports region 1, 2, 3 or 4, t_ph returns a finite temperature between 200 K and 1150 K, and no call of t_ph ever returns a temperature outside 200 K to 2273.15 K.", "quantifier": "all unit systems, all real pressures and enthalpies (exact arithmetic)", "why_tests_cant": "The backward equations are sums of 30 to 40 terms with exponents up to 44 and huge cancelling coefficients; one wrong digit or sign can send the answer far off in a corner of the region that no tabulated point touches.", "anchors": ["pyXSteam/XSteam.py:t_ph", "pyXSteam/Regions.py:Region1.T1_ph", "pyXSteam/Regions.py:Region2.T2_ph", "pyXSteam/Regions.py:Region3.T3_ph", "pyXSteam/Regions.py:Region4.T4_p", "pyXSteam/RegionSelection.py:region_ph", "pyXSteam/RegionBorders.py:B23T_p", "pyXSteam/RegionBorders.py:p3sat_h"]}
{"id": "C49", "title": "Saturated phases are in equilibrium", "statement": "At every saturation pressure the Gibbs energy h - T s of saturated liquid and of saturated vapour agree within 0.015 kJ/kg.", "quantifier": "all p with 0.000611657 < p < 22.06395 MPa, all unit systems", "why_tests_cant": "a thermodynamic identity on a whole curve; a wrong digit in any of five coefficient tables breaks it only along part of the curve", "anchors": ["pyXSteam/XSteam.py:hL_p", "pyXSteam/XSteam.py:hV_p", "pyXSteam/XSteam.py:sL_p", "pyXSteam/XSteam.py:sV_p", "pyXSteam/XSteam.py:tsat_p", "pyXSteam/Regions.py:Region4.T4_p"]}
{"id": "C50", "title": "Saturated states above 16.529 MPa satisfy the region 3 equation", "statement": "With the density 1/vL_p or 1/vV_p and the temperature tsat_p, the fundamental equation of region 3 returns the pressure within 0.0004 (liquid) and 0.0001 MPa (vapour) and the enthalpy hL_p or hV_p within 0.006 and 0.007 kJ/kg.", "quantifier": "all p with 16.529 <= p < 22.06395 MPa, all unit systems", "why_tests_cant": "all points of a curve; the values come from a bisection on p3sat_h and a backward equation v3_ph that never see the fundamental equation", "anchors": ["pyXSteam/Regions.py:Region4.h4L_p", "pyXSteam/Regions.py:Region4.h4V_p", "pyXSteam/Regions.py:Region3.v3_ph", "pyXSteam/Regions.py:Region3.p3_rhoT", "pyXSteam/Regions.py:Region3.h3_rhoT", "pyXSteam/RegionBorders.py:p3sat_h"]}
{"id": "C51", "title": "Neighbouring regions join", "statement": "On 623.15 K (16.5292 to 100 MPa) the region 1 state put into the region 3 equation gives back the pressure within 0.016 MPa, the enthalpy within 0.025 kJ/kg and the entropy within 0.00007 kJ/(kg K); on the B23 line regions 2 and 3 agree within 0.008 MPa, 0.1 kJ/kg, 0.00012 kJ/(kg K); at 1073.15 K up to 10 MPa regions 2 and 5 agree within 0.00001 m3/kg, 0.021 kJ/kg, 0.00005 kJ/(kg K).", "quantifier": "all points of the three borders", "why_tests_cant": "whole curves; every coefficient of the tables takes part", "anchors": ["pyXSteam/Regions.py:Region1.h1_pT", "pyXSteam/Regions.py:Region2.h2_pT", "pyXSteam/Regions.py:Region3.h3_rhoT", "pyXSteam/Regions.py:Region5.h5_pT", "pyXSteam/RegionBorders.py:B23p_T"]}
{"id": "C52", "title": "Superheated steam: temperature from (p,h) undoes the forward equation", "statement": "Wherever region_ph reports region 2, t_ph(p,h) is within 50 mK of a temperature between 273.15 K and 1073.15 K at which the region 2 enthalpy equation gives exactly h. Hence for every steam state (p,t) of region 2, t_ph(p, h_pt(p,t)) returns t up to 50 mK, below 16.529 MPa always and above it where region_ph also reports region 2.", "quantifier": "all unit systems, all real arguments with the named region (exact arithmetic)", "why_tests_cant": "The tests look at nine points of the three sub-equations 2a, 2b and 2c. A wrong digit in one of the 95 coefficients, a wrong sub-region border or a swapped sub-equation near a border is visible only in part of the region; the claim is about every pressure and temperature of the region.", "anchors": ["pyXSteam/Regions.py:Region2.T2_ph", "pyXSteam/Regions.py:Region2.h2_pT", "pyXSteam/XSteam.py:t_ph", "pyXSteam/XSteam.py:h_pt", "pyXSteam/RegionSelection.py:region_ph", "pyXSteam/RegionBorders.py:B23T_p"]}
{"id": "C53", "title": "Region 3: temperature and volume from (p,h) satisfy the fundamental equation", "statement": "Wherever region_ph reports region 3, t_ph(p,h) and v_ph(p,h) are a solution of the region 3 equation: at the density 1/v_ph and the temperature t_ph the equation for the pressure gives p within 0.05 MPa and the equation for the enthalpy gives h within 0.25 kJ/kg, and the volume is positive.", "quantifier": "all unit systems, all real pressures and enthalpies in region 3, including the neighbourhood of the critical point (exact arithmetic)", "why_tests_cant": "The tests compare six values of T3_ph and v3_ph with the release. The two equations, split along a cubic border, have 126 coefficients and never meet the fundamental equation in the code; a wrong digit, sub-region or border makes them inconsistent in a part of the region only.", "anchors": ["pyXSteam/Regions.py:Region3.T3_ph", "pyXSteam/Regions.py:Region3.v3_ph", "pyXSteam/Regions.py:Region3.p3_rhoT", "pyXSteam/Regions.py:Region3.h3_rhoT", "pyXSteam/XSteam.py:t_ph", "pyXSteam/XSteam.py:v_ph", "pyXSteam/RegionSelection.py:region_ph", "pyXSteam/RegionBorders.py:p3sat_h", "pyXSteam/RegionBorders.py:B23T_p"]}
{"id": "C54", "title": "Wet steam found by (h,s) gets a temperature and a pressure", "statement": "Where region_hs reports wet steam (region 4), t_hs, p_hs and tc_hs answer with a number. The claim is false: for every entropy above 3.77828134 and up to 5.210887663 kJ/(kg K) and every enthalpy up to 1390 kJ/kg that region_hs calls wet steam, all three raise ValueError, because T4_hs searches up to the pressure p3sat_h(h), an equation used far below its range, and its first midpoint lies above the critical pressure. Such states exist: wet steam at 0.01 MPa with 1260 kJ/kg.", "quantifier": "all unit systems, all real enthalpies and entropies of the named band (exact arithmetic)", "why_tests_cant": "The tests call t_hs and p_hs at three points, none of them wet steam of low quality. The failing band is an area of the (h,s) plane; that nothing in it is answered is a claim about every point.", "anchors": ["pyXSteam/Regions.py:Region4.T4_hs", "pyXSteam/RegionBorders.py:p3sat_h", "pyXSteam/RegionSelection.py:region_hs", "pyXSteam/XSteam.py:t_hs", "pyXSteam/XSteam.py:p_hs", "pyXSteam/XSteam.py:tc_hs"]}
{"id": "C55", "title": "Compressed water is found again from enthalpy and entropy", "statement": "Take a state of compressed water (region 1) at up to 623.05 K, at least 0.005 MPa above its boiling pressure and at most 99.8 MPa, whose entropy is not negative. Ask h_pt and s_pt for its enthalpy and entropy. Then the region map for (h,s) puts that pair back into region 1, p_hs returns the pressure within 0.015 MPa, and (0.04 MPa above boiling) t_hs returns the temperature within 0.042 K. The border between regions 1 and 3 that the map uses, hB13_s, is the 623.15 K isotherm to within 0.019 kJ/kg, and TB23_hs returns the temperature of every point of the 2/3 border line within 0.006 K.", "quantifier": "every unit system, every pressure and temperature in the stated part of region 1; every pressure 16.53..99.99 MPa and every enthalpy on the 623.15 K isotherm; every temperature 623.15..863.15 K on the 2/3 border line", "why_tests_cant": "The region map compares h with three fitted curves that only approximate the thermodynamic boundary, so the margin changes from point to point and a test grid says nothing about the points between; the statement is about a continuum of states in all unit systems.", "anchors": ["pyXSteam/RegionSelection.py:region_hs", "pyXSteam/RegionBorders.py:hB13_s", "pyXSteam/RegionBorders.py:TB23_hs", "pyXSteam/XSteam.py:p_hs", "pyXSteam/XSteam.py:t_hs", "pyXSteam/Regions.py:Region4.h4_s"]}
{"id": "C56", "title": "Water and steam expand when heated and lose entropy when compressed", "statement": "Inside regions 1, 2 and 5, and for water only from 277.5 K on, the specific volume from v_pt rises strictly with temperature at fixed pressure and the entropy from s_pt falls strictly with pressure at fixed temperature. For colder water the first statement is false: there are two region 1 states at the same pressure where the warmer one has the smaller volume (the density maximum of water).", "quantifier": "every unit system and every pair of states of the same region at the same pressure (same temperature), at any distance", "why_tests_cant": "Strict monotonicity over a two-dimensional continuum cannot be sampled; it needs the sign of the mixed derivative of a 34 to 43 term polynomial at every point of the region.", "anchors": ["pyXSteam/XSteam.py:v_pt", "pyXSteam/XSteam.py:s_pt", "pyXSteam/Regions.py:Region1.v1_pT", "pyXSteam/Regions.py:Region2.v2_pT", "pyXSteam/Regions.py:Region5.v5_pT", "pyXSteam/Regions.py:Region1.s1_pT"]}
{"id": "C57", "title": "Superheated steam: temperature from (p,s) undoes the forward equation", "statement": "Wherever region_ps reports region 2, t_ps(p,s) is within 50 mK of a temperature between 273.15 K and 1073.15 K at which the region 2 entropy equation gives exactly s. Hence for every steam state (p,t) of region 2, t_ps(p, s_pt(p,t)) returns t up to 50 mK, below 16.529 MPa always and above it where region_ps also reports region 2.", "quantifier": "all unit systems, all real arguments with the named region (exact arithmetic)", "why_tests_cant": "The tests look at nine points of the three sub-equations 2a, 2b and 2c. A wrong digit in one of the 120 coefficients, a wrong quarter power of the pressure or a swapped sub-equation next to the border at 4 MPa or 5.85 kJ/(kg K) shows only in part of the region; the claim is about every pressure and temperature of the region.", "anchors": ["pyXSteam/Regions.py:Region2.T2_ps", "pyXSteam/Regions.py:Region2.s2_pT", "pyXSteam/XSteam.py:t_ps", "pyXSteam/XSteam.py:s_pt", "pyXSteam/RegionSelection.py:region_ps", "pyXSteam/RegionBorders.py:B23T_p"]}
