# Formal model of pyXSteam: design and trusted base

## Layout

* `properties.jsonl`: the properties, in terms of the public API. `MANIFEST.json`: their status
  and the theorems that settle them (written by `tools/manifest.py` from `Prop*.v` and
  `tools/notes.json`).
* `rocq/theories/Py.v`: the Python fragment the code uses (results and exceptions,
  abstract arithmetic, `for`, `while`, unbound locals, objects compared with `is`).
* `rocq/theories/Mod*.v`: the model of the code. All of them except `ModState.v` are
  generated by `tools/translate.py` from the text of `/repo/pyXSteam/*.py`, one Gallina
  definition per Python function, each with a comment citing file and lines. The generated
  files are committed; the script is not part of the build.
* `rocq/theories/ExactReal.v`, `rocq/theories/Float64.v`: the two arithmetics.
* `rocq/theories/Spec*.v`: specifications, stated without reference to model helpers.
* `rocq/theories/Prop*.v`: the property theorems only, each closed by `exact`, with
  `Print Assumptions` beneath. `Example`s beside them show that the hypotheses can be met.
* `rocq/theories/Proof*.v`: the proofs. `Sat3.v`, `SatS.v`, `RealSum.v` belong to them.
* `rocq/theories/Bound*.v`: verified enclosures, see below.
* `seeded/LOG.jsonl`: edits made to the model in a scratch copy, and which theorems stopped
  compiling.

## One model, two arithmetics

The model is a set of functions over a class `Num` (the arithmetic) and `Fuel` (how many
rounds a `while` loop is granted). Theorems come in three kinds:

* **any**: for every `Num` instance, hence in particular for binary64 (dispatch, exceptions,
  history, `p_hrho`, density, agreement of entry points).
* **F** (binary64): `Float64.v` instantiates `Num` with Flocq's `binary_float 53 1024`.
  `+ - * /`, comparison and square root are IEEE-754 round to nearest even. Decimal literals
  are rounded correctly (proved in `Float64.v`). `pow`, `log`, `exp` of the C library are not
  specified by IEEE-754: they are universally quantified parameters, and only the checks
  that CPython itself puts around them are modelled.
* **R** (exact): `ExactReal.v` instantiates `Num` with the real numbers plus a NaN. This is
  the formula the code writes down, without rounding. Theorems about thermodynamics are of
  this kind. Nothing is claimed about the rounding error of a whole formula in binary64.

No theorem bounds its input to a finite sample.

## Enclosures

Many properties are inequalities between polynomials of 30 to 43 terms that must hold at
every point of a region. `Bound*.v` proves them with a small verified library on top of the
interval type of coq-interval (primitive floats): a function is enclosed over a box, boxes
are bisected until every one of them is decided, and `vm_compute` runs the search. What is
proved is the soundness lemma (`cov2_ok`, `segs`): if the search answers `true`, the
statement holds for all real points of the rectangle. `BoundT`, `BoundU` and `BoundA` use
polynomials in one or two variables with interval coefficients (Taylor models) so that
differences of two nearly equal fitted curves can be enclosed. `coqchk` repeats every one of
these computations without the VM.

## What the model contains

Every function of `Constants.py`, `UnitConverter.py`, `RegionBorders.py`, `Regions.py`,
`RegionSelection.py`, `TransportProperties.py`, `IAPWS_R4.py`, `IAPWS_R14.py`, `XSteam.py`
and `XSteam_HW.py`, including the exceptions that Python raises: `ZeroDivisionError` (`/`
by zero, `0 ** negative`), `ValueError` (`math.log`, `math.sqrt` out of domain, explicit
`raise`), `OverflowError` (`**`, `math.exp`; binary64 only), `UnboundLocalError`, and the
`TypeError` that follows when `negative ** fraction` became a complex number.

### Simplifications

* Docstrings, logging calls and `step_counter` (only logged) are dropped.
* Arguments are floats. A Python `int` argument behaves like the float of the same value as
  long as it is below 2^53; larger ints, other numeric types and non-numbers are not modelled.
* `x ** n` with `n` a Python `int` is one operation `powz`, with `n` a float `powf`. In the
  exact arithmetic both are the mathematical power.
* In Python 3 `negative ** 0.5` is a complex number, and the failure comes one step later,
  when the complex value is compared, passed to `math.fabs` or `float()`, or used in another
  operation that rejects it. The model raises `TypeErrorComplex` at the power itself.
* `for i in range(a, b)` over tables is a fold over the zipped tables; the translator checks
  that every table has at least `b` entries, so `IndexError` cannot occur there.
* A `while` loop that runs out of fuel answers `Err Diverges`. Theorems about loops say for
  which fuel this is excluded.
* `x is 1` on ints compares values (CPython keeps one object per small int).
* Methods are reordered so that callees come first (no recursion in the source).

### Not modelled

`__init__.py` (exports only), logging, the demo scripts, floating point flags, rounding of `pow/log/exp`, Python
`int` overflow in conversions, threads.

## Trusted base

* The Coq 8.16.1 kernel and `coqchk`. The build uses the kernel's VM and its primitive floats
  and 63 bit integers; `coqchk` re-checks the `vm_compute` proofs without the VM.
* The reading of the Python source: `tools/translate.py` and the hand-written `ModState.v`,
  the meaning of the operations in `Py.v`, `ExactReal.v`, `Float64.v`.
* The wording of the theorems in `Prop*.v` and the definitions of `Spec*.v` they use.
* Axioms: only those of the Coq standard library. No axiom is added here; Flocq, Coquelicot and
  Interval contribute none of their own.

`Print Assumptions` stands under every property theorem. Its output falls into these classes.

* REAL: `ClassicalDedekindReals.sig_forall_dec`, `ClassicalDedekindReals.sig_not_dec`,
  `Classical_Prop.classic`, `FunctionalExtensionality.functional_extensionality_dep`.
* INT: the primitive integers and their specification:
  PrimInt63.add, PrimInt63.addc, PrimInt63.addcarryc, PrimInt63.addmuldiv, PrimInt63.compare,
  PrimInt63.div, PrimInt63.diveucl, PrimInt63.diveucl_21, PrimInt63.eqb, PrimInt63.head0,
  PrimInt63.int, PrimInt63.land, PrimInt63.leb, PrimInt63.lor, PrimInt63.lsl, PrimInt63.lsr,
  PrimInt63.ltb, PrimInt63.lxor, PrimInt63.mod, PrimInt63.mul, PrimInt63.mulc, PrimInt63.sub,
  PrimInt63.subc, PrimInt63.subcarryc, PrimInt63.tail0, Uint63.add_spec, Uint63.addc_def_spec,
  Uint63.addcarryc_def_spec, Uint63.addmuldiv_def_spec, Uint63.compare_def_spec, Uint63.div_spec,
  Uint63.diveucl_21_spec, Uint63.diveucl_def_spec, Uint63.eqb_correct, Uint63.eqb_refl,
  Uint63.head0_spec, Uint63.land_spec, Uint63.leb_spec, Uint63.lor_spec, Uint63.lsl_spec,
  Uint63.lsr_spec, Uint63.ltb_spec, Uint63.lxor_spec, Uint63.mod_spec, Uint63.mul_spec,
  Uint63.mulc_spec, Uint63.of_to_Z, Uint63.sub_spec, Uint63.subc_def_spec,
  Uint63.subcarryc_def_spec, Uint63.tail0_spec
* FLOAT: the primitive floats and their specification:
  FloatAxioms.Prim2SF_SF2Prim, FloatAxioms.Prim2SF_valid, FloatAxioms.SF2Prim_Prim2SF,
  FloatAxioms.abs_spec, FloatAxioms.add_spec, FloatAxioms.classify_spec, FloatAxioms.compare_spec,
  FloatAxioms.div_spec, FloatAxioms.eqb_spec, FloatAxioms.frshiftexp_spec,
  FloatAxioms.ldshiftexp_spec, FloatAxioms.ltb_spec, FloatAxioms.mul_spec,
  FloatAxioms.next_down_spec, FloatAxioms.next_up_spec, FloatAxioms.normfr_mantissa_spec,
  FloatAxioms.of_uint63_spec, FloatAxioms.opp_spec, FloatAxioms.sqrt_spec, FloatAxioms.sub_spec,
  PrimFloat.abs, PrimFloat.add, PrimFloat.classify, PrimFloat.compare, PrimFloat.div, PrimFloat.eqb,
  PrimFloat.float, PrimFloat.frshiftexp, PrimFloat.ldshiftexp, PrimFloat.ltb, PrimFloat.mul,
  PrimFloat.next_down, PrimFloat.next_up, PrimFloat.normfr_mantissa, PrimFloat.of_uint63,
  PrimFloat.opp, PrimFloat.sqrt, PrimFloat.sub

**Closed under the global context** (no axiom at all):

`C04_construct`, `C04_invalid`, `C04_valid`, `C05_fresh`, `C05_history`, `C11_regions`,
`C16_density_any`, `C17_fuel`, `C19_hL_any`, `C19_hV_any`, `C19_h_pt_any`, `C19_t_ph_any`,
`C19_t_ps_any`, `C32_wet_any`, `C34_region2_volume`, `C46_hs_any`, `C46_ph_any`, `C46_ps_any`,
`C46_region3_ph`, `C46_region3_ps`, `C46_region3_pt`, `C46_region3_v`, `C46_wet_nan`

**REAL without `sig_not_dec` and `classic`:** `C28_between`

**REAL:**

`C01_fraction`, `C01_nan`, `C01_order`, `C01_round_trip`, `C02_default_exact`, `C02_round_trip`,
`C03_factors_MKS`, `C06_covariant`, `C06_criticalDensity_refuted`,
`C06_hw_criticalDensity_refuted`, `C06_p_hrho`, `C07_outside`, `C07_outside_float`, `C08_pt_nan`,
`C08_pt_nan_float`, `C08_quality_float_refuted`, `C08_quality_refuted`, `C08_sat_nan_float`,
`C09_quality`, `C09_quality_float`, `C10_h_px_nan`, `C10_h_tx_nan`, `C12_nan`, `C13_p_hrho`,
`C14_hint`, `C14_no_hint`, `C14_sublimation`, `C14_unknown_hint`, `C15_raises`, `C16_density1`,
`C16_density2`, `C17_ends`, `C17_hs`, `C17_hs_refuted`, `C18_hL_binary64`, `C18_hV_binary64`,
`C18_t_ph`, `C18_t_ph_binary64`, `C18_t_ps`, `C18_t_ps_binary64`, `C21_helmholtz`,
`C21_helmholtz_answers`, `C22_region3_cp`, `C22_region3_w`, `C26_rises`, `C29_falls`, `C29_range`,
`C30_ice_Ih`, `C30_triple_point`, `C32_wet_ph`, `C32_wet_ps`, `C33_region_5`, `C37_pr_ph`,
`C37_pr_ph_units`, `C37_pr_pt`, `C37_pr_pt_units`, `C38_outside`, `C38_sat_s`, `C40_conductivity`,
`C40_conductivity_nan`, `C40_conductivity_outside`, `C40_viscosity_outside`, `C41_constants`,
`C45_tc_ph`, `C45_tc_pt`, `C46_hs`, `C46_ph`, `C46_ps`

**REAL and INT** (interval arithmetic on big integers; the theorems list all of REAL and those
names of INT that the computation uses):

`C03_factors`, `C06_hw_tc_refuted`, `C12_region_map`, `C12_total`, `C14_unique_refuted`,
`C15_refuted`, `C15_slivers`, `C20_energy`, `C21_answers`, `C21_gibbs`, `C23_answers`,
`C23_psat_tsat`, `C23_published`, `C23_tsat_psat`, `C24_psat`, `C24_tsat`, `C25_fixed_points`,
`C26_inverse_T`, `C26_inverse_p`, `C30_ice_VII_refuted`, `C30_other_ices`, `C34_above_2073`,
`C41_critical_point`, `C41_triple_point`, `C42_by_pressure`

**REAL, INT and FLOAT** (interval arithmetic on primitive floats; the theorems list all of REAL
and those names of INT and FLOAT that the computation uses):

`C06_hw_my_refuted`, `C10_between`, `C10_hL_p`, `C10_hL_t`, `C10_hV_p`, `C10_hV_t`, `C10_h_px`,
`C10_h_tx`, `C10_refuted`, `C10_slivers`, `C18_hL`, `C18_hV`, `C19_first_guess_refuted`, `C19_hL`,
`C19_hV`, `C19_t_ph_inverse`, `C19_t_ps_inverse`, `C22_cv`, `C22_w`, `C27_h_px`, `C27_x_ph`,
`C27_x_ps`, `C28_inverse_low`, `C28_inverse_refuted`, `C28_ph_low`, `C28_ps_low`,
`C28_region4_inverse`, `C28_region4_ph`, `C28_region4_ps`, `C30_sublimation`, `C31_vapour_above`,
`C33_refuted`, `C34_refuted`, `C35_stable`, `C36_my_ph`, `C36_my_ph_positive`, `C36_my_pt`,
`C36_my_pt_positive`, `C38_on_line`, `C38_tsat_p`, `C38_tsat_p_everywhere_refuted`, `C39_vx_ph`,
`C39_vx_ps`, `C40_default`, `C40_viscosity`, `C40_viscosity_nan`, `C40_viscosity_positive`,
`C43_pressure`, `C43_temperature`, `C44_agree_ph`, `C44_agree_ps`, `C44_map_ph`, `C44_map_ps`,
`C44_region5_refuted`, `C45_tc_ph_positive`, `C45_tc_pt_positive`, `C47_round_hs`, `C47_round_ph`,
`C47_round_ps`, `C47_t_ph`, `C47_t_ps`, `C48_answers`, `C48_bounds`, `C49_gibbs`,
`C50_fundamental`, `C51_regions_1_3`, `C51_regions_2_3`, `C51_regions_2_5`, `C52_round_ph`,
`C52_t_ph`, `C53_solves`, `C54_raises`, `C54_refuted`, `C54_where`, `C55_border_13`,
`C55_border_23`, `C55_p_hs`, `C55_region`, `C55_t_hs`, `C56_cold_refuted`, `C56_entropy`,
`C56_expands`, `C57_round_ps`, `C57_t_ps`

## Properties: what is modelled and how it is proved

| id | kind | method |
|----|------|------|
| C01 | R | field computation per converter; order by sign of the factor |
| C02 | F | Flocq `relative_error` lemmas; BARE by computation |
| C03 | R | interval arithmetic on closed terms |
| C04 | any | case analysis on the object argument |
| C05 | any | state machine `step`, induction over the call sequence |
| C06 | R | table of API functions with their quantities; one theorem for the table, refutations for the exceptions |
| C07 | F | comparisons with NaN are false; case analysis of the gate |
| C08 | F | as C07; refutation for quality |
| C09 | any/F | `toSIunit_x` raises first |
| C10 | R | gate analysis plus monotonicity of psat (C24) to locate the slivers |
| C11 | any | case analysis; every branch returns a literal |
| C12 | R | case analysis against an independent region specification; no exception because the radicands are positive (interval) |
| C13 | any | first round of the loop |
| C14 | R | gate analysis; totality of the curves |
| C15 | any/R | branch analysis of `T4_hs`; witness by interval for the wet state |
| C16 | any | unfolding; R for `rho*v = 1` |
| C17 | F | the bracket shrinks in the finite order of binary64, a repeated mid point repeats the function value; the search of `T4_hs` needs a bound on the library's `pow`, and `C17_hs_refuted` shows that it does |
| C18 | F, R | loop invariant |
| C19 | any, R | loop invariant; intermediate value argument for convergence |
| C20 | R | summation identity after showing the table copies agree |
| C21 | R | derivative of each sum (`is_derive`), term by term |
| C22 | R | algebra on the derivatives of C21 |
| C23 | R | the two closed forms solve the same biquadratic equation; the roots are selected by sign (interval) |
| C24 | R | sign of the derivative by interval; inverse for tsat |
| C25 | R | interval |
| C26 | R | interval |
| C27 | R | order facts of C31 |
| C28 | R | algebra from C31 |
| C29 | R | derivative sign |
| C30 | R | monotonicity of powers, derivative sign |
| C31 | R | enclosure along the saturation line, region 3 included |
| C32 | any | unfolding |
| C33 | any/R | branch analysis |
| C34 | any | branch analysis, loop body |
| C35 | R | enclosure over each region (`Bound1`, `Bound2`, `Bound5`) |
| C36 | R | positivity of factors; unfolding |
| C37 | R | unfolding and C01 |
| C38 | any, R | unfolding; enclosure along the saturation line |
| C39 | R | algebra and positivity of the volumes |
| C40 | F, R | unfolding |
| C41 | R | C25 |
| C42 | R | C23 |
| C43 | R | signs of C35, mean value theorem along paths inside a region |
| C44 | R | monotonicity of C43 against the fitted borders of `region_ph` and `region_ps` |
| C45 | R | the code's conductivity against the published formula; positivity by enclosure |
| C46 | any, R | the functions run the same code on the same region; wet states as interpolation |
| C47 | R | Taylor enclosure of `T1_ph(p, h1(p,T)) - T` and its kin over region 1 |
| C48 | R | enclosure of every backward equation over its whole domain |
| C49 | R | Gibbs energy difference along the saturation line |
| C50 | R | Taylor enclosure of region 3 pressure along the saturated states |
| C51 | R | Taylor enclosure of the difference along each border |
| C52 | R | Taylor enclosure of `T2_ph(p, h2(p,T)) - T` |
| C53 | R | Taylor enclosure of region 3 pressure and enthalpy at `T3_ph`, `v3_ph` |
| C54 | any, R | branch and loop analysis of `T4_hs`; band located by enclosure |
| C55 | R | convexity of the Gibbs energy compares a state with the border state of equal entropy; fitted borders by Taylor enclosure |
| C56 | R | sign of the mixed derivative over regions 1, 2 and 5; Maxwell relation |
| C57 | R | Taylor enclosure of `T2_ps(p, s2(p,T)) - T`; quarter powers and logarithm of p as series |

The status of each property is in `MANIFEST.json`.

## Seeded errors

Each line of `seeded/LOG.jsonl` is one edit of one model definition, made in a scratch copy.
`lemmas_failed` are the first lemmas that no longer compile. A lemma that fails breaks everything
that uses it, so `theorems_failed` lists the property theorems that depend on a failed lemma,
found in the dependency graph of the `.glob` files; nothing downstream of a failure is compiled.

## Observations about the code

These came up while proving; each is stated in a theorem or follows from one.

* `t_hs`, `p_hs` and `tc_hs` raise `ValueError` for wet steam with 3.778 < s <= 5.2109 and
  h <= 1390 kJ/kg (C54), and `UnboundLocalError` on two slivers of entropy (C15).
* `T4_hs` could search forever with a C library whose `pow` and `log` answer arbitrarily (C17).
* The marker -99999 of `h4L_p` and `h4V_p` reaches the user near both ends of the saturation
  line and for NaN arguments of `h_px` and `h_tx` (C10).
* Different limits for the same thing: `h4L_p` switches at 16.529 MPa, the region maps at
  16.5292 MPa; `region_prho` and `T5_prho` stop at 2073.15 K while `region_pT` accepts 2273.15 K
  (C34); `region_ph` has no region 5 above 10 MPa (C33, C44).
* `h_prho` in region 5 iterates with the volume of region 2 (C34).
* Without a hint, `pmelt_t` cannot tell ice Ih from ice V (C14); the ice VII curve has the limit
  751 K where the guideline says 715 K (C30).
* `region_ps` and `region_hs` reject slightly negative entropies, which compressed cold water has
  (C28, and the hypothesis on s in C55).
* `psat_s` leaves the range of `tsat_p` near both ends (C38).
* `criticalDensity` and the heavy water functions `my_rhoT`, `tc_rhoT` convert a density as a
  pressure and a viscosity as a temperature, so their answers depend on the unit system (C06, C40).
* In region 5 `t_ph` returns its starting temperature when `h - 1` happens to be the enthalpy
  there (C19).
