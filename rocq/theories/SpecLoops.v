(** * The loops of the code: how many rounds are enough. *)
From Coq Require Import ZArith Reals List Bool.
From Flocq Require Import BinarySingleNaN.
From Verif Require Import Py ExactReal Float64 ModState ModUnits SpecUnits SpecApi.
Import ListNotations.
Open Scope Z_scope.

(** Calls that reach a bisection whose bracket depends on the input (region 3 in (p,T), and
    region 1 and 2 in (p,rho)); all others start from fixed brackets. *)
Definition open_bracket (f : fn2) : bool :=
  match f with
  | F_Cp_pt | F_Cv_pt | F_h_pt | F_my_pt | F_pr_pt | F_rho_pt | F_s_pt | F_tc_pt | F_u_pt | F_v_pt | F_w_pt
  | F_h_prho => true
  | _ => false
  end.
Definition rounds {N : Num} (c : call) : Z :=
  match c with
  | Call2 f _ _ => if open_bracket f then 5300 else 160
  | _ => 160
  end.

(** The functions of enthalpy and entropy. *)
Definition of_hs (f : fn2) : bool := match f with F_t_hs | F_p_hs | F_tc_hs => true | _ => false end.
Definition asks_hs {N : Num} (c : call) : bool := match c with Call2 f _ _ => of_hs f | _ => false end.

(** ** The saturation pressure as a function of enthalpy at the border of region 3
    (IAPWS supplementary release on backward equations for region 3, Eq. (10)). *)
Open Scope R_scope.
Definition p3sat_table : list (R * (nat * nat)) :=
  [ (0.600073641753024, (0, 0)%nat);
    (-9.36203654849857, (1, 1)%nat);
    (24.6590798594147, (1, 3)%nat);
    (-107.014222858224, (1, 4)%nat);
    (-91582131580576.8, (1, 36)%nat);
    (-8623.32011700662, (5, 3)%nat);
    (-23.5837344740032, (7, 0)%nat);
    (2.52304969384128e17, (8, 24)%nat);
    (-3.89718771997719e18, (14, 16)%nat);
    (-3.33775713645296e22, (20, 16)%nat);
    (35649946963.6328, (22, 3)%nat);
    (-1.48547544720641e26, (24, 18)%nat);
    (3.30611514838798e18, (28, 8)%nat);
    (8.13641294467829e37, (36, 24)%nat) ].
(** MPa from kJ/kg *)
Definition P3sat (h : R) : R :=
  22 * fold_right (fun '(n, (i, j)) s => n * (h / 2600 - 1.02) ^ i * (h / 2600 - 0.608) ^ j + s) 0 p3sat_table.

(** Pressures, in the caller's units, for which the saturation enthalpies are found by iteration. *)
Definition dense (us : unit_system) (p : R) : Prop := 16.529 <= to_si us Qp p < 22.06395.

(** ** Any arithmetic *)
Section Any.
Context {N : Num}.
Local Open Scope num_scope.
(** The same pressures in any arithmetic (MPa). *)
Definition in_dense (p : num) : Prop := (#0.000611657 <? p) = true /\ (p <? #22.06395) = true /\ (p <? #16.529) = false.
(** [x] meets the equation [f x = target] to the tolerance, or its value equals one met earlier, or the value [start]. *)
Definition met (f : num -> res num) (target start tol x : num) : Prop :=
  exists v, f x = Ok v /\
    ((tol <? fabs (target - v)) = false \/ exists u, (u =? v) = true /\ (u = start \/ exists y, f y = Ok u)).
End Any.

(** ** binary64 *)
Definition fbetween (a b x : f64) : Prop := is_finite x = true /\ Bleb a x = true /\ Bleb x b = true.
(** At most 2^28 in size, or not a number. *)
Definition tame (q : f64) : Prop := Bleb (Babs q) (flit 268435456%dec) = true \/ q = B754_nan.
