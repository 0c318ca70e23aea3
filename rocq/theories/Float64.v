(** * Binary64 arithmetic as CPython's [float] uses it.

    The carrier is Flocq's [binary_float 53 1024] (one NaN; payloads are not observable
    in Python arithmetic).  [+ - * /], comparisons and square root are IEEE-754, round to
    nearest even.  [pow], [log], [exp] of the C library are a parameter: nothing is assumed
    about them.  What is modelled is what CPython does before and after calling them
    (Objects/floatobject.c float_pow, Modules/mathmodule.c math_1, m_log). *)
From Coq Require Import ZArith Reals Bool SpecFloat Lia.
From Flocq Require Import Core BinarySingleNaN.
From Verif Require Import Py ExactReal.
Open Scope Z_scope.

Notation prec := 53 (only parsing).
Notation emax := 1024 (only parsing).
Definition f64 := binary_float prec emax.

Lemma Hprec : Prec_gt_0 prec. Proof. reflexivity. Qed.
Lemma Hmax : Prec_lt_emax prec emax. Proof. reflexivity. Qed.
#[global] Existing Instance Hprec.
#[global] Existing Instance Hmax.

Notation fexp64 := (SpecFloat.fexp prec emax) (only parsing).
(** Rounding to nearest even in binary64, ignoring overflow. *)
Definition rnd (x : R) : R := round radix2 fexp64 ZnearestE x.

(** ** Decimal literals: correctly rounded *)
Definition frac (s : bool) (n d : positive) : f64 :=
  SF2B _ (proj1 (Bdiv_correct_aux prec emax Hprec Hmax mode_NE s n 0 false d 0)).

Definition flit (x : dec) : f64 :=
  let go (s : bool) (m : positive) :=
    match dec_e x with
    | Z0 => frac s m 1
    | Zpos e => frac s (m * Z.to_pos (10 ^ Zpos e)) 1
    | Zneg e => frac s m (Z.to_pos (10 ^ Zpos e))
    end in
  match dec_m x with
  | Z0 => B754_zero false
  | Zpos m => go false m
  | Zneg m => go true m
  end.

(** ** CPython's checks around the C library *)
Record libm := { c_pow : f64 -> f64 -> f64; c_log : f64 -> f64; c_exp : f64 -> f64 }.

Definition fzero : f64 := B754_zero false.
Definition fone : f64 := Bone.
Definition finf (s : bool) : f64 := B754_infinity s.

Definition fis_nan (x : f64) : bool := is_nan x.
Definition fis_inf (x : f64) : bool := match x with B754_infinity _ => true | _ => false end.

(** The integer a float is equal to, if any. *)
Definition fint (x : f64) : option Z :=
  match x with
  | B754_zero _ => Some 0
  | B754_finite s m e _ =>
      if 0 <=? e then Some (cond_Zopp s (Zpos m * 2 ^ e))
      else if Zpos m mod 2 ^ (- e) =? 0 then Some (cond_Zopp s (Zpos m / 2 ^ (- e)))
      else None
  | _ => None
  end.
Definition fodd (x : f64) : bool := match fint x with Some z => Z.odd z | None => false end.

Section Libm.
Variable L : libm.

Definition fdiv (a b : f64) : res f64 :=
  if Beqb b fzero then Err ZeroDivisionError else Ok (Bdiv mode_NE a b).

Definition fpow (iv iw : f64) : res f64 :=
  if Beqb iw fzero then Ok fone
  else if fis_nan iv then Ok iv
  else if fis_nan iw then Ok (if Beqb iv fone then fone else iw)
  else if fis_inf iw then
    let iv := Babs iv in
    Ok (if Beqb iv fone then fone
        else if Bool.eqb (Bltb fzero iw) (Bltb fone iv) then Babs iw else fzero)
  else if fis_inf iv then
    Ok (if Bltb fzero iw then (if fodd iw then iv else Babs iv)
        else (if fodd iw then B754_zero (Bsign iv) else fzero))
  else if Beqb iv fzero then
    if Bltb iw fzero then Err ZeroDivisionError
    else Ok (if fodd iw then iv else fzero)
  else
    let call (iv : f64) (negate : bool) :=
      if Beqb iv fone then Ok (if negate then Bopp fone else fone)
      else
        let ix := c_pow L iv iw in
        if fis_inf ix then Err OverflowError else Ok (if negate then Bopp ix else ix) in
    if Bltb iv fzero then
      match fint iw with
      | None => Err TypeErrorComplex
      | Some z => call (Bopp iv) (Z.odd z)
      end
    else call iv false.

Definition flog (x : f64) : res f64 :=
  if fis_nan x then Ok x
  else if Bltb fzero x then
    if fis_inf x then Ok x
    else let r := c_log L x in
         if fis_nan r || fis_inf r then Err ValueError else Ok r
  else Err ValueError.

Definition fexpo (x : f64) : res f64 :=
  let r := c_exp L x in
  if fis_nan x then Ok x
  else if fis_nan r then Err ValueError
  else if fis_inf r && negb (fis_inf x) then Err OverflowError
  else Ok r.

Definition fsqrt (x : f64) : res f64 :=
  if fis_nan x then Ok x
  else if Bltb x fzero then Err ValueError
  else Ok (Bsqrt mode_NE x).

Definition FNum : Num := {|
  num := f64;
  lit := flit;
  nan := B754_nan;
  add := Bplus mode_NE;
  sub := Bminus mode_NE;
  mul := Bmult mode_NE;
  neg := @Bopp prec emax;
  fabs := @Babs prec emax;
  div := fdiv;
  powz := fun x n => fpow x (flit (mkdec n 0));
  powf := fpow;
  log := flog;
  exp := fexpo;
  sqrt := fsqrt;
  ltb := @Bltb prec emax;
  leb := @Bleb prec emax;
  eqb := @Beqb prec emax
|}.
End Libm.

(** ** Literals are correctly rounded *)

Lemma frac_correct s n d :
  (Rabs (rnd (IZR (cond_Zopp s (Zpos n)) / IZR (Zpos d))) < bpow radix2 emax)%R ->
  B2R (frac s n d) = rnd (IZR (cond_Zopp s (Zpos n)) / IZR (Zpos d)) /\
  is_finite (frac s n d) = true.
Proof.
  intros H. unfold frac. rewrite B2R_SF2B, is_finite_SF2B.
  destruct (Bdiv_correct_aux prec emax Hprec Hmax mode_NE s n 0 false d 0) as [Hv Hc].
  cbv zeta in Hc |- *.
  replace (F2R (Float radix2 (cond_Zopp s (Zpos n)) 0)) with (IZR (cond_Zopp s (Zpos n))) in Hc
    by (unfold F2R; simpl; ring).
  replace (F2R (Float radix2 (cond_Zopp false (Zpos d)) 0)) with (IZR (Zpos d)) in Hc
    by (unfold F2R; simpl; ring).
  change (round radix2 fexp64 (round_mode mode_NE)) with rnd in Hc.
  rewrite Rlt_bool_true in Hc by exact H.
  destruct Hc as (Hr & Hf & _). now split.
Qed.

(** The float of a decimal literal is the binary64 number nearest to its value. *)
Theorem flit_correct (x : dec) :
  (Rabs (rnd (D x)) < bpow radix2 emax)%R ->
  B2R (flit x) = rnd (D x) /\ is_finite (flit x) = true.
Proof.
  assert (HP : forall e, Zpos (Z.to_pos (10 ^ Zpos e)) = Z.pow_pos 10 e).
  { intros e. rewrite Z2Pos.id; [reflexivity|]. apply Z.pow_pos_nonneg; easy. }
  destruct x as [m e]. unfold flit, D; cbn [dec_m dec_e].
  destruct m as [|m|m].
  - replace (match e with 0 => 0%R | Zpos e0 => IZR (0 * Z.pow_pos 10 e0)
             | Zneg e0 => (0 / IZR (Z.pow_pos 10 e0))%R end) with 0%R.
    2:{ destruct e; [easy | now rewrite Z.mul_0_l | unfold Rdiv; now rewrite Rmult_0_l]. }
    intros _. unfold rnd. now rewrite round_0 by apply valid_rnd_N.
  - destruct e as [|e|e]; intros H.
    + replace (IZR (Zpos m)) with (IZR (cond_Zopp false (Zpos m)) / IZR 1)%R in * by (simpl; field).
      now apply frac_correct.
    + replace (IZR (Zpos m * Z.pow_pos 10 e))
        with (IZR (cond_Zopp false (Zpos (m * Z.to_pos (10 ^ Zpos e)))) / IZR 1)%R in *.
      2:{ cbn [cond_Zopp]. rewrite Pos2Z.inj_mul, HP. field. }
      now apply frac_correct.
    + rewrite <- HP in *. change (Zpos m) with (cond_Zopp false (Zpos m)) in *.
      now apply frac_correct.
  - destruct e as [|e|e]; intros H.
    + replace (IZR (Zneg m)) with (IZR (cond_Zopp true (Zpos m)) / IZR 1)%R in * by (simpl; field).
      now apply frac_correct.
    + replace (IZR (Zneg m * Z.pow_pos 10 e))
        with (IZR (cond_Zopp true (Zpos (m * Z.to_pos (10 ^ Zpos e)))) / IZR 1)%R in *.
      2:{ cbn [cond_Zopp]. rewrite Pos2Z.inj_mul, HP.
          rewrite <- Z.mul_opp_l. change (- Zpos m) with (Zneg m). field. }
      now apply frac_correct.
    + rewrite <- HP in *. change (Zneg m) with (cond_Zopp true (Zpos m)) in *.
      now apply frac_correct.
Qed.

Example flit_tenth : B2SF (flit (mkdec 1 (-1))) = S754_finite false 7205759403792794 (-56).
Proof. reflexivity. Qed.
