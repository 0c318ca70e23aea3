(** * Exact arithmetic: the real numbers with a NaN.

    The formulas of the code without rounding.  NaN is there because the code returns
    [float("NaN")] and NaN flows through later operations.  There are no infinities and
    no overflow.  The exceptions are those of CPython's [float]:
    - [x / 0] raises ZeroDivisionError (also for [x] NaN);
    - [0 ** negative] raises ZeroDivisionError;
    - [negative ** non-integer] is complex ([TypeErrorComplex]);
    - [math.log(x)], [x <= 0], and [math.sqrt(x)], [x < 0], raise ValueError;
    - [x ** 0] is 1 and [1 ** y] is 1, also for NaN. *)
From Coq Require Import ZArith Reals Lra List Bool.
From Verif Require Import Py.
Open Scope R_scope.

Inductive xr := Fin (r : R) | NaN.

(** The value of a decimal literal. *)
Definition D (d : dec) : R :=
  match dec_e d with
  | Z0 => IZR (dec_m d)
  | Zpos e => IZR (dec_m d * Z.pow_pos 10 e)
  | Zneg e => IZR (dec_m d) / IZR (Z.pow_pos 10 e)
  end.

Definition lift1 (f : R -> R) (x : xr) : xr :=
  match x with Fin a => Fin (f a) | NaN => NaN end.
Definition lift2 (f : R -> R -> R) (x y : xr) : xr :=
  match x, y with Fin a, Fin b => Fin (f a b) | _, _ => NaN end.

Definition Rltb (a b : R) : bool := if Rlt_dec a b then true else false.
Definition Rleb (a b : R) : bool := if Rle_dec a b then true else false.
Definition Reqb (a b : R) : bool := if Req_EM_T a b then true else false.

Definition cmp (f : R -> R -> bool) (x y : xr) : bool :=
  match x, y with Fin a, Fin b => f a b | _, _ => false end.

Definition xdiv (x y : xr) : res xr :=
  match y with
  | NaN => Ok NaN
  | Fin b => if Reqb b 0 then Err ZeroDivisionError else Ok (lift2 Rdiv x y)
  end.

(** [x ** n], [n] an int *)
Definition xpowz (x : xr) (n : Z) : res xr :=
  match x with
  | NaN => if Z.eqb n 0 then Ok (Fin 1) else Ok NaN
  | Fin a =>
      if Reqb a 0 && Z.ltb n 0 then Err ZeroDivisionError else Ok (Fin (powerRZ a n))
  end.

(** [x ** y], [y] a float *)
Definition xpowf (x y : xr) : res xr :=
  match x, y with
  | Fin a, Fin b =>
      if Rltb 0 a then Ok (Fin (Rpower a b))
      else if Reqb b 0 then Ok (Fin 1)
      else if Reqb a 0 then
        if Rltb b 0 then Err ZeroDivisionError else Ok (Fin 0)
      else if Reqb b (IZR (Int_part b)) then Ok (Fin (powerRZ a (Int_part b)))
      else Err TypeErrorComplex
  | Fin a, NaN => if Reqb a 1 then Ok (Fin 1) else Ok NaN
  | NaN, Fin b => if Reqb b 0 then Ok (Fin 1) else Ok NaN
  | NaN, NaN => Ok NaN
  end.

Definition xlog (x : xr) : res xr :=
  match x with
  | NaN => Ok NaN
  | Fin a => if Rltb 0 a then Ok (Fin (ln a)) else Err ValueError
  end.

Definition xexp (x : xr) : res xr := Ok (lift1 Rtrigo_def.exp x).

Definition xsqrt (x : xr) : res xr :=
  match x with
  | NaN => Ok NaN
  | Fin a => if Rltb a 0 then Err ValueError else Ok (Fin (R_sqrt.sqrt a))
  end.

#[global] Instance RNum : Num := {|
  num := xr;
  lit := fun d => Fin (D d);
  nan := NaN;
  add := lift2 Rplus;
  sub := lift2 Rminus;
  mul := lift2 Rmult;
  neg := lift1 Ropp;
  fabs := lift1 Rabs;
  div := xdiv;
  powz := xpowz;
  powf := xpowf;
  log := xlog;
  exp := xexp;
  sqrt := xsqrt;
  ltb := cmp Rltb;
  leb := cmp Rleb;
  eqb := cmp Reqb
|}.

(** ** Basic facts *)

Lemma Rltb_true a b : a < b -> Rltb a b = true.
Proof. unfold Rltb; intros H; destruct (Rlt_dec a b); easy. Qed.
Lemma Rltb_false a b : b <= a -> Rltb a b = false.
Proof. unfold Rltb; intros H; destruct (Rlt_dec a b); [lra | easy]. Qed.
Lemma Rleb_true a b : a <= b -> Rleb a b = true.
Proof. unfold Rleb; intros H; destruct (Rle_dec a b); easy. Qed.
Lemma Rleb_false a b : b < a -> Rleb a b = false.
Proof. unfold Rleb; intros H; destruct (Rle_dec a b); [lra | easy]. Qed.
Lemma Reqb_true a b : a = b -> Reqb a b = true.
Proof. unfold Reqb; intros H; destruct (Req_EM_T a b); easy. Qed.
Lemma Reqb_false a b : a <> b -> Reqb a b = false.
Proof. unfold Reqb; intros H; destruct (Req_EM_T a b); easy. Qed.

Lemma Rltb_spec a b : reflect (a < b) (Rltb a b).
Proof. unfold Rltb; destruct (Rlt_dec a b); now constructor. Qed.
Lemma Rleb_spec a b : reflect (a <= b) (Rleb a b).
Proof. unfold Rleb; destruct (Rle_dec a b); now constructor. Qed.
Lemma Reqb_spec a b : reflect (a = b) (Reqb a b).
Proof. unfold Reqb; destruct (Req_EM_T a b); now constructor. Qed.

Lemma div_Fin a b : b <> 0 -> div (Num:=RNum) (Fin a) (Fin b) = Ok (Fin (a / b)).
Proof. intros H; cbn; unfold xdiv; now rewrite Reqb_false. Qed.

Lemma powz_Fin a n : (a <> 0 \/ (0 <= n)%Z) ->
  powz (Num:=RNum) (Fin a) n = Ok (Fin (powerRZ a n)).
Proof.
  intros H; cbn; unfold xpowz.
  destruct (Reqb_spec a 0) as [E|E]; [|easy].
  destruct (Z.ltb_spec n 0) as [L|L]; [|easy].
  destruct H; [easy | exfalso; apply (Z.lt_irrefl n); eauto using Z.lt_le_trans].
Qed.

Lemma powz_pos a n : powz (Num:=RNum) (Fin a) (Zpos n) = Ok (Fin (a ^ Pos.to_nat n)).
Proof. rewrite powz_Fin; [reflexivity | right; easy]. Qed.

Lemma powf_Fin a b : 0 < a -> powf (Num:=RNum) (Fin a) (Fin b) = Ok (Fin (Rpower a b)).
Proof. intros H; cbn; unfold xpowf; now rewrite Rltb_true. Qed.

Lemma log_Fin a : 0 < a -> log (Num:=RNum) (Fin a) = Ok (Fin (ln a)).
Proof. intros H; cbn; unfold xlog; now rewrite Rltb_true. Qed.

Lemma D_half : D 0.5%dec = / 2.
Proof. unfold D; simpl; lra. Qed.

Lemma D_quarter : D 0.25%dec = / 4.
Proof. unfold D; simpl; lra. Qed.

Lemma powf_half a : 0 <= a ->
  powf (Num:=RNum) (Fin a) (lit 0.5%dec) = Ok (Fin (R_sqrt.sqrt a)).
Proof.
  intros H; change (lit 0.5%dec) with (Fin (D 0.5%dec)).
  destruct (Rle_lt_or_eq_dec _ _ H) as [P|E].
  - rewrite powf_Fin by easy. rewrite D_half, Rpower_sqrt by easy. reflexivity.
  - subst a. cbn [powf RNum]. unfold xpowf.
    rewrite Rltb_false by lra. rewrite (Reqb_false (D 0.5%dec) 0) by (rewrite D_half; lra).
    rewrite Reqb_true by easy. rewrite Rltb_false by (rewrite D_half; lra).
    now rewrite sqrt_0.
Qed.
