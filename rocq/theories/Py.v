(** * Python fragment used by pyXSteam: results, exceptions, numbers, loops.

    The model of pyXSteam (files [Mod*.v]) is written once, over an abstract
    arithmetic [Num].  It is then read in two ways:
    - [Float64.v]   : IEEE-754 binary64, the arithmetic CPython really uses;
    - [ExactReal.v] : exact real arithmetic, the formulas the code transcribes. *)
From Coq Require Import ZArith List Bool Number.
Import ListNotations.
Open Scope Z_scope.

(** ** Decimal literals

    A Python numeric literal is kept as mantissa and power of ten, exactly as
    written in the source; nothing is rounded at this stage. *)
Record dec := mkdec { dec_m : Z; dec_e : Z }.

Definition dec_of_number (n : Number.number) : option dec :=
  match n with
  | Number.Decimal (Decimal.Decimal i f) =>
      Some (mkdec (Z.of_int (Decimal.app_int i f)) (- Z.of_nat (Decimal.nb_digits f)))
  | Number.Decimal (Decimal.DecimalExp i f e) =>
      Some (mkdec (Z.of_int (Decimal.app_int i f))
                  (Z.of_int e - Z.of_nat (Decimal.nb_digits f)))
  | Number.Hexadecimal _ => None
  end.

Definition number_of_dec (d : dec) : option Number.number :=
  Some (Number.Decimal
          (Decimal.DecimalExp (Z.to_int (dec_m d)) Decimal.Nil (Z.to_int (dec_e d)))).

Declare Scope dec_scope.
Delimit Scope dec_scope with dec.
Bind Scope dec_scope with dec.
Number Notation dec dec_of_number number_of_dec : dec_scope.

(** ** Results and exceptions

    [TypeErrorComplex] stands for the [TypeError] a program gets after Python 3
    turned [negative ** fraction] into a complex number: every such value is
    afterwards compared, passed to [math.fabs] or to [float()], all of which
    reject complex numbers.  [Diverges] is not a Python exception: it is what
    the model answers when a [while] loop used up its fuel. *)
Inductive exn : Set :=
| ZeroDivisionError
| ValueError
| OverflowError
| TypeErrorComplex
| UnboundLocalError
| IndexError
| Diverges.

Inductive res (A : Type) : Type :=
| Ok (a : A)
| Err (e : exn).
Arguments Ok {A} a.
Arguments Err {A} e.

Definition bind {A B} (r : res A) (k : A -> res B) : res B :=
  match r with Ok a => k a | Err e => Err e end.

Declare Scope py_scope.
Delimit Scope py_scope with py.
Notation "'let*' x := e 'in' k" := (bind e (fun x => k))
  (at level 200, x pattern, e at level 200, k at level 200, right associativity,
   format "'[v' 'let*'  x  :=  e  'in' '//' k ']'").

(** [and] / [or] of Python when the right operand may raise: short circuit. *)
Definition and_then (a : res bool) (b : res bool) : res bool :=
  let* x := a in if x then b else Ok false.
Definition or_else (a : res bool) (b : res bool) : res bool :=
  let* x := a in if x then Ok true else b.

(** ** Arithmetic

    Operations that cannot raise are plain functions; [/], [**] and the [math]
    functions may raise.  [powz] is [**] with a Python [int] exponent, [powf]
    with a [float] exponent.  Python [int] operands of [+ - * /] are converted
    to [num] first, which is exact for the integers occurring in the code. *)
Class Num := mkNum {
  num : Type;
  lit : dec -> num;
  nan : num;
  add : num -> num -> num;
  sub : num -> num -> num;
  mul : num -> num -> num;
  neg : num -> num;
  fabs : num -> num;
  div : num -> num -> res num;
  powz : num -> Z -> res num;
  powf : num -> num -> res num;
  log : num -> res num;
  exp : num -> res num;
  sqrt : num -> res num;
  ltb : num -> num -> bool;
  leb : num -> num -> bool;
  eqb : num -> num -> bool
}.

Definition int {N : Num} (z : Z) : num := lit (mkdec z 0).

Declare Scope num_scope.
Delimit Scope num_scope with num.
Bind Scope num_scope with num.
Infix "+" := add : num_scope.
Infix "-" := sub : num_scope.
Infix "*" := mul : num_scope.
Notation "- x" := (neg x) : num_scope.
Infix "<?" := ltb : num_scope.
Infix "<=?" := leb : num_scope.
Infix "=?" := eqb : num_scope.
Notation "x >? y" := (ltb y x) (only parsing) : num_scope.
Notation "x >=? y" := (leb y x) (only parsing) : num_scope.
Notation "# d" := (lit d%dec) (at level 1, d at level 0, format "# d") : num_scope.

(** ** Loops *)

(** Number of iterations the model grants to each [while] loop. *)
Class Fuel := fuel : nat.

(** [for x in l: s = body s x] *)
Fixpoint for_each {X S : Type} (l : list X) (s : S) (body : S -> X -> res S) : res S :=
  match l with
  | [] => Ok s
  | x :: l' => let* s' := body s x in for_each l' s' body
  end.

(** Entries [a] to [b-1] of a table: the indices visited by [range(a, b)]. *)
Definition slice {X} (a b : nat) (l : list X) : list X := firstn (b - a) (skipn a l).

(** [range(a, b)] as a list of Python ints. *)
Definition zrange (a b : nat) : list Z := map Z.of_nat (seq a (b - a)).

(** [l[i]] *)
Definition item {X} (l : list X) (i : Z) : res X :=
  match nth_error l (Z.to_nat i) with Some x => Ok x | None => Err IndexError end.

(** One pass through a loop body: go on with the next state, or [break]. *)
Inductive flow (S : Type) : Type :=
| Next (s : S)
| Break (s : S).
Arguments Next {S} s.
Arguments Break {S} s.

(** [while cond: body] *)
Fixpoint while {S : Type} (n : nat) (cond : S -> res bool) (body : S -> res (flow S)) (s : S)
  : res S :=
  match n with
  | O => Err Diverges
  | S n' =>
      let* c := cond s in
      if c then
        let* f := body s in
        match f with
        | Next s' => while n' cond body s'
        | Break s' => Ok s'
        end
      else Ok s
  end.

(** An [if] statement in which some branches [return] and others go on. *)
Inductive outcome (R S : Type) : Type :=
| Return (r : R)
| Proceed (s : S).
Arguments Return {R S} r.
Arguments Proceed {R S} s.

(** Reading a local variable that may not have been assigned yet. *)
Definition local {A} (v : option A) : res A :=
  match v with Some a => Ok a | None => Err UnboundLocalError end.

(** ** Python objects compared with [is]

    Enough of the Python object universe to say what [unitSystem is 1] or
    [hint is None] do.  CPython keeps one object per small int, so two small
    ints are identical iff they are equal; [True] is a different object from
    [1], and so is [1.0]. *)
Inductive pyobj : Set :=
| PNone
| PBool (b : bool)
| PInt (z : Z)
| PFloat (d : dec)
| PStr (code : list Z).

Definition is_int (o : pyobj) (z : Z) : bool :=
  match o with PInt z' => Z.eqb z' z | _ => false end.
Definition is_None (o : pyobj) : bool :=
  match o with PNone => true | _ => false end.
