(** Covering a rectangle by boxes that are found beforehand: the search is not trusted,
    only the check of the leaves is. *)
From Coq Require Import ZArith Reals Lra List Bool PrimFloat.
From Interval Require Import Interval.Float.
From Verif Require Import Bound BoundEos.
Open Scope R_scope.

Inductive tree := Lf | Sa (t t' : tree) | Sb (t t' : tree).
Fixpoint cover (f : Z -> Z -> Z -> Z -> bool) (t : tree) (l u l' u' : Z) : bool :=
  match t with
  | Lf => f l u l' u'
  | Sa a b => let m := ((l + u) / 2)%Z in if cover f a l m l' u' then cover f b m u l' u' else false
  | Sb a b => let m := ((l' + u') / 2)%Z in if cover f a l u l' m then cover f b l u m u' else false
  end.
Lemma cover_ok (P : R -> R -> Prop) f :
  (forall l u l' u', f l u l' u' = true ->
     forall x y, gr l <= x <= gr u -> gr l' <= y <= gr u' -> P x y) ->
  forall t l u l' u', cover f t l u l' u' = true ->
    forall x y, gr l <= x <= gr u -> gr l' <= y <= gr u' -> P x y.
Proof.
  intros H t. induction t as [|a IHa b IHb|a IHa b IHb]; intros l u l' u' C x y Hx Hy; cbn [cover] in C.
  - now apply (H l u l' u' C).
  - set (m := ((l + u) / 2)%Z) in *. destruct (cover f a l m l' u') eqn:Cl; [|discriminate].
    destruct (Rle_dec x (gr m)) as [L|L]; [apply (IHa _ _ _ _ Cl) | apply (IHb _ _ _ _ C)]; lra.
  - set (m := ((l' + u') / 2)%Z) in *. destruct (cover f a l u l' m) eqn:Cl; [|discriminate].
    destruct (Rle_dec y (gr m)) as [L|L]; [apply (IHa _ _ _ _ Cl) | apply (IHb _ _ _ _ C)]; lra.
Qed.

(** ** The search *)
Definition mag (X : itv) : float :=
  match X with
  | Ibnd l u => if (is_nan l || is_nan u)%bool then infinity else if (abs l <? abs u)%float then abs u else abs l
  | _ => infinity
  end.
(** [f] gives the size of the worst error over a box, or [None] when there is nothing to check *)
Definition worse (x y : option float) : option float :=
  match x, y with
  | None, _ => y
  | _, None => x
  | Some a, Some b => Some (if (a <? b)%float then b else a)
  end.
Fixpoint search (n : nat) (f : Z -> Z -> Z -> Z -> option float) (tol : float) (l u l' u' : Z) : tree :=
  match f l u l' u' with
  | None => Lf
  | Some e =>
    if (e <? tol)%float then Lf else
    match n with
    | O => Lf
    | S n' =>
      let m := ((l + u) / 2)%Z in let m' := ((l' + u') / 2)%Z in
      let qa := worse (f l m l' u') (f m u l' u') in
      let qb := worse (f l u l' m') (f l u m' u') in
      let first := match qa, qb with
        | None, _ => true
        | _, None => false
        | Some a, Some b => if ((a =? infinity) && (b =? infinity))%float then (u' - l' <? u - l)%Z else (a <? b)%float
        end in
      if first then Sa (search n' f tol l m l' u') (search n' f tol m u l' u')
      else Sb (search n' f tol l u l' m') (search n' f tol l u m' u')
    end
  end.
