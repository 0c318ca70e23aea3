(** * The loops of the code are bisections in the sense of ProofBisect. *)
From Coq Require Import ZArith Bool List.
From Verif Require Import Py ModBorders ModRegion1 ModRegion2 ModRegion3 ModRegion4 ModRegion5 ProofBisect.

Section Any.
Context {N : Num} {F : Fuel}.
Local Open Scope num_scope.

Definition found (r : res (option num * num * num * num)) : res num :=
  let* (x, v, hi, lo) := r in local x.

Lemma h4L_p_eq p : h4L_p p =
  (if ((p >? #0.000611657) && (p <? #22.06395))%num then
    let* Ts := T4_p p in
    if p <? #16.529 then h1_pT p Ts
    else found (bis fuel (fun v => #0.00001 <? fabs (p - v)) p3sat_h (fun v => p <? v)
                  (None, #(-1000), #2087.23500164864, #1670.858218))
  else Ok (#(-99999))).
Proof. reflexivity. Qed.

Lemma h4V_p_eq p : h4V_p p =
  (if ((p >? #0.000611657) && (p <? #22.06395))%num then
    let* Ts := T4_p p in
    if p <? #16.529 then h2_pT p Ts
    else found (bis fuel (fun v => #0.000001 <? fabs (p - v)) p3sat_h (fun v => v <? p)
                  (None, #(-1000), #2563.592004 + #5, #2087.23500164864))
  else Ok (#(-99999))).
Proof. reflexivity. Qed.

Lemma T5_ph_eq p h : T5_ph p h =
  found (bis fuel (fun v => #0.00001 <? fabs (h - v)) (h5_pT p) (fun v => h <? v)
           (None, h - #1, #2273.15, #1073.15)).
Proof. reflexivity. Qed.

Lemma T5_ps_eq p s : T5_ps p s =
  found (bis fuel (fun v => #0.00001 <? fabs (s - v)) (s5_pT p) (fun v => s <? v)
           (None, s - #1, #2273.15, #1073.15)).
Proof. reflexivity. Qed.

Lemma T3_prho_eq p rho : T3_prho p rho =
  found (bis fuel (fun v => #0.00000001 <? fabs (p - v)) (p3_rhoT rho) (fun v => p <? v)
           (None, #(-1000), #1073.15, #623.15)).
Proof. reflexivity. Qed.

(** Density from a volume. *)
Definition recip (v : num -> res num) : num -> res num := fun T => let* q := v T in div #1 q.

Ltac ext := unfold found, bis; f_equal; apply while_ext; [reflexivity|];
  intros [[[? ?] ?] ?]; unfold bis_body, recip;
  match goal with |- bind ?a _ = bind ?a _ => destruct a; [|reflexivity] end; cbn [bind];
  match goal with |- bind ?a _ = _ => destruct a; reflexivity end.

Lemma T5_prho_eq p rho : T5_prho p rho =
  found (bis fuel (fun v => #0.000001 <? fabs (rho - v)) (recip (v2_pT p)) (fun v => v <? rho)
           (None, #(-1000), #2073.15, #1073.15)).
Proof. unfold T5_prho. ext. Qed.

Lemma T1_prho_eq p rho : T1_prho p rho =
  (let* hi := T4_p p in
   found (bis fuel (fun v => #0.00001 <? fabs (rho - v)) (recip (v1_pT p)) (fun v => v <? rho)
           (None, #(-1000), hi, #273.15))).
Proof. unfold T1_prho. destruct (T4_p p) as [hi|]; [|reflexivity]. cbn [bind]. ext. Qed.

Lemma T2_prho_eq p rho : T2_prho p rho =
  (let* lo := (if p <? #16.5292 then T4_p p else B23T_p p) in
   found (bis fuel (fun v => #0.000001 <? fabs (rho - v)) (recip (v2_pT p)) (fun v => v <? rho)
           (None, #(-1000), #1073.15, lo))).
Proof. unfold T2_prho. destruct (if p <? #16.5292 then T4_p p else B23T_p p) as [lo|]; [|reflexivity]. cbn [bind]. ext. Qed.

Lemma h3_pT_eq p T : h3_pT p T =
  (let* (Low_Bound, High_Bound) :=
      if p <? #22.06395 then
        let* Ts := T4_p p in
        if T <=? Ts then
          let* High_Bound := h4L_p p in
          let* Low_Bound := h1_pT p #623.15 in
          Ok (Low_Bound, High_Bound)
        else
          let* Low_Bound := h4V_p p in
          let* q5 := B23T_p p in
          let* High_Bound := h2_pT p q5 in
          Ok (Low_Bound, High_Bound)
      else
        let* Low_Bound := h1_pT p #623.15 in
        let* q8 := B23T_p p in
        let* High_Bound := h2_pT p q8 in
        Ok (Low_Bound, High_Bound) in
   found (bis fuel (fun v => #0.00001 <? fabs (T - v)) (T3_ph p) (fun v => T <? v)
           (None, T + #1, High_Bound, Low_Bound))).
Proof. reflexivity. Qed.
End Any.
