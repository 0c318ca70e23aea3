(** * The saturation line in terms of entropy: h4_s in closed form. *)
From Coq Require Import ZArith Reals Lra Lia List Bool.
From Interval Require Import Tactic.
From Verif Require Import Py ExactReal RealSum ModBorders ModRegion4 ProofEos ProofSatApi ProofBack ProofMisc.
Import ListNotations.
Open Scope R_scope.

Definition tab4a := combine h4_s_ni (combine h4_s_Ii h4_s_Ji).
Definition tab4b := combine h4_s_ni_2 (combine h4_s_Ii_2 h4_s_Ji_2).
Definition tab4c := combine h4_s_ni_3 (combine h4_s_Ii_3 h4_s_Ji_3).
Definition tab4d := combine h4_s_ni_4 (combine h4_s_Ii_4 h4_s_Ji_4).
Definition H4a (s : R) : R := S2 tab4a 0 0 (s / 3.8 - 1.09) (s / 3.8 + 0.0000366) * 1700.
Definition H4b (s : R) : R := S2 tab4b 0 0 (s / 3.8 - 1.09) (s / 3.8 + 0.0000366) * 1700.
Definition H4c (s : R) : R := S2 tab4c 0 0 (s / 5.9 - 1.02) (s / 5.9 - 0.726) ^ 4 * 2800.
Definition H4d (s : R) : R := Rtrigo_def.exp (S2 tab4d 0 0 (1 / (s / 5.21) - 0.513) (s / 9.2 - 0.524)) * 2800.

Ltac decide_s := cbn [ltb leb RNum lit cmp]; repeat (first [rewrite Rltb_true by (undec; lra) | rewrite Rltb_false by (undec; lra)
  | rewrite Rleb_true by (undec; lra) | rewrite Rleb_false by (undec; lra)]; cbn [andb]).
Ltac sumup tab pa pb a b t1 t2 :=
  tabs tab;
  erewrite (for_each_sumd (fine pa pb) _ (fun x => tm 0 0 a b x));
  [ | apply fineb_ok; reflexivity | powers t1 t2 ];
  [ red1; fold (S2 tab 0 0 a b); change (D 0%dec) with 0; rewrite Rplus_0_l | ].
Lemma h4a_closed s : -0.0001545495919 < s <= 3.77828134 -> h4_s (Fin s) = Ok (Fin (H4a s)).
Proof.
  intros H. unfold h4_s. decide_s. red1. rewrite (xdiv_Fin s) by known. red1.
  sumup tab4a true true (s / 3.8 - 1.09) (s / 3.8 + 0.0000366) idtac idtac; [reflexivity|].
  change (D 3.8%dec) with 3.8. change (D 1.09%dec) with 1.09. change (D 0.0000366%dec) with 0.0000366. ring.
Qed.
Lemma h4b_closed s : 3.77828134 < s <= 4.41202148223476 -> h4_s (Fin s) = Ok (Fin (H4b s)).
Proof.
  intros H. unfold h4_s. decide_s. red1. rewrite (xdiv_Fin s) by known. red1.
  sumup tab4b true true (s / 3.8 - 1.09) (s / 3.8 + 0.0000366) idtac idtac; [reflexivity|].
  change (D 3.8%dec) with 3.8. change (D 1.09%dec) with 1.09. change (D 0.0000366%dec) with 0.0000366. ring.
Qed.
Lemma h4c_closed s : 4.41202148223476 < s <= 5.85 -> h4_s (Fin s) = Ok (Fin (H4c s)).
Proof.
  intros H. unfold h4_s. decide_s. red1. rewrite (xdiv_Fin s) by known. red1.
  sumup tab4c true true (s / 5.9 - 1.02) (s / 5.9 - 0.726) idtac idtac.
  - rewrite xpowz_nn by lia. cbn [bind]. unfold H4c. do 2 f_equal.
  - change (D 5.9%dec) with 5.9. change (D 1.02%dec) with 1.02. change (D 0.726%dec) with 0.726. ring.
Qed.
Lemma h4d_closed s : 5.85 < s < 9.155759395 -> h4_s (Fin s) = Ok (Fin (H4d s)).
Proof.
  intros H. unfold h4_s. decide_s. red1. rewrite !(xdiv_Fin s) by known. red1.
  assert (N : s / D 5.21%dec <> 0) by (change (D 5.21%dec) with 5.21; assert (0 < s / 5.21) by (apply Rdiv_lt_0_compat; lra); lra).
  tabs tab4d.
  erewrite (for_each_sumd (fine true true) _ (fun x => tm 0 0 (1 / (s / 5.21) - 0.513) (s / 9.2 - 0.524) x)).
  2: { apply fineb_ok. reflexivity. }
  2: { intros a0 [d [i j]] [Hi Hj]; cbn [fst snd] in Hi, Hj; unfold int.
       cbn [bind add sub mul neg lit div powz RNum lift1 lift2]. rewrite xdiv_Fin by exact N. cbn [bind lift2].
       rewrite xpowz_nn by (apply Hi; reflexivity). cbn [bind]. rewrite xpowz_nn by (apply Hj; reflexivity). cbn [bind lift2].
       unfold tm; cbn [fst snd ff Z.of_nat]; rewrite ?Z.sub_0_r; apply f_equal, f_equal.
       change (D 5.21%dec) with 5.21. change (D 9.2%dec) with 9.2. change (D 0.513%dec) with 0.513. change (D 0.524%dec) with 0.524.
       change (D 1%dec) with 1. ring. }
  red1. fold (S2 tab4d 0 0 (1 / (s / 5.21) - 0.513) (s / 9.2 - 0.524)). change (D 0%dec) with 0. rewrite Rplus_0_l. reflexivity.
Qed.
Ltac reals ::= cbv -[Rplus Rmult Rdiv Rminus Ropp Rinv powerRZ IZR Rlt Rle Rge Rgt ln Rpower R_sqrt.sqrt Rabs pow Rtrigo_def.exp].
Lemma H4_slivers : 2500 < H4c 5.2108877 < 2600 /\ 2500 < H4d 9.1556 < 2501.
Proof. unfold H4c, H4d. reals. repeat split; interval with (i_prec 100). Qed.
