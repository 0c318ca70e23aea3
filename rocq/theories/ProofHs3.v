(** * Compressed water is recognised by region_hs. *)
From Coq Require Import ZArith Reals Lra Lia List Bool.
From Coquelicot Require Import Coquelicot.
From Interval Require Import Tactic.
From Verif Require Import Py ExactReal RealSum ModState ModUnits ModBorders ModRegion1 ModRegion4 ModSelect ModXSteam SpecUnits SpecApi
  ProofSat ProofEos ProofSatApi ProofThermo ProofMisc ProofBack ProofBackS SatS Bound1 Bound2 BoundR1 ProofMono ProofRound BoundE BoundHs.
Import ListNotations.
Open Scope R_scope.

(** ** Gibbs energy: concave in temperature and in pressure *)
Definition G1 (p T : R) : R := h1R p T - T * s1R p T.
Lemma G1_dT p T : dom1 p T -> is_derive (fun T => G1 p T) T (- s1R p T).
Proof.
  intros H. destruct (thermo1 p T H) as (A & B & _). assert (0 < T) by (unfold dom1 in H; lra). unfold G1.
  eapply is_derive_eq; [apply Dminus; [exact A | apply Dmult; [apply Did | exact B]]|]. cbv beta. generalize (Cp1R p T) (s1R p T). intros c s. field. lra.
Qed.
Lemma G1_dp p T : dom1 p T -> is_derive (fun p => G1 p T) p (1000 * v1R p T).
Proof.
  intros H. destruct (thermo1 p T H) as (_ & _ & _ & _ & A & B). unfold G1.
  eapply is_derive_eq; [apply Dminus; [exact B | apply Dmult; [apply Dconst | exact A]]|]. cbv beta. ring.
Qed.
Lemma mvt f f' a b : (forall x, Rmin a b <= x <= Rmax a b -> is_derive f x (f' x)) ->
  exists c, Rmin a b <= c <= Rmax a b /\ f b - f a = f' c * (b - a).
Proof.
  intros H. destruct (MVT_gen f a b f') as (c & Hc & E); [| |exists c; split; [exact Hc | exact E]].
  - intros x Hx. apply H. lra.
  - intros x Hx. apply derivable_continuous_pt. exists (f' x). now apply is_derive_Reals, H.
Qed.
(** tangents lie above *)
Lemma tanT p a b : (forall T, Rmin a b <= T <= Rmax a b -> dom1 p T /\ 0 < Cp1R p T) ->
  G1 p b <= G1 p a - s1R p a * (b - a).
Proof.
  intros H. destruct (mvt (G1 p) (fun T => - s1R p T) a b) as (c & Hc & E); [intros x Hx; apply G1_dT, H, Hx|].
  assert (M : (s1R p c - s1R p a) * (b - a) >= 0).
  { destruct (mvt (s1R p) (fun T => Cp1R p T / T) a c) as (d & Hd & E').
    - intros x Hx. apply (thermo1 p x). apply H. unfold Rmin, Rmax in *. destruct (Rle_dec a b), (Rle_dec a c); lra.
    - assert (Hd' : Rmin a b <= d <= Rmax a b) by (unfold Rmin, Rmax in *; destruct (Rle_dec a b), (Rle_dec a c); lra).
      destruct (H d Hd') as [D1 D2]. assert (0 < d) by (unfold dom1 in D1; lra).
      assert (Q : 0 < Cp1R p d / d) by now apply Rdiv_lt_0_compat.
      rewrite E'. assert (0 <= (c - a) * (b - a)) by (unfold Rmin, Rmax in *; destruct (Rle_dec a b); nra). nra. }
  assert (X : G1 p b - G1 p a = - s1R p c * (b - a)) by exact E. nra.
Qed.
Lemma tanp T a b : (forall p, Rmin a b <= p <= Rmax a b -> dom1 p T /\ v1p p T < 0) ->
  G1 b T <= G1 a T + 1000 * v1R a T * (b - a).
Proof.
  intros H. destruct (mvt (fun p => G1 p T) (fun p => 1000 * v1R p T) a b) as (c & Hc & E); [intros x Hx; apply G1_dp, H, Hx|].
  assert (M : (v1R c T - v1R a T) * (b - a) <= 0).
  { destruct (mvt (fun p => v1R p T) (fun p => v1p p T) a c) as (d & Hd & E').
    - intros x Hx. apply (thermo1 x T). apply H. unfold Rmin, Rmax in *. destruct (Rle_dec a b), (Rle_dec a c); lra.
    - assert (Hd' : Rmin a b <= d <= Rmax a b) by (unfold Rmin, Rmax in *; destruct (Rle_dec a b), (Rle_dec a c); lra).
      destruct (H d Hd') as [D1 D2]. rewrite E'. assert (0 <= (c - a) * (b - a)) by (unfold Rmin, Rmax in *; destruct (Rle_dec a b); nra). nra. }
  cbv beta in E. nra.
Qed.

(** ** Entropy and pressure *)
Lemma s_fall T a b : 277.5 <= T <= 623.15 -> p4R T <= a -> a <= b -> b <= 100 -> s1R b T <= s1R a T <= s1R b T + 0.02 * (b - a).
Proof.
  intros HT Ha Hab Hb. assert (P := p4_pos T ltac:(lra)).
  destruct (mvt (fun p => s1R p T) (fun p => - (1000 * v1T p T)) a b) as (c & Hc & E).
  - intros x Hx. rewrite Rmin_left, Rmax_right in Hx by lra. apply (thermo1 x T). unfold dom1. lra.
  - rewrite Rmin_left, Rmax_right in Hc by lra. cbv beta in E. assert (A := v1T_pos c T ltac:(lra) ltac:(lra)).
    destruct (tame_bounds c T ltac:(lra) ltac:(lra)) as (_ & B & _). nra.
Qed.
Lemma s_rise p a b : 273.15 <= a <= b -> b <= 623.15 -> p4R b <= p <= 100 -> s1R p a + 0.006 * (b - a) <= s1R p b.
Proof.
  intros Ha Hb Hp. assert (P := p4_pos b ltac:(lra)).
  destruct (mvt (s1R p) (fun T => Cp1R p T / T) a b) as (c & Hc & E).
  - intros x Hx. rewrite Rmin_left, Rmax_right in Hx by lra. apply (thermo1 p x). unfold dom1. lra.
  - rewrite Rmin_left, Rmax_right in Hc by lra. assert (L := p4_le c b ltac:(lra) ltac:(lra) ltac:(lra)).
    destruct (tame_bounds p c ltac:(lra) ltac:(lra)) as (_ & _ & B & _).
    assert (Q : 0.006 <= Cp1R p c / c) by (apply Rmult_le_reg_r with c; [lra|]; unfold Rdiv; rewrite Rmult_assoc, Rinv_l by lra; lra). nra.
Qed.

(** ** The saturated liquid with the same entropy *)
Lemma p4_derive T : 273 <= T <= 647.1 -> exists d, is_derive p4R T d.
Proof.
  intros H. assert (R := th_range T H). assert (A := be_derive (th T) R).
  eexists. unfold p4R. apply (Dpow (fun T => be (th T)) 4). apply comp_derive; [exact A|]. unfold th.
  apply (Dminus (fun y => y) (fun y => 0.23855557567849 / (y - 650.17534844798))); [apply Did|].
  apply (Ddiv (fun _ => 0.23855557567849) (fun y => y - 650.17534844798)); [apply Dconst | apply Dminus; [apply Did | apply Dconst] | lra].
Qed.
Lemma tm_d i j (a b : R -> R) (t a' b' : R) x : is_derive a t a' -> is_derive b t b' -> a t <> 0 -> b t <> 0 ->
  is_derive (fun t => tm i j (a t) (b t) x) t (a' * tm (S i) j (a t) (b t) x + b' * tm i (S j) (a t) (b t) x).
Proof.
  intros Ha Hb Na Nb. unfold tm. destruct x as [n [I J]]; cbn [fst snd].
  assert (Pa := comp_derive _ a t _ _ (is_derive_powerRZ (I - Z.of_nat i) (a t) Na) Ha).
  assert (Pb := comp_derive _ b t _ _ (is_derive_powerRZ (J - Z.of_nat j) (b t) Nb) Hb).
  eapply is_derive_eq.
  - apply (is_derive_extR (fun t => (D n * ff I i * ff J j) * (powerRZ (a t) (I - Z.of_nat i) * powerRZ (b t) (J - Z.of_nat j)))); [intros; ring|].
    apply Dmult; [apply Dconst|]. apply Dmult; [exact Pa | exact Pb].
  - cbv beta. rewrite <- (ff_S I i), <- (ff_S J j). replace (I - Z.of_nat (S i))%Z with (I - Z.of_nat i - 1)%Z by lia.
    replace (J - Z.of_nat (S j))%Z with (J - Z.of_nat j - 1)%Z by lia. ring.
Qed.
Lemma S2_d tab i j (a b : R -> R) (t a' b' : R) : is_derive a t a' -> is_derive b t b' -> a t <> 0 -> b t <> 0 ->
  is_derive (fun t => S2 tab i j (a t) (b t)) t (a' * S2 tab (S i) j (a t) (b t) + b' * S2 tab i (S j) (a t) (b t)).
Proof.
  intros Ha Hb Na Nb. unfold S2. induction tab as [|x tab IH]; cbn [rsum].
  - eapply is_derive_eq; [apply (@is_derive_const R_AbsRing)|]. cbn. ring.
  - eapply is_derive_eq; [apply (Dplus (fun t => tm i j (a t) (b t) x) (fun t => rsum (tm i j (a t) (b t)) tab)); [exact (tm_d i j a b t a' b' x Ha Hb Na Nb) | exact IH]|]. cbn. ring.
Qed.
Lemma g1_line i j t : 273 <= t <= 623.2 -> exists d, is_derive (fun t => g1 i j (p4R t) t) t d.
Proof.
  intros H. destruct (p4_derive t ltac:(lra)) as [d Hd]. unfold g1.
  assert (P := p4_pos t ltac:(lra)). assert (Q := p4_le t 623.2 ltac:(lra) ltac:(lra) ltac:(lra)).
  assert (Q' : p4R 623.2 < 17) by (unfold p4R, be, qA, qB, qC, th; interval).
  eexists. eapply S2_d with (a := fun t => a1 (p4R t)) (b := fun t => b1 t).
  - unfold a1. apply Dminus; [apply Dconst|]. apply Ddiv; [exact Hd | apply Dconst | lra].
  - unfold b1. apply Dminus; [apply Ddiv; [apply Dconst | apply Did | lra] | apply Dconst].
  - unfold a1. assert (p4R t / 16.53 < 2) by (apply Rmult_lt_reg_r with 16.53; [lra|]; unfold Rdiv; rewrite Rmult_assoc, Rinv_l by lra; lra). lra.
  - unfold b1. assert (2 < 1386 / t) by (apply Rmult_lt_reg_r with t; [lra|]; unfold Rdiv; rewrite Rmult_assoc, Rinv_l by lra; lra). lra.
Qed.
Lemma s_line t : 273 <= t <= 623.2 -> exists d, is_derive (fun t => s1R (p4R t) t) t d.
Proof.
  intros H. destruct (g1_line 0 1 t H) as [d Hd]. destruct (g1_line 0 0 t H) as [e He]. unfold s1R. eexists.
  apply Dmult; [apply Dconst|]. apply Dminus; [|exact He]. apply Dmult; [|exact Hd]. apply Ddiv; [apply Dconst | apply Did | lra].
Qed.
Lemma reach_ex f a b y : a <= b -> (forall x, a <= x <= b -> exists d, is_derive f x d) -> f a <= y <= f b ->
  exists x, a <= x <= b /\ f x = y.
Proof.
  intros H Hd K. apply (reach f (fun x => Derive f x) a b y H); [|exact K].
  intros x Hx. destruct (Hd x Hx) as [d D]. apply Derive_correct. now exists d.
Qed.
Lemma s_cold_low p : 0.0006 <= p <= 0.0007 -> s1R p 273.15 < 0.
Proof. intros H. reals. interval. Qed.
Lemma s_sat_273 : s1R (p4R 273.15) 273.15 < 0.
Proof. apply s_cold_low. unfold p4R, be, qA, qB, qC, th. split; interval. Qed.
Lemma p4_2775 : p4R 277.5 < 0.0009. Proof. unfold p4R, be, qA, qB, qC, th. interval. Qed.
Lemma p4_low : 0.000611 < p4R 273.15. Proof. unfold p4R, be, qA, qB, qC, th; interval. Qed.

Lemma same_s p T : 273.15 <= T <= 623.15 -> p4R T + 0.005 <= p <= 100 -> 0 <= s1R p T ->
  exists t, 273.15 <= t <= 623.15 /\ s1R (p4R t) t = s1R p T /\ p4R t + 0.0047 <= p.
Proof.
  intros HT Hp Hs. assert (N := s_sat_273). assert (L := p4_le 273.15 T ltac:(lra) ltac:(lra) ltac:(lra)). assert (L0 := p4_low).
  destruct (Rle_lt_dec 277.5 T) as [K|K].
  - destruct (reach_ex (fun t => s1R (p4R t) t) 273.15 T (s1R p T)) as (t & Ht & E); [lra | intros; apply s_line; lra | |].
    + destruct (s_fall T (p4R T) p ltac:(lra) ltac:(lra) ltac:(lra) ltac:(lra)). lra.
    + exists t. split; [lra|]. split; [exact E|]. assert (p4R t <= p4R T) by (apply p4_le; lra). lra.
  - assert (L5 := p4_2775).
    destruct (reach_ex (fun t => s1R (p4R t) t) 273.15 277.5 (s1R p T)) as (t & Ht & E); [lra | intros; apply s_line; lra | |].
    + assert (A := s_rise p T 277.5 ltac:(lra) ltac:(lra) ltac:(lra)).
      destruct (s_fall 277.5 (p4R 277.5) p ltac:(lra) ltac:(lra) ltac:(lra) ltac:(lra)). lra.
    + exists t. split; [lra|]. split; [exact E|]. assert (p4R t <= p4R 277.5) by (apply p4_le; lra). lra.
Qed.
Lemma over_boil p T : 273.15 <= T <= 623.15 -> p4R T + 0.005 <= p <= 100 -> 0 <= s1R p T ->
  H4a (s1R p T) < h1R p T /\ 273.1595 * s1R p T < h1R p T.
Proof.
  intros HT Hp Hs. destruct (same_s p T HT Hp Hs) as (t & Ht & E & D).
  assert (Pt := p4_pos t ltac:(lra)). assert (PT := p4_pos T ltac:(lra)).
  assert (A : G1 p t <= G1 p T - s1R p T * (t - T)).
  { apply tanT. intros x Hx. assert (M : 273.15 <= x <= 623.15 /\ p4R x <= p).
    { unfold Rmin, Rmax in Hx. destruct (Rle_dec T t); (split; [lra|]).
      - assert (p4R x <= p4R t) by (apply p4_le; lra). lra.
      - assert (p4R x <= p4R T) by (apply p4_le; lra). lra. }
    split; [unfold dom1; lra|]. destruct (tame_bounds p x ltac:(lra) ltac:(lra)) as (_ & _ & C & _). lra. }
  assert (B : G1 (p4R t) t <= G1 p t + 1000 * v1R p t * (p4R t - p)).
  { apply tanp. intros x Hx. rewrite Rmin_right, Rmax_left in Hx by lra. split; [unfold dom1; lra|]. apply v1p_neg; [lra|]. apply signs1; lra. }
  destruct (tame_bounds p t ltac:(lra) ltac:(lra)) as (V & _).
  destruct (liq_all t Ht) as (Q1 & Q2 & _). rewrite E in Q1, Q2. apply Rabs_def2 in Q1. unfold G1 in A, B. rewrite E in B.
  assert (W : 0.004 <= 1000 * v1R p t * (p - p4R t)) by nra.
  split; nra.
Qed.

(** ** The upper limits *)
Lemma s_100_623 : s1R 100 623.15 <= 3.397782955 /\ 3.3978 < s1R 100 623.16 /\ s1R 100 273 < 0 /\ 3.778 < s1R 16.53 623.15.
Proof. reals. repeat split; interval with (i_prec 80). Qed.
Lemma shift p T q t : dom1 p T -> 0 < p4R T <= p -> 273.15 <= T <= 623.15 -> p <= q <= 100 ->
  (forall x, Rmin t T <= x <= Rmax t T -> dom1 q x /\ 0 < Cp1R q x) -> s1R q t = s1R p T -> h1R p T + 0.95 * (q - p) <= h1R q t.
Proof.
  intros D [P0 P1] HT Hq Hx E.
  assert (A : G1 p T <= G1 q T + 1000 * v1R q T * (p - q)).
  { apply tanp. intros x Hy. rewrite Rmin_right, Rmax_left in Hy by lra. split; [unfold dom1; lra|]. apply v1p_neg; [lra|]. apply signs1; lra. }
  assert (B : G1 q T <= G1 q t - s1R q t * (T - t)) by (apply tanT; exact Hx).
  destruct (tame_bounds q T ltac:(lra) ltac:(lra)) as (V & _). unfold G1 in A, B. rewrite E in B. nra.
Qed.
Lemma under_100 p T : 273.15 <= T <= 623.15 -> p4R T <= p <= 99.8 -> 0 <= s1R p T < 3.397782955 ->
  dom1 100 (T1s 100 (s1R p T)) /\ h1R p T < h1R 100 (T1s 100 (s1R p T)).
Proof.
  intros HT Hp Hs. assert (P := p4_pos T ltac:(lra)). destruct s_100_623 as (_ & S1 & S2 & _).
  destruct (reach (s1R 100) (fun T => Cp1R 100 T / T) 273 623.16 (s1R p T)) as (t & Ht & E); [lra | | lra |].
  - intros x Hx. apply (thermo1 100 x). unfold dom1; lra.
  - assert (P4 : p4R t <= 17).
    { assert (p4R t <= p4R 623.2) by (apply p4_le; lra). assert (Q' : p4R 623.2 < 17) by (unfold p4R, be, qA, qB, qC, th; interval). lra. }
    assert (B := back1s 100 t ltac:(lra) ltac:(lra) ltac:(lra)). rewrite E in B. set (u := T1s 100 (s1R p T)) in *. clearbody u.
    apply Rabs_le_between in B.
    split; [unfold dom1; lra|].
    assert (A : h1R p T + 0.95 * (100 - p) <= h1R 100 t).
    { apply shift; [unfold dom1; lra | lra | lra | lra | | exact E]. intros x Hx.
      assert (Hx' : 272.9 <= x <= 623.2) by (unfold Rmin, Rmax in Hx; destruct (Rle_dec t T); lra).
      split; [unfold dom1; lra | apply top_all; lra]. }
    destruct (mvt (h1R 100) (Cp1R 100) u t) as (c & Hc & M).
    + intros x Hx. apply (thermo1 100 x). unfold Rmin, Rmax in Hx. unfold dom1. destruct (Rle_dec u t); lra.
    + assert (Hc' : 272.9 <= c <= 623.2) by (unfold Rmin, Rmax in Hc; destruct (Rle_dec u t); lra).
      assert (C := top_all c Hc'). assert (h1R 100 t - h1R 100 u <= 0.15) by (rewrite M; nra). lra.
Qed.
Lemma s_2775 p : 0 <= p <= 0.001 -> s1R p 277.5 < 1.
Proof. intros H. reals. interval. Qed.
Lemma under_13 p T : 273.15 <= T <= 623.05 -> p4R T + 0.005 <= p <= 99.8 -> 3.397782955 <= s1R p T ->
  s1R p T < 3.778 /\ h1R p T < B13 (s1R p T).
Proof.
  intros HT Hp Hs. assert (P := p4_pos T ltac:(lra)). destruct s_100_623 as (S0 & _ & _ & S3).
  assert (K : 277.5 <= T).
  { apply Rnot_lt_le. intros K. assert (L5 := p4_2775). assert (L : p4R T <= p4R 277.5) by (apply p4_le; lra).
    assert (L1 := p4_pos 277.5 ltac:(lra)). assert (A := s_rise p T 277.5 ltac:(lra) ltac:(lra) ltac:(lra)).
    destruct (s_fall 277.5 (p4R 277.5) p ltac:(lra) ltac:(lra) ltac:(lra) ltac:(lra)) as [B _].
    assert (C := s_2775 (p4R 277.5) ltac:(lra)). lra. }
  destruct (s_fall T (p4R T) p ltac:(lra) ltac:(lra) ltac:(lra) ltac:(lra)) as [F1 F2]. assert (S4 := satS_all T ltac:(lra)).
  split; [lra|].
  assert (PH : p4R 623.15 < 16.53) by (unfold p4R, be, qA, qB, qC, th; interval).
  assert (W : exists q, 16.53 <= q <= 100 /\ p + 0.03 <= q /\ s1R q 623.15 = s1R p T).
  { destruct (Rle_lt_dec (p + 0.03) 16.53) as [L|L].
    - destruct (reach (fun q => - s1R q 623.15) (fun q => - - (1000 * v1T q 623.15)) 16.53 100 (- s1R p T)) as (q & Hq & E); [lra | | lra |].
      + intros x Hx. apply Dopp. apply (thermo1 x 623.15). unfold dom1; lra.
      + exists q. repeat split; lra.
    - assert (A := s_rise (p + 0.03) T 623.15 ltac:(lra) ltac:(lra) ltac:(lra)).
      destruct (s_fall T p (p + 0.03) ltac:(lra) ltac:(lra) ltac:(lra) ltac:(lra)) as [F3 F4].
      destruct (reach (fun q => - s1R q 623.15) (fun q => - - (1000 * v1T q 623.15)) (p + 0.03) 100 (- s1R p T)) as (q & Hq & E); [lra | | lra |].
      + intros x Hx. apply Dopp. apply (thermo1 x 623.15). unfold dom1; lra.
      + exists q. repeat split; lra. }
  destruct W as (q & Hq & Hpq & E).
  assert (A : h1R p T + 0.95 * (q - p) <= h1R q 623.15).
  { apply shift; [unfold dom1; lra | lra | lra | lra | | exact E]. intros x Hx. rewrite Rmin_right, Rmax_left in Hx by lra.
    assert (p4R x <= p4R 623.15) by (apply p4_le; lra). split; [unfold dom1; lra|]. destruct (tame_bounds q x ltac:(lra) ltac:(lra)) as (_ & _ & C & _). lra. }
  destruct (iso_all q ltac:(lra)) as [I _]. rewrite E in I. apply Rabs_def2 in I. lra.
Qed.

(** ** The selection *)
Lemma recognised p T : 273.15 <= T <= 623.05 -> p4R T + 0.005 <= p <= 99.8 -> 0 <= s1R p T ->
  region_hs (Fin (h1R p T)) (Fin (s1R p T)) = Ok 1%Z.
Proof.
  intros HT Hp Hs. assert (P := p4_pos T ltac:(lra)). destruct (over_boil p T ltac:(lra) ltac:(lra) Hs) as [B1 B2].
  assert (U1 := under_100 p T ltac:(lra) ltac:(lra)). assert (U2 := under_13 p T ltac:(lra) ltac:(lra)).
  set (s := s1R p T) in *. set (h := h1R p T) in *. clearbody s h.
  assert (S : s <= 3.77828134) by (destruct (Rle_lt_dec 3.397782955 s); [destruct U2; lra | lra]).
  unfold region_hs. decide_s. red1. rewrite xdiv_Fin by known. cbn [bind]. red1.
  assert (Q : (D (-0.0415878)%dec - D 2500.89262%dec) / (D (-0.00015455)%dec - D 9.155759%dec) <= 273.1595).
  { clear. undec. lra. }
  rewrite (Rltb_false h) by nra. decide_s.
  rewrite h4a_closed by lra. cbn [bind]. decide_s.
  destruct (Rle_lt_dec 3.397782955 s) as [K|K].
  - decide_s. rewrite hB13_closed by lra. cbn [bind]. cbn [ltb RNum cmp]. destruct (U2 K) as [_ V]. unfold B13 in V. now rewrite Rltb_true by exact V.
  - decide_s. change (D 100%dec) with 100. rewrite T1_ps_closed. cbn [bind]. destruct (U1 ltac:(lra)) as [V1 V2]. unfold T1s in V1, V2.
    destruct (eos1 100 _ V1) as (_ & -> & _). cbn [bind ltb RNum cmp]. now rewrite Rltb_true by exact V2.
Qed.

(** ** Temperature from (h,s) *)
Lemma p4_slope x y : 273 <= x <= y -> y <= 623.15 -> p4R y <= p4R x + 0.4 * (y - x).
Proof.
  intros H K. destruct (mvt p4R (fun T => 4 * be (th T) ^ 3 * (be' (th T) * (1 + 0.23855557567849 / (T - 650.17534844798)^2))) x y) as (c & Hc & E).
  - intros z Hz. rewrite Rmin_left, Rmax_right in Hz by lra. assert (A := be_derive (th z) (th_range z ltac:(lra))).
    eapply is_derive_eq.
    + unfold p4R. apply (Dpow (fun T => be (th T)) 4). apply comp_derive; [exact A|]. unfold th.
      apply (Dminus (fun y => y) (fun y => 0.23855557567849 / (y - 650.17534844798))); [apply Did|].
      apply (Ddiv (fun _ => 0.23855557567849) (fun y => y - 650.17534844798)); [apply Dconst | apply Dminus; [apply Did | apply Dconst] | lra].
    + cbv beta. cbn [INR Nat.pred]. generalize (be' (th z)) (be (th z)). intros u v. field. lra.
  - rewrite Rmin_left, Rmax_right in Hc by lra.
    assert (B : 4 * be (th c) ^ 3 * (be' (th c) * (1 + 0.23855557567849 / (c - 650.17534844798)^2)) < 0.4).
    { assert (L : 273 <= c <= 623.15) by lra. clear - L. unfold be', be, qA, qB, qC, th. cbv zeta. interval with (i_bisect c). }
    cbv beta in E. nra.
Qed.
Lemma h1_line p T q t : (forall l, 0 <= l <= 1 -> dom1 (p + l * (q - p)) (T + l * (t - T))) ->
  exists l, 0 <= l <= 1 /\ h1R q t - h1R p T =
    (let x := p + l * (q - p) in let y := T + l * (t - T) in 1000 * (v1R x y - y * v1T x y) * (q - p) + Cp1R x y * (t - T)).
Proof.
  intros H.
  destruct (mvt (fun l => h1R (p + l * (q - p)) (T + l * (t - T)))
    (fun l => let x := p + l * (q - p) in let y := T + l * (t - T) in 1000 * (v1R x y - y * v1T x y) * (q - p) + Cp1R x y * (t - T)) 0 1) as (c & Hc & E).
  - intros l Hl. rewrite Rmin_left, Rmax_right in Hl by lra. assert (D := H l Hl). unfold dom1 in D. destruct D as [D1 D2].
    unfold h1R, g1. eapply is_derive_eq.
    + apply Dmult; [apply Dconst|]. eapply S2_d with (a := fun l => a1 (p + l * (q - p))) (b := fun l => b1 (T + l * (t - T))).
      * unfold a1. apply Dminus; [apply Dconst|]. apply Ddiv; [|apply Dconst|lra]. apply Dplus; [apply Dconst|]. apply Dmult; [apply Did | apply Dconst].
      * unfold b1. apply Dminus; [|apply Dconst]. apply Ddiv; [apply Dconst | | lra]. apply Dplus; [apply Dconst|]. apply Dmult; [apply Did | apply Dconst].
      * unfold a1. assert ((p + l * (q - p)) / 16.53 < 7.1) by (apply Rmult_lt_reg_r with 16.53; [lra|]; unfold Rdiv; rewrite Rmult_assoc, Rinv_l by lra; lra). lra.
      * unfold b1. assert (1.222 < 1386 / (T + l * (t - T))) by (apply Rmult_lt_reg_r with (T + l * (t - T)); [lra|]; unfold Rdiv; rewrite Rmult_assoc, Rinv_l by lra; lra). lra.
    + cbv beta zeta. unfold v1R, v1T, Cp1R, g1. set (x := p + l * (q - p)) in *. set (y := T + l * (t - T)) in *. clearbody x y.
      generalize (S2 tab1 1 1 (a1 x) (b1 y)) (S2 tab1 0 2 (a1 x) (b1 y)) (S2 tab1 1 0 (a1 x) (b1 y)) (S2 tab1 0 1 (a1 x) (b1 y)). intros u v w z. field. lra.
  - rewrite Rmin_left, Rmax_right in Hc by lra. exists c. split; [exact Hc|]. cbv beta zeta in *.
    replace (p + 1 * (q - p)) with q in E by ring. replace (T + 1 * (t - T)) with t in E by ring.
    replace (p + 0 * (q - p)) with p in E by ring. replace (T + 0 * (t - T)) with T in E by ring. lra.
Qed.
Lemma back_t p T q : 273.15 <= T <= 623.05 -> p4R T + 0.04 <= p <= 99.8 -> Rabs (q - p) <= 0.015 ->
  Rabs (T1h q (h1R p T) - T) <= 0.042.
Proof.
  intros HT Hp Hq. apply Rabs_le_between in Hq. assert (P := p4_pos T ltac:(lra)). assert (P0 := p4_low).
  assert (P1 := p4_le 273.15 T ltac:(lra) ltac:(lra) ltac:(lra)).
  assert (Z : forall x y, T - 0.05 <= x <= T + 0.05 -> p - 0.015 <= y <= p + 0.015 -> p4R x <= y <= 100 /\ dom1 y x).
  { intros x y Hx Hy. assert (p4R x <= p4R T + 0.4 * 0.05).
    { destruct (Rle_lt_dec x T) as [L|L]; [assert (p4R x <= p4R T) by (apply p4_le; lra); lra|].
      assert (A := p4_slope T x ltac:(lra) ltac:(lra)). lra. }
    split; [lra | unfold dom1; lra]. }
  assert (E0 : Rabs (h1R q T - h1R p T) <= 0.18).
  { destruct (mvt (fun p => h1R p T) (fun p => 1000 * (v1R p T - T * v1T p T)) p q) as (c & Hc & E).
    - intros y Hy. apply (thermo1 y T). apply Z; [lra|]. unfold Rmin, Rmax in Hy. destruct (Rle_dec p q); lra.
    - assert (Hc' : p - 0.015 <= c <= p + 0.015) by (unfold Rmin, Rmax in Hc; destruct (Rle_dec p q); lra).
      destruct (Z T c ltac:(lra) Hc') as [Z1 _]. destruct (tame_bounds c T ltac:(lra) ltac:(lra)) as (_ & _ & _ & _ & B).
      cbv beta in E. rewrite E, Rabs_mult. assert (Rabs (q - p) <= 0.015) by (apply Rabs_le_between; lra). assert (0 <= Rabs (q - p)) by apply Rabs_pos.
      assert (0 <= Rabs (1000 * (v1R c T - T * v1T c T))) by apply Rabs_pos. nra. }
  apply Rabs_le_between in E0.
  assert (Rs : forall a b, T - 0.05 <= a <= b -> b <= T + 0.05 -> h1R q a + 3.8 * (b - a) <= h1R q b).
  { intros a b Ha Hb. destruct (mvt (h1R q) (Cp1R q) a b) as (c & Hc & E).
    - intros x Hx. rewrite Rmin_left, Rmax_right in Hx by lra. apply (thermo1 q x). apply Z; lra.
    - rewrite Rmin_left, Rmax_right in Hc by lra. destruct (Z c q ltac:(lra) ltac:(lra)) as [Z1 _].
      destruct (tame_bounds q c ltac:(lra) ltac:(lra)) as (_ & _ & B & _). nra. }
  assert (R1 := Rs (T - 0.05) T ltac:(lra) ltac:(lra)). assert (R2 := Rs T (T + 0.05) ltac:(lra) ltac:(lra)).
  destruct (reach (h1R q) (Cp1R q) (T - 0.05) (T + 0.05) (h1R p T)) as (t & Ht & E); [lra | | lra |].
  - intros x Hx. apply (thermo1 q x). apply Z; lra.
  - destruct (Z t q ltac:(lra) ltac:(lra)) as [Z1 _].
    destruct (h1_line p T q t) as (l & Hl & L).
    + intros l Hl. apply Z; nra.
    + cbv zeta in L. rewrite E in L. set (x := p + l * (q - p)) in *. set (y := T + l * (t - T)) in *.
      assert (Hx : p - 0.015 <= x <= p + 0.015) by (unfold x; nra). assert (Hy : T - 0.05 <= y <= T + 0.05) by (unfold y; nra).
      destruct (Z y x Hy Hx) as [Z2 _]. destruct (tame_bounds x y ltac:(lra) ltac:(lra)) as (_ & _ & C & B & _). clearbody x y.
      assert (K : Rabs (t - T) <= 0.0165).
      { apply Rabs_def2 in B. revert B C L. generalize (1000 * (v1R x y - y * v1T x y)) (Cp1R x y). intros u c B C L. apply Rabs_le_between. split; nra. }
      assert (W := back1h q t ltac:(lra) ltac:(lra) ltac:(lra)). rewrite E in W.
      replace (T1h q (h1R p T) - T) with ((T1h q (h1R p T) - t) + (t - T)) by ring.
      eapply Rle_trans; [apply Rabs_triang|]. lra.
Qed.
