(** * C17: with a C library whose [pow] and [log] answer anything, the search of T4_hs can run forever. *)
From Coq Require Import ZArith List Bool Lia.
From Flocq Require Import Core BinarySingleNaN.
From Verif Require Import Py Float64 ModState ModUnits ModBorders ModRegion1 ModRegion2 ModRegion3 ModRegion4 ModRegion5 ModSelect ModXSteam ProofSettle.
Open Scope Z_scope.

(** A [pow] that does not look at its first argument. *)
Definition odd_pow (y : f64) : f64 :=
  if Bltb y fzero then fzero
  else if Beqb y (flit 2%dec) then flit 10000000000%dec
  else if Beqb y (flit 3%dec) then flit 1e20%dec
  else flit 1.1%dec.
Definition odd_libm : libm := {| c_pow := fun _ => odd_pow; c_log := fun _ => flit (-1e60)%dec; c_exp := fun _ => fone |}.
Local Notation L := odd_libm.
#[local] Instance N0 : Num := FNum L.

Definition hh : f64 := @B754_finite 53 1024 false 8796093022208000 (-42) eq_refl.
Definition ss : f64 := @B754_finite 53 1024 false 5629499534213120 (-50) eq_refl.
Definition p0 : f64 := @B754_finite 53 1024 false 8589934592000000 (-33) eq_refl.
Definition m0 : f64 := @B754_finite 53 1024 true 6871878954123264 (-36) eq_refl.
Definition low0 : f64 := @B754_finite 53 1024 false 5635480314518268 (-63) eq_refl.
Definition top : f64 := @B754_finite 53 1024 false 7166405670226249 78 eq_refl.
Definition T0 : f64 := @B754_finite 53 1024 false 8313071243604175 (-43) eq_refl.
Definition v0 : f64 := @B754_finite 53 1024 false 7675316387729760 7 eq_refl.
Definition s0 : f64 := @B754_finite 53 1024 false 5514363291662107 146 eq_refl.

Definition view (r : res f64) := match r with Ok y => Some (B2SF y) | Err _ => None end.
Lemma view_ok r x : view r = Some (B2SF x) -> r = Ok x.
Proof. destruct r as [y|e]; [|discriminate]. cbn [view]. intros H. injection H as H. f_equal. now apply B2SF_inj. Qed.

(** Positive, finite, neither 0 nor 1, above 1: [pow] goes to the library. *)
Definition plain (x : f64) : bool :=
  negb (fis_nan x) && negb (fis_inf x) && negb (Beqb x fzero) && negb (Bltb x fzero) && negb (Beqb x fone) &&
  negb (Beqb (Babs x) fone) && Bltb fone (Babs x).
Lemma pow_plain x x' y : plain x = true -> plain x' = true -> fpow L x y = fpow L x' y.
Proof.
  unfold plain. rewrite !andb_true_iff, !negb_true_iff. intros [[[[[[A1 A2] A3] A4] A5] A6] A7] [[[[[[B1 B2] B3] B4] B5] B6] B7].
  unfold fpow. now rewrite A1, B1, A2, B2, A3, B3, A4, B4, A5, B5, A6, B6, A7, B7.
Qed.
Lemma for_ext {X S} (f g : S -> X -> res S) l s : (forall s x, f s x = g s x) -> for_each l s f = for_each l s g.
Proof. intros H. revert s. induction l as [|x l IH]; intros s; [reflexivity|]. cbn [for_each]. rewrite H. destruct (g s x); [apply IH | reflexivity]. Qed.
Lemma p0_plain : plain p0 = true. Proof. vm_compute. reflexivity. Qed.

Definition off (p : f64) : f64 := match div p #100%num with Ok ps => (ps + #0.128)%num | Err _ => fzero end.
Definition below (p : f64) : bool := match powz p 2, powz p 3 with
  | Ok q1, Ok q2 => (m0 <? #2014.64004206875 + #3.74696550136983 * p - #2.19921901054187e-02 * q1 + #8.7513168600995e-05 * q2)%num
  | _, _ => false end.
Definition good (p : f64) : bool := plain p && plain (off p) && below p && negb ((p <? #22.06395) || (p <? #16.529))%num.
Lemma p0_good : good p0 = true. Proof. vm_compute. reflexivity. Qed.
Lemma at_T0 : T4_p p0 = Ok T0. Proof. apply view_ok. vm_compute. reflexivity. Qed.
Lemma at_v0 : v3_ph p0 m0 = Ok v0. Proof. apply view_ok. vm_compute. reflexivity. Qed.
Lemma at_s0 : (let* q := div #1 v0 in s3_rhoT q T0) = Ok s0. Proof. apply view_ok. vm_compute. reflexivity. Qed.
Lemma T4_good p : good p = true -> T4_p p = Ok T0.
Proof.
  intros G. rewrite <- at_T0. unfold good in G. rewrite !andb_true_iff in G. destruct G as [[[G _] _] _].
  unfold T4_p. cbn [powf N0 FNum]. now rewrite (pow_plain p p0 _ G p0_plain).
Qed.
Lemma v3_good p : good p = true -> v3_ph p m0 = Ok v0.
Proof.
  intros G. rewrite <- at_v0. pose proof p0_good as G0. unfold good in G, G0. rewrite !andb_true_iff in G, G0.
  destruct G as [[[_ G] B] _]. destruct G0 as [[[_ G0] B0] _].
  assert (X : forall p, below p = true -> v3_ph p m0 =
    let* ps := div p #100 in let* hs := div m0 #2100 in
    let* vs := for_each (combine (slice 0 32 v3_ph_ni) (combine (slice 0 32 v3_ph_Ii) (slice 0 32 v3_ph_Ji))) #0 (fun vs '(ni_i, (Ii_i, Ji_i)) =>
        let* q5 := powz (ps + #0.128)%num Ii_i in
        let* q6 := powz (hs - #0.727)%num Ji_i in
        Ok (vs + (lit ni_i) * q5 * q6)%num) in Ok (vs * #0.0028)%num).
  { clear. intros p B. unfold v3_ph. unfold below in B. destruct (@powz N0 p 2) as [q1|]; [|discriminate]. destruct (@powz N0 p 3) as [q2|]; [|discriminate].
    cbn [bind]. cbv zeta. rewrite B. reflexivity. }
  rewrite (X p B), (X p0 B0). clear X B B0. unfold off in G, G0.
  destruct (@div N0 p _) as [ps|]; [|discriminate G]. destruct (@div N0 p0 _) as [ps0|]; [|discriminate G0]. cbn [bind].
  destruct (@div N0 m0 _) as [hs|]; [|reflexivity]. cbn [bind]. erewrite for_ext; [reflexivity|]. intros s [a [i j]]. cbn [powz N0 FNum].
  now rewrite (pow_plain _ _ _ G G0).
Qed.
Lemma h4V_good p {F : Fuel} : good p = true -> h4V_p p = Ok m0.
Proof.
  intros G. unfold good in G. rewrite andb_true_iff, negb_true_iff, orb_false_iff in G. destruct G as [_ [G _]].
  unfold h4V_p. rewrite G, andb_false_r. cbv zeta. f_equal. apply B2SF_inj. vm_compute. reflexivity.
Qed.
Lemma h4L_good p {F : Fuel} : good p = true -> h4L_p p = Ok m0.
Proof.
  intros G. unfold good in G. rewrite andb_true_iff, negb_true_iff, orb_false_iff in G. destruct G as [_ [G _]].
  unfold h4L_p. rewrite G, andb_false_r. cbv zeta. f_equal. apply B2SF_inj. vm_compute. reflexivity.
Qed.
Lemma x4_good p {F : Fuel} : good p = true -> x4_ph p hh = Ok #1%num.
Proof. intros G. unfold x4_ph. rewrite h4V_good, h4L_good by exact G. cbn [bind]. replace (@ltb N0 m0 hh) with true by (vm_compute; reflexivity). reflexivity. Qed.

(** ** The search: its lower end climbs to the float below [top] and stays there *)
Definition far (lo : f64) : bool := Bltb (flit 0.0000001%dec) (Babs (Bminus mode_NE top lo)).
Fixpoint climbs (k : nat) (lo : f64) : bool :=
  far lo && good (mid lo top) &&
  match k with O => match B2SF (mid lo top), B2SF lo with
                    | SpecFloat.S754_finite false m e, SpecFloat.S754_finite false m' e' => (Pos.eqb m m' && Z.eqb e e')
                    | _, _ => false end
  | S k => climbs k (mid lo top) end.

Lemma climb_ok : climbs 55 low0 = true. Proof. vm_compute. reflexivity. Qed.
Lemma stays lo : climbs 0 lo = true -> mid lo top = lo.
Proof.
  cbn [climbs]. rewrite andb_true_iff. intros [_ H]. apply B2SF_inj.
  destruct (B2SF (mid lo top)) as [?|?| |[|] m e]; try discriminate H. destruct (B2SF lo) as [?|?| |[|] m' e']; try discriminate H.
  rewrite andb_true_iff, Pos.eqb_eq, Z.eqb_eq in H. destruct H as [-> ->]. reflexivity.
Qed.
Lemma climb_more k lo : climbs k lo = true -> far lo = true /\ good (mid lo top) = true /\ exists k', climbs k' (mid lo top) = true.
Proof.
  destruct k as [|k]; cbn [climbs]; intros H.
  - assert (S := stays lo H). rewrite !andb_true_iff in H. destruct H as [[H1 H2] H3]. split; [exact H1|]. split; [exact H2|].
    exists 0%nat. rewrite S. cbn [climbs]. rewrite S, H1. rewrite S in H2, H3. now rewrite H2, H3.
  - rewrite !andb_true_iff in H. destruct H as [[H1 H2] H3]. split; [exact H1|]. split; [exact H2|]. now exists k.
Qed.
Lemma sum_s0 : (#1 * s0 + (#1 - #1) * s0)%num = s0 :> f64. Proof. apply B2SF_inj. vm_compute. reflexivity. Qed.
Lemma p3_top : p3sat_h hh = Ok top. Proof. apply view_ok. vm_compute. reflexivity. Qed.
Lemma low_eq : flit 0.000611%dec = low0. Proof. apply B2SF_inj. vm_compute. reflexivity. Qed.

Lemma no_end {F : Fuel} : T4_hs hh ss = Err Diverges.
Proof.
  unfold T4_hs. replace (@ltb N0 #5.210887825%num ss && @ltb N0 ss #9.15546555571324%num)%bool with false by (vm_compute; reflexivity).
  replace (@ltb N0 (#(-0.0001545495919))%num ss && @leb N0 ss #3.77828134%num)%bool with false by (vm_compute; reflexivity).
  replace (@ltb N0 #3.77828134%num ss && @leb N0 ss #4.41202148223476%num)%bool with false by (vm_compute; reflexivity).
  replace (@ltb N0 #4.41202148223476%num ss && @leb N0 ss #5.210887663%num)%bool with true by (vm_compute; reflexivity).
  rewrite p3_top. cbn [bind local]. cbv zeta.
  match goal with |- bind (while fuel ?c ?b ?s) _ = _ => enough (W : while fuel c b s = Err Diverges) by (rewrite W; reflexivity); set (C := c); set (B := b) end.
  change (@lit N0 0.000611%dec) with (flit 0.000611%dec). rewrite low_eq.
  assert (G : forall n k p sss lo, climbs k lo = true -> (sss = flit (-1000)%dec \/ sss = s0) -> while n C B (p, sss, top, lo) = Err Diverges).
  { induction n as [|n IH]; intros k p sss lo K S; [reflexivity|]. destruct (climb_more k lo K) as (H1 & H2 & k' & H3).
    cbn [while]. unfold C at 1. cbn [bind fabs sub ltb lit N0 FNum]. unfold far in H1. rewrite H1.
    replace (Bltb (flit 0.000001%dec) (Babs (Bminus mode_NE ss sss))) with true by (destruct S as [-> | ->]; vm_compute; reflexivity).
    cbn [andb]. unfold B at 1. cbn [div add lit N0 FNum]. rewrite mid_div. cbn [bind].
    rewrite (T4_good _ H2). cbn [bind]. rewrite (x4_good _ H2). cbn [bind].
    assert (Q : (@ltb N0 (mid lo top) #16.529%num) = false).
    { unfold good in H2. rewrite !andb_true_iff, negb_true_iff, orb_false_iff in H2. apply H2. }
    cbn [ltb lit N0 FNum] in Q |- *. rewrite Q. rewrite (h4V_good _ H2), (h4L_good _ H2). cbn [bind]. rewrite (v3_good _ H2). cbn [bind].
    pose proof at_s0 as A. cbn [div lit N0 FNum] in A. destruct (fdiv _ v0) as [q|]; [|discriminate A]. cbn [bind] in A |- *. rewrite A. cbn [bind].
    cbv zeta. pose proof sum_s0 as Z0. cbn [add sub mul lit N0 FNum] in Z0 |- *. rewrite Z0.
    replace (Bltb s0 ss) with false by (vm_compute; reflexivity). apply (IH k'); [exact H3 | now right]. }
  apply (G fuel 55%nat); [exact climb_ok | now left].
Qed.
Lemma hs_no_end : exists L h s, is_finite h = true /\ is_finite s = true /\
  forall F : Fuel, t_hs (N := FNum L) BARE h s = Err Diverges /\ p_hs (N := FNum L) BARE h s = Err Diverges.
Proof.
  exists L, hh, ss. split; [reflexivity|]. split; [reflexivity|]. intros F.
  assert (R : region_hs (N := FNum L) hh ss = Ok 4) by (vm_compute; reflexivity).
  split.
  - unfold t_hs. change (toSIunit_h (N := FNum L) BARE hh) with (@Ok f64 hh). change (toSIunit_s (N := FNum L) BARE ss) with (@Ok f64 ss).
    cbn [bind]. rewrite R. cbn [bind Z.eqb Pos.eqb]. now rewrite no_end.
  - unfold p_hs. change (toSIunit_h (N := FNum L) BARE hh) with (@Ok f64 hh). change (toSIunit_s (N := FNum L) BARE ss) with (@Ok f64 ss).
    cbn [bind]. rewrite R. cbn [bind Z.eqb Pos.eqb]. now rewrite no_end.
Qed.
