(** Proofs: unit system selection, history. *)
From Coq Require Import ZArith List Bool Lia.
From Verif Require Import Py ModState SpecApi.
Import ListNotations.

Lemma set_unitSystem_valid st o us :
  valid_unit o = Some us -> set_unitSystem st o = (Ok tt, Some us).
Proof.
  unfold valid_unit, set_unitSystem, is_int.
  destruct o as [| |z| |]; try discriminate.
  destruct z as [|[p|[p|p|]|]|]; try discriminate; intros [= <-]; reflexivity.
Qed.
Lemma set_unitSystem_invalid st o :
  valid_unit o = None -> set_unitSystem st o = (Err ValueError, st).
Proof.
  unfold valid_unit, set_unitSystem, is_int.
  destruct o as [| |z| |]; try reflexivity.
  destruct z as [|[p|[p|p|]|]|]; try discriminate; reflexivity.
Qed.
Lemma construct_valid o us : valid_unit o = Some us -> construct o = Ok us.
Proof. intros H; unfold construct; now rewrite (set_unitSystem_valid _ _ _ H). Qed.
Lemma construct_invalid o : valid_unit o = None -> construct o = Err ValueError.
Proof. intros H; unfold construct; now rewrite (set_unitSystem_invalid _ _ H). Qed.

Lemma nth_update i j us st :
  nth_error (update i us st) j =
  if Nat.eqb i j then (match nth_error st j with Some _ => Some us | None => None end)
  else nth_error st j.
Proof.
  revert i j; induction st as [|x st IH]; intros [|i] [|j]; cbn; try reflexivity.
  - now destruct (Nat.eqb i j).
  - apply IH.
Qed.
Lemma length_update i us st : length (update i us st) = length st.
Proof. revert i; induction st as [|x st IH]; intros [|i]; cbn; auto. Qed.

Section Calls.
Context {N : Num} {F : Fuel}.

Lemma run_app st a b :
  run st (a ++ b) =
  (fst (run (fst (run st a)) b), snd (run st a) ++ snd (run (fst (run st a)) b)).
Proof.
  revert st; induction a as [|o a IH]; intros st; cbn.
  - now destruct (run st b).
  - destruct (step st o) as [st1 x]. rewrite IH.
    destruct (run st1 a) as [st2 l]; cbn. now destruct (run st2 b).
Qed.

Lemma run_selected st ops i :
  nth_error (fst (run st ops)) i = selected (length st) i (nth_error st i) ops.
Proof.
  revert st; induction ops as [|o ops IH]; intros st; cbn [run selected]; [reflexivity|].
  destruct o as [u|j c|j u]; cbn [step].
  - destruct (valid_unit u) as [us|] eqn:V.
    + rewrite (construct_valid _ _ V).
      specialize (IH (st ++ [us])). destruct (run (st ++ [us]) ops) as [st2 l]; cbn [fst] in *.
      rewrite IH. rewrite app_length, Nat.add_1_r. f_equal.
      destruct (Nat.eqb_spec (length st) i) as [<-|Hne].
      * rewrite nth_error_app2 by lia. now rewrite Nat.sub_diag.
      * destruct (Nat.lt_ge_cases i (length st)) as [Hl|Hg].
        -- now rewrite nth_error_app1.
        -- rewrite (proj2 (nth_error_None st i)) by lia.
           apply nth_error_None. rewrite app_length; cbn; lia.
    + rewrite (construct_invalid _ V). specialize (IH st). now destruct (run st ops).
  - specialize (IH st). destruct (nth_error st j); now destruct (run st ops).
  - destruct (nth_error st j) as [us|] eqn:Ej.
    + destruct (valid_unit u) as [us'|] eqn:V.
      * rewrite (set_unitSystem_valid _ _ _ V). specialize (IH (update j us' st)).
        destruct (run (update j us' st) ops) as [st2 l]; cbn [fst] in *.
        rewrite IH, length_update, nth_update.
        destruct (Nat.eqb_spec j i) as [<-|Hne]; [now rewrite Ej|].
        now destruct (nth_error st i).
      * rewrite (set_unitSystem_invalid _ _ V).
        assert (U : update j us st = st).
        { clear -Ej. revert j Ej; induction st as [|x st IH]; intros [|j]; cbn; try easy.
          - now intros [= ->].
          - intros H; now rewrite IH. }
        rewrite U. specialize (IH st). now destruct (run st ops).
    + specialize (IH st). destruct (run st ops) as [st2 l]; cbn [fst] in *. rewrite IH.
      destruct (valid_unit u) as [us'|]; [|reflexivity].
      destruct (nth_error st i) as [x|] eqn:Ei; [|reflexivity].
      destruct (Nat.eqb_spec j i) as [<-|]; [congruence | reflexivity].
Qed.

(** The answer to a question asked after any program. *)
Lemma history_independence ops i c :
  snd (run [] (ops ++ [Ask i c])) =
  snd (run [] ops) ++
  [match selected 0 i None ops with
   | Some us => Answered (answer us c)
   | None => NoObject
   end].
Proof.
  rewrite run_app. cbn [run]. destruct (step _ _) as [s a] eqn:E; cbn [snd fst]. f_equal.
  pose proof (run_selected [] ops i) as H. rewrite (proj2 (nth_error_None [] i)) in H by (cbn; lia).
  cbn [length] in H. rewrite <- H. cbn [step] in E.
  destruct (nth_error (fst (run [] ops)) i); now injection E as <- <-.
Qed.

(** An object freshly constructed in that unit system answers the same. *)
Lemma fresh_answer o us c : valid_unit o = Some us ->
  snd (run [] [New o; Ask 0 c]) = [Created 0; Answered (answer us c)].
Proof. intros H; cbn. now rewrite (construct_valid _ _ H). Qed.
End Calls.
