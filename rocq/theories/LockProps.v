(** C89: the lock of the error handler keeps evaluations of the controller's state apart, and skips none without reason. *)
From Verif Require Import Words LockModel LockSpec Lock.

(** Calls that interrupt one another, each running to its end before the interrupted one goes on, at any moment. *)
Theorem C89_one_at_a_time_partial : forall irq acts, one_at_a_time (l_log (lrun irq acts)).
Proof. intros irq acts. exact (alt_one _ _ (alt_run irq acts)). Qed.
Print Assumptions C89_one_at_a_time_partial.

Theorem C89_skip_partial : forall irq acts, skips_justified (l_log (lrun irq acts)).
Proof. intros irq acts. apply skips_run. Qed.
Print Assumptions C89_skip_partial.

(** Once every call has returned, the next one evaluates the state: the lock cannot stay taken. *)
Definition undisturbed : list lact :=
  [LNew; LGo false; LGo false; LGo false; LGo false; LGo false; LGo false; LGo false; LGo false; LGo false].
Theorem C89_free_partial : forall irq acts, at_rest (l_log (lrun irq acts)) ->
  exists i, l_log (lrun irq (acts ++ undisturbed)) = l_log (lrun irq acts) ++ [LCall i; LBegin i; LEnd i; LReturn i].
Proof.
  intros irq acts R. unfold lrun at 1. rewrite fold_left_app. fold (lrun irq acts).
  pose proof (way_run irq acts) as [W _]. pose proof (shape_run irq acts) as H.
  destruct (lrun irq acts) as [c lock q n log]. cbn [l_calls l_log l_lock l_irq] in *.
  assert (C : c = []).
  { destruct c as [|[i p] c]; [reflexivity|]. exfalso.
    destruct (proj1 (W i) (or_introl eq_refl)) as [C [A B]]. destruct (R i C); tauto. }
  subst c. exists n.
  assert (L : lock = false).
  { inversion H as [c' irq' B|i p c' P B|i p c' P B|up i p c' U P B E]; subst; [reflexivity|].
    exfalso. apply (app_cons_not_nil up c' (i, p)). symmetry. assumption. }
  subst lock. cbn. rewrite <- !app_assoc. cbn. rewrite ?app_nil_r. reflexivity.
Qed.
Print Assumptions C89_free_partial.

(** the interrupt comes between the test and the setting of the lock, and again during the evaluation *)
Definition storm : list lact :=
  [LNew; LGo false; LNew; LGo false; LGo false; LGo false; LGo false; LGo false; LGo true; LNew; LGo false; LGo false; LGo false;
   LGo false; LGo false; LGo false; LGo false; LGo false; LGo false; LGo false; LGo false; LGo false; LGo false; LGo false].
Example C89_case :
  l_log (lrun true storm) = [LCall 0; LCall 1; LBegin 1; LCall 2; LSkip 2; LEnd 1; LReturn 1; LBegin 0; LEnd 0; LReturn 0]%nat /\
  at_rest (l_log (lrun true storm)).
Proof.
  split; [reflexivity|]. intros i. cbn. intros H.
  repeat (destruct H as [H|H]; [try discriminate; injection H as <-; tauto|]). destruct H.
Qed.
Print Assumptions C89_case.

(** Refuted for threads: the lock is tested before interrupts are disabled, so two threads both find it free. *)
Theorem C89_threads_refuted : ~ forall acts, one_at_a_time (l_log (trun acts)).
Proof.
  intros H.
  specialize (H [TNew; TNew; TGo 0 false; TGo 1 false; TGo 0 false; TGo 0 false; TGo 0 false; TGo 0 false;
                 TGo 1 false; TGo 1 false; TGo 1 false; TGo 1 false]%nat).
  specialize (H [LCall 0; LCall 1]%nat 1%nat [] 0%nat [] eq_refl). destruct H.
Qed.
Print Assumptions C89_threads_refuted.

(** Refuted: a caller that has disabled interrupts gets them enabled, whatever happens before and whichever caller. *)
Theorem C89_irq_refuted : forall s i, l_calls s = [(i, AtTest)] -> l_lock s = false -> l_irq s = false ->
  let s' := fold_left lstep (tl undisturbed) s in
  l_log s' = l_log s ++ [LBegin i; LEnd i; LReturn i] /\ l_calls s' = [] /\ l_irq s' = true.
Proof.
  intros [c lock q n log] i C L I. cbn in C, L, I. subst. cbn. rewrite <- !app_assoc. cbn. rewrite ?app_nil_r. repeat split.
Qed.
Print Assumptions C89_irq_refuted.
Example C89_irq_ex : l_calls (lrun false [LNew]) = [(0%nat, AtTest)] /\ l_lock (lrun false [LNew]) = false /\
  l_irq (lrun false [LNew]) = false.
Proof. repeat split. Qed.
