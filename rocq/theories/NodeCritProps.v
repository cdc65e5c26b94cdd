(** C79: a module the application declares critical takes no part in the process image. *)
From Verif Require Import Words ErrModel NodeModel NodeSpec NodeEx NodeCritSpec NodeCrit.

(** C79, the frames of a cycle: a request is answered with the transmit objects of exactly the modules that take part,
    in table order, each with its converted data, and then at most one error report.
    Missing from the full claim: histories with changes of numbers or types; that only the application ends the critical
    state (refuted below). *)
Theorem C79_frames_of_a_cycle_partial : forall E pre part id dlc data now s s',
  env_ok E -> Forall (fair E) pre -> history E pre s part -> step E (OpFrame MO_PROCESS id dlc data now) s = Ret (tt, s') ->
  exists new st, added s s' new /\ reports (m_nr (modat s 0)) (n_err s) st /\
    sent new = cyc_frames s (objects part s) (JUNK E) ++ match pending_errors st with [] => [] | e :: _ => error_tx s e end.
Proof. intros E pre part id dlc data now s s' HE F H. eapply request_frames_J; eauto; [eapply pi_tx, history_PI; eauto|eapply history_reached; eauto]. Qed.
Print Assumptions C79_frames_of_a_cycle_partial.

(** C79: whatever happens next, a module that takes no part sends no process data *)
Theorem C79_critical_sends_no_data_partial : forall E pre part o s s' new p,
  env_ok E -> Forall (fair E) pre -> history E pre s part -> step E o s = Ret (tt, s') -> added s s' new ->
  (p < length (tab_of s))%nat -> part p = false ->
  forall f obj, In f (sent new) -> (obj < 4)%nat -> fst (fst f) <> data_tx_id (m_nr (modat s p)) obj.
Proof. intros E pre part o s s' new p HE F H. eapply out_quiet; eauto; [eapply pi_tx, history_PI; eauto|eapply history_NrI; eauto|eapply history_reached; eauto]. Qed.
Print Assumptions C79_critical_sends_no_data_partial.

(** C79: and no data frame sent to it reaches the memory of the application *)
Theorem C79_critical_gets_no_data_partial : forall E pre part mo id dlc data now s s' p,
  env_ok E -> Forall (fair E) pre -> history E pre s part -> owner s mo = Some p -> part p = false -> (N.to_nat (id mod 4) < m_nrx (modat s p))%nat ->
  step E (OpFrame mo id dlc data now) s = Ret (tt, s') -> n_mem s' = n_mem s.
Proof. intros E pre part mo id dlc data now s s' p HE F H. eapply out_no_delivery; eauto; [eapply pi_act, history_PI; eauto|eapply history_reached; eauto]. Qed.
Print Assumptions C79_critical_gets_no_data_partial.

(** C79: its image counts as valid in every evaluation, so that the image of the node does not wait for it *)
Theorem C79_critical_counts_as_valid_partial : forall E pre part d t s s' new p v,
  env_ok E -> Forall (fair E) pre -> history E pre s part -> part p = false -> step E (request d t) s = Ret (tt, s') -> added s s' new ->
  In (p, v) (verdicts new) -> v = true.
Proof. intros E pre part d t s s' new p v HE F H. eapply out_valid; eauto; [eapply pi_act, history_PI; eauto|eapply history_reached; eauto]. Qed.
Print Assumptions C79_critical_counts_as_valid_partial.

(** C79, the effect of a declaration after any history: the first module with that type stops or starts, receive memory
    of a stopped module is filled with the conversion of zero bytes, nothing else changes; a type no module has
    changes nothing *)
Theorem C79_effect_partial : forall E pre type on s s',
  env_ok E -> reached E pre s -> step E (OpTakePart type on) s = Ret (tt, s') ->
  match of_type s type with Some p => turned on p s s' | None => s' = s end.
Proof.
  intros E pre type on s s' HE R H. destruct (of_type s type) as [p|] eqn:Et; [eapply turned_step; eauto|].
  apply (step_part E) in H; [rewrite Et in H; exact H|]. eapply NodeHw.WF_reached; eauto.
Qed.
Print Assumptions C79_effect_partial.

(** who takes part, computed along a run *)
Fixpoint parts_run (ops : list op) (s : node) (part : nat -> bool) : nat -> bool :=
  match ops with
  | [] => part
  | o :: t => match step E0 o s with Ret (_, s') => parts_run t s' (part_after E0 s o part) | _ => part end
  end.
Definition part_of (ops : list op) : nat -> bool := parts_run ops boot0 (fun _ => true).
Lemma history_run ops : forall pre s part s', history E0 pre s part -> run E0 ops s = Ret (tt, s') -> history E0 (pre ++ ops) s' (parts_run ops s part).
Proof.
  induction ops as [|o ops IH]; intros pre s part s' H R; cbn [run parts_run] in *.
  - cbn in R. injection R as <-. rewrite app_nil_r. exact H.
  - unfold bind in R. destruct (step E0 o s) as [[[] s1]| |] eqn:St; try discriminate.
    replace (pre ++ o :: ops) with ((pre ++ [o]) ++ ops) by (rewrite <- app_assoc; reflexivity). apply IH; auto. apply H_step; auto.
Qed.
Lemma history_after ops : fine ops = true -> history E0 ops (after ops) (part_of ops).
Proof.
  intro F. destruct (reached_after ops F) as (s0 & B & R). unfold after, part_of, fine in *. pose proof boot0_ok as B0. revert F B0. generalize boot0. clear. intros b F B0.
  destruct (run E0 ops b) as [[[] s]| |] eqn:R; try discriminate. exact (history_run ops [] b (fun _ => true) s (H_start E0 b B0) R).
Qed.
Definition fairb (o : op) : bool := match o with OpTakePart type _ => negb (hd 0 type =? 0) | _ => plainb o end.
Lemma fairb_ok ops : forallb fairb ops = true -> Forall (fair E0) ops.
Proof.
  rewrite forallb_forall. intro H. apply Forall_forall. intros o Ho. specialize (H o Ho).
  assert (plainb o = true -> plain E0 o) as P by (intro Q; assert (Forall (plain E0) [o]) as X by (apply plainb_ok; cbn; rewrite Q; reflexivity); inversion X; auto).
  destruct o; cbn [fair fairb] in *; auto. apply negb_true_iff, N.eqb_neq in H. exact H.
Qed.
Ltac exc := repeat match goal with |- _ /\ _ => split end;
  try match goal with
  | |- history _ _ _ _ => simple apply history_after; vm_compute; reflexivity
  | |- Forall (fair E0) _ => simple apply fairb_ok; vm_compute; reflexivity
  end; ex.

(** two modules, the second declared critical: the next request is answered by the first module only, frames to the
    second do not arrive, its image is valid all the same; declared active again it sends again *)
Definition mod1 : list byte := [109; 111; 100; 49; 0].
Definition mod2 : list byte := [109; 111; 100; 50; 0].
Definition c79_pre : list op := add2 ++ [request 1 5; OpTakePart mod2 false].
Example C79_case : exists s s1 s2 s3 part new,
  Forall (fair E0) c79_pre /\ history E0 c79_pre s part /\ map part [0;1]%nat = [true; false] /\
  step E0 (rx_frame mo_2_0 20 0 (repeat 7 8)) s = Ret (tt, s1) /\ owner s mo_2_0 = Some 1%nat /\ n_mem s1 = n_mem s /\
  step E0 (request 1 15) s1 = Ret (tt, s2) /\ added s1 s2 new /\ map (fun f => fst (fst f)) (sent new) = [1060; 1061] /\ In (1%nat, true) (verdicts new) /\
  of_type s mod2 = Some 1%nat /\
  run E0 [OpTakePart mod2 true; request 1 25] s2 = Ret (tt, s3) /\
  map (fun f => fst (fst f)) (sent (skipn (length (n_log s2)) (n_log s3))) = [1060; 1061; 1100].
Proof.
  exists (after c79_pre), (after (c79_pre ++ [rx_frame mo_2_0 20 0 (repeat 7 8)])), (after ((c79_pre ++ [rx_frame mo_2_0 20 0 (repeat 7 8)]) ++ [request 1 15])),
    (after (((c79_pre ++ [rx_frame mo_2_0 20 0 (repeat 7 8)]) ++ [request 1 15]) ++ [OpTakePart mod2 true; request 1 25])), (part_of c79_pre),
    (delta (c79_pre ++ [rx_frame mo_2_0 20 0 (repeat 7 8)]) [request 1 15]).
  exc; vm_compute; tauto.
Qed.

(** C79, finding: not only the application ends the critical state.  The master's message 'awake' to a module that is
    awake already makes a critical module send again. *)
Theorem C79_ended_by_the_master_refuted : exists s s1 s2 new,
  reached E0 c79_pre s /\ awake s 1 = true /\ step E0 (sysmsg 20 [34;109;111;100;50;30;116;222]) s = Ret (tt, s1) /\
  step E0 (request 1 15) s1 = Ret (tt, s2) /\ added s1 s2 new /\ map (fun f => fst (fst f)) (sent new) = [1060; 1061; 1100].
Proof.
  set (w := sysmsg 20 [34;109;111;100;50;30;116;222]).
  exists (after c79_pre), (after (c79_pre ++ [w])), (after ((c79_pre ++ [w]) ++ [request 1 15])), (delta (c79_pre ++ [w]) [request 1 15]). ex.
Qed.
Print Assumptions C79_ended_by_the_master_refuted.

(** C79, finding: declaring a silent module active makes it send although it is still silent *)
Theorem C79_active_while_silent_refuted : exists s s1 s2 new,
  reached E0 (add2 ++ [OpSilent mod2 20 SILENT]) s /\ step E0 (OpTakePart mod2 true) s = Ret (tt, s1) /\ awake s1 1 = false /\
  step E0 (request 1 15) s1 = Ret (tt, s2) /\ added s1 s2 new /\ In 1100 (map (fun f => fst (fst f)) (sent new)) /\ data_tx_id (m_nr (modat s1 1)) 0 = 1100.
Proof.
  set (l := add2 ++ [OpSilent mod2 20 SILENT]). set (w := OpTakePart mod2 true).
  exists (after l), (after (l ++ [w])), (after ((l ++ [w]) ++ [request 1 15])), (delta (l ++ [w]) [request 1 15]). ex. vm_compute. tauto.
Qed.
Print Assumptions C79_active_while_silent_refuted.

(** C79, finding: of two modules with the same type only the first can be declared critical; the second goes on sending *)
Theorem C79_second_of_a_type_refuted : exists s s1 s2 new,
  reached E0 (add2 ++ [OpAdd (desc 49 1 1) 30 [3;0;0;0]%nat [7;0;0;0]%nat]) s /\ m_type (modat s 2) = m_type (modat s 0) /\ m_nr (modat s 2) = 30 /\
  step E0 (OpTakePart (m_type (modat s 2)) false) s = Ret (tt, s1) /\
  step E0 (request 1 15) s1 = Ret (tt, s2) /\ added s1 s2 new /\ map (fun f => fst (fst f)) (sent new) = [1100; 1140].
Proof.
  set (l := add2 ++ [OpAdd (desc 49 1 1) 30 [3;0;0;0]%nat [7;0;0;0]%nat]). set (w := OpTakePart (m_type (modat (after l) 2)) false).
  exists (after l), (after (l ++ [w])), (after ((l ++ [w]) ++ [request 1 15])), (delta (l ++ [w]) [request 1 15]). ex.
Qed.
Print Assumptions C79_second_of_a_type_refuted.
