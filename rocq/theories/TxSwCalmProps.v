(** C115 after histories with changes of numbers and types. *)
From Verif Require Import Words ErrModel NodeModel NodeSpec NodeTx NodeSend NodeCalmSpec NodeCalm NodeTypeSpec NodeType NodeEx NodeTxProps NodeTypeProps TxSwModel TxSwSpec TxSw TxSwLast.

(** C115: the same after calm histories (the number of the last awake module is changed to a free one, the type of a
    configured module is changed while all modules are awake). *)
Theorem C115_calm_history_partial : forall E pre l ops s s1 s2, env_ok E -> calmly E pre s ->
  (forall c, In c l -> In (fst c) (all_objs s)) -> tx_switches l s = Ret (tt, s1) -> Forall (quiet E) ops -> run E ops s1 = Ret (tt, s2) ->
  forall id dlc data now, step E (OpFrame MO_PROCESS id dlc data now) s2 <> Hang /\
  forall s', step E (OpFrame MO_PROCESS id dlc data now) s2 = Ret (tt, s') ->
  exists new st, added s2 s' new /\ reports (m_nr (modat s2 0)) (n_err s2) st /\
    sent new = cyc_frames s2 (wanted s l) (JUNK E) ++ match pending_errors st with [] => [] | e :: _ => error_tx s2 e end.
Proof.
  intros E pre l ops s s1 s2 HE C. destruct (calmly_reached E HE _ _ C) as (R & I & _). exact (stays_I E pre l ops s s1 s2 HE I R).
Qed.
Print Assumptions C115_calm_history_partial.
Example C115_calm_history_case :
  let s := after calm_ops2 in let l := [(0, 0, false)]%nat in
  calmly E0 calm_ops2 s /\ (forall c, In c l -> In (fst c) (all_objs s)) /\ all_objs s = [(0, 0); (1, 0)]%nat /\ wanted s l = [(1, 0)]%nat /\
  exists s1 s2, tx_switches l s = Ret (tt, s1) /\ step E0 (request 0 7) s1 = Ret (tt, s2) /\
    map fst (sent (skipn (length (n_log s)) (n_log s2))) = [(1104, 8)].
Proof.
  cbn zeta. split; [apply calmly_after; vm_compute; reflexivity|]. split; [|split; [vm_compute; reflexivity|]; split; [vm_compute; reflexivity|]].
  - replace (all_objs (after calm_ops2)) with [(0, 0); (1, 0)]%nat by (vm_compute; reflexivity). intros c [<-|[]]. left. reflexivity.
  - do 2 eexists. split; [reflexivity|]. split; [vm_compute; reflexivity|]. vm_compute. reflexivity.
Qed.
