(** C95: a node sends only in answer to requests of the master, and not more than a known number of frames for each. *)
From Verif Require Import Words ErrModel NodeModel NodeLib NodeSpec NodeSysP NodeSend NodeTx NodeTxP NodeCalmSpec NodeCalm NodeEx NodeTxProps NodeTypeProps NodeLoadSpec NodeLoad.

(** after every history, whatever happens next: at most the frames of the table [allowance] *)
Theorem C95_per_operation : forall E pre o s s' new,
  env_ok E -> reached E pre s -> step E o s = Ret (tt, s') -> added s s' new -> (length (sent new) <= allowance E s o)%nat.
Proof. intros E pre o s s' new HE R H A. eapply upto_added; [eapply em_step; eauto|exact A]. Qed.
Print Assumptions C95_per_operation.

(** hence the frames of every history are bounded by its process requests and system messages, whatever the application does and
    however many frames are lost *)
Theorem C95_history : forall E c pre ops s s' new,
  env_ok E -> reached E pre s -> fits c (n_err s) -> run E ops s = Ret (tt, s') -> added s s' new ->
  (length (sent new) <= list_sum (map (worst E c) ops))%nat.
Proof. intros E c pre ops s s' new HE R F H A. eapply upto_added; [eapply run_load; eauto|exact A]. Qed.
Print Assumptions C95_history.

Lemma cyc_frames_length s l : forall can, (length (cyc_frames s l can) <= length l)%nat.
Proof.
  induction l as [|[p o] l IH]; intro can; cbn [cyc_frames]; [cbn; lia|]. destruct (convert s p o can) as [[can' e]|]; [|cbn; lia].
  rewrite app_length. specialize (IH can'). destruct (e =? ERR_OK); cbn [length]; lia.
Qed.
(** after a calm history a process request is answered with at most the transmit objects of the modules that are awake and one error *)
Theorem C95_request : forall E pre id dlc data now s s' new,
  env_ok E -> calmly E pre s -> step E (OpFrame MO_PROCESS id dlc data now) s = Ret (tt, s') -> added s s' new ->
  (length (sent new) <= length (enabled s) + 1)%nat.
Proof.
  intros E pre id dlc data now s s' new HE C H A. destruct (calmly_reached E HE _ _ C) as (R & I & _).
  destruct (request_frames_I E HE _ _ _ _ _ _ _ I R H) as (n & st & A' & _ & S). unfold added in *. rewrite A in A'. apply app_inv_head in A'. subst n.
  rewrite S, app_length. pose proof (cyc_frames_length s (enabled s) (JUNK E)). destruct (pending_errors st) as [|e l]; cbn [length]; [lia|].
  unfold error_tx. destruct (speaks s (error_nr s e)); cbn [length]; lia.
Qed.
Print Assumptions C95_request.

(** a status request for all with an error in the memory uses its whole allowance of three frames, a version request too *)
Example C95_case :
  let pre := add2 ++ [sysmsg 20 [99;0;0;0;0;0;0;0]] in let f := sysmsg 1 [1;0;0;0;0;0;0;0] in let g := sysmsg 1 [5;0;0;0;0;0;0;0] in
  reached E0 pre (after pre) /\ step E0 f (after pre) = Ret (tt, after (pre ++ [f])) /\ added (after pre) (after (pre ++ [f])) (delta pre [f]) /\
  length (sent (delta pre [f])) = allowance E0 (after pre) f /\ allowance E0 (after pre) f = 3%nat /\
  step E0 g (after pre) = Ret (tt, after (pre ++ [g])) /\ length (sent (delta pre [g])) = allowance E0 (after pre) g /\
  fits 1 (n_err (after pre)) /\ list_sum (map (worst E0 1) [OpSilentCb None; f; request 0 5; OpError 5 1 10]) = 50%nat.
Proof. cbn zeta. ex. vm_compute. lia. Qed.
