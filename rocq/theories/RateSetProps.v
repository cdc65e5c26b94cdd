(** C116: what setting a bit rate answers. *)
From Verif Require Import Words ErrModel NodeModel NodeLib NodeSpec NodeSysP NodeEx RateModel RateSpec Rate.

Lemma loop_none r l : forall err s, ~ In r l -> set_baudrate_loop l r err s = Ret (err, s).
Proof.
  induction l as [|x l IH]; intros err s H; [reflexivity|]. cbn [set_baudrate_loop]. destruct (N.eqb_spec r x) as [<-|N]; [destruct H; left; reflexivity|].
  apply IH. intro X. apply H. right. exact X.
Qed.
(** C116: a rate other than the four known ones changes nothing at all, in every mode; the answer is "no error". *)
Theorem C116_unknown_partial : forall E pre r s, reached E pre s -> r <> 125 -> r <> 250 -> r <> 500 -> r <> 1000 ->
  set_baudrate r s = Ret (ERR_OK, s) /\ step E (OpBaud r) s = Ret (tt, s).
Proof.
  intros E pre r s R N1 N2 N3 N4. assert (set_baudrate r s = Ret (ERR_OK, s)) as Q.
  { unfold set_baudrate, bind at 1, gets. rewrite (bdrtab_reached E _ _ R). apply loop_none. unfold RATES. cbn. intuition congruence. }
  split; [exact Q|]. cbn [step]. unfold ignore, bind. rewrite Q. reflexivity.
Qed.
Print Assumptions C116_unknown_partial.
(** C116: a known rate set in a running node is answered with an error; the bus and the boot loader keep their rate. *)
Theorem C116_refused_partial : forall E pre r s, reached E pre s -> h_mode (n_hw s) <> MODE_INIT -> h_mode (n_hw s) <> MODE_STOPPED ->
  r = 125 \/ r = 250 \/ r = 500 \/ r = 1000 ->
  exists s', set_baudrate r s = Ret (E_INVALID_BAUDRATE, s') /\ step E (OpBaud r) s = Ret (tt, s') /\
  bus_rate s' = bus_rate s /\ loader_rate s' = loader_rate s /\ n_log s' = n_log s.
Proof.
  intros E pre r s R M1 M2 Hr. exists (upd_cfg (fun k => set_k_bdr k r) s).
  assert (set_baudrate r s = Ret (E_INVALID_BAUDRATE, upd_cfg (fun k => set_k_bdr k r) s)) as Q.
  { assert (hw_set_baudrate r (upd_cfg (fun k => set_k_bdr k r) s) = Ret (E_INVALID_BAUDRATE, upd_cfg (fun k => set_k_bdr k r) s)) as W.
    { unfold hw_set_baudrate, bind at 1, gets. change (h_mode (n_hw (upd_cfg (fun k => set_k_bdr k r) s))) with (h_mode (n_hw s)).
      apply N.eqb_neq in M1. apply N.eqb_neq in M2. rewrite M1, M2. reflexivity. }
    assert (forall a l1 l2 err, RATES = l1 ++ a :: l2 -> ~ In a l1 -> ~ In a l2 -> r = a -> set_baudrate_loop RATES r err s = Ret (E_INVALID_BAUDRATE, upd_cfg (fun k => set_k_bdr k r) s)) as G.
    { intros a l1 l2 err -> Ha Hb <-. revert err. induction l1 as [|x l1 IH]; intro err; cbn [app set_baudrate_loop].
      - rewrite N.eqb_refl. unfold bind at 1, modify. unfold bind at 1. rewrite W. change (E_INVALID_BAUDRATE =? ERR_OK) with false. cbv iota. unfold bind, ret. apply loop_none. exact Hb.
      - destruct (N.eqb_spec r x) as [<-|N]; [destruct Ha; left; reflexivity|]. apply IH. intro X. apply Ha. right. exact X. }
    unfold set_baudrate, bind at 1, gets. rewrite (bdrtab_reached E _ _ R).
    destruct (in_split r RATES) as (l1 & l2 & Hl); [unfold RATES; cbn; intuition|].
    assert (NoDup RATES) as D by (unfold RATES; repeat constructor; cbn; intuition discriminate).
    assert (~ In r (l1 ++ l2)) as D2 by (rewrite Hl in D; apply NoDup_remove_2 in D; exact D).
    apply (G r l1 l2); auto; intro X; apply D2; apply in_or_app; auto. }
  split; [exact Q|]. split; [cbn [step]; unfold ignore, bind; rewrite Q; reflexivity|]. repeat split.
Qed.
Print Assumptions C116_refused_partial.
(** The hypotheses are met: a running node with a rate. *)
Example C116_set_case : let ops := add2 ++ [OpBaud 250; OpMode MODE_OPERATIONAL] in
  reached E0 ops (after ops) /\ h_mode (n_hw (after ops)) <> MODE_INIT /\ h_mode (n_hw (after ops)) <> MODE_STOPPED /\ bus_rate (after ops) = Some 250.
Proof.
  cbv zeta. split; [simple apply reached_after; vm_compute; reflexivity|].
  split; [vm_compute; discriminate|]. split; [vm_compute; discriminate|vm_compute; reflexivity].
Qed.
(** C116, finding: an unknown rate is not reported as an error: the call that changes nothing succeeds. *)
Theorem C116_unknown_answer_refuted : reached E0 add2 (after add2) /\ set_baudrate 123 (after add2) = Ret (ERR_OK, after add2) /\ bus_rate (after add2) = None.
Proof.
  assert (reached E0 add2 (after add2)) as R by (simple apply reached_after; vm_compute; reflexivity). split; [exact R|].
  split; [exact (proj1 (C116_unknown_partial E0 add2 123 _ R ltac:(discriminate) ltac:(discriminate) ltac:(discriminate) ltac:(discriminate)))|vm_compute; reflexivity].
Qed.
Print Assumptions C116_unknown_answer_refuted.
