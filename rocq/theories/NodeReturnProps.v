(** C68: histories with changes of numbers and types return. *)
From Verif Require Import Words ErrModel NodeModel NodeLib NodeInv NodeSpec NodeImage NodeSafeSpec NodeSafe NodeTx NodeSend NodeNr NodeNum NodeTxP NodeCalmSpec NodeCalm NodeEx NodeTypeProps NodeSafeProps.

(** Every history that is sound and calm (the number of the last awake module is changed to a free one, types are changed
    while all modules are awake) returns: no call runs for ever or into undefined behaviour. *)
Lemma calm_returns E mem ops : env_ok E -> forall pre s, SI E (map (@length byte) mem) None s -> WF E s -> store_room 0 (n_err s) -> reached E pre s -> TxI E s -> NrI E s ->
  sound_run E (map (@length byte) mem) s ops -> along E (calm E) s ops -> exists s', run E ops s = Ret (tt, s').
Proof.
  intro HE. induction ops as [|o ops IH]; intros pre s I W R Re T J Hs Hc; cbn [run]; [eexists; reflexivity|]. destruct Hs as [So Hs]. destruct Hc as [Co Hc].
  pose proof (safe_step E HE _ o s I W R So) as K. pose proof (ends_step_I E HE o pre s T Re) as N. unfold bind.
  destruct (step E o s) as [[[] s1]| |] eqn:Es; [|contradiction|contradiction]. destruct K as [I1 R1]. destruct (calm_step E HE _ _ _ _ Re T J Co Es) as [T1 J1].
  apply (IH (pre ++ [o])); auto; first [solve [eapply wf_step; eauto]|solve [eapply reached_step; eauto]|apply Hs; reflexivity|apply Hc; reflexivity].
Qed.
Theorem C68_calm_returns_partial : forall E mem st orc rate s0 ops, env_ok E -> fresh_store st -> can_init E rate (static_node E mem st orc) = Ret (ERR_OK, s0) -> roomy E s0 ->
  sound_run E (map (@length byte) mem) s0 ops -> along E (calm E) s0 ops -> exists s, run E ops s0 = Ret (tt, s).
Proof.
  intros E mem st orc rate s0 ops HE Hf B Hr Hs Hc. destruct (SI_booted E _ _ _ _ _ _ eq_refl B) as (I & W & Es).
  assert (booted E s0) as Bo by (exists mem, st, orc, rate; exact B). assert (reached E [] s0) as Re by (exists s0; split; [exact Bo|reflexivity]).
  apply (calm_returns E mem ops HE [] s0); auto; [apply (fresh_room E); [rewrite Es; exact Hf|exact Hr]|eapply TxI_booted; eauto|eapply NrI_reached; eauto].
Qed.
Print Assumptions C68_calm_returns_partial.
Lemma calm_along ops : forall s, calm_runb ops s = true -> along E0 (calm E0) s ops.
Proof.
  induction ops as [|o ops IH]; intros s H; cbn [calm_runb along] in *; [exact I|]. apply andb_prop in H. destruct H as [H1 H2]. split; [apply calmb_ok, H1|].
  intros s' Es. rewrite Es in H2. apply IH, H2.
Qed.
Example C68_calm_returns_partial_case : fresh_store slot_empty /\ can_init E0 250 (static_node E0 mem0 slot_empty []) = Ret (ERR_OK, boot0) /\ roomy E0 boot0 /\
  sound_run E0 (map (@length byte) mem0) boot0 safe_ops /\ along E0 (calm E0) boot0 safe_ops /\ Forall (plain E0) (firstn 4 safe_ops) /\ ~ plain E0 change49.
Proof.
  split; [left; reflexivity|]. split; [vm_compute; reflexivity|]. split; [exact I|]. split; [apply safe_ops_sound|]. split; [apply calm_along; vm_compute; reflexivity|].
  split; [apply plainb_ok; vm_compute; reflexivity|]. unfold change49, sysmsg, plain. vm_compute. intro H. assert (true = true) as K by reflexivity. tauto.
Qed.
