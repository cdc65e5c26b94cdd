(** Changes of module numbers (C17). *)
From Verif Require Import Words WordsFacts Bits ErrModel NodeModel NodeLib NodeInv NodeSpec NodeHw NodeCnt NodeSync NodeSilent NodePres NodeSysP NodeTx NodeNum NodeTxP.

Section Nr.
Variable E : env.
Lemma nr_base m : m_nr (base m) = m_nr m.
Proof. reflexivity. Qed.
Lemma nr_type p t : pres (same_f m_nr) (change_type E p t).
Proof. unfold change_type. repeat ((simple apply same_cnfg; exact nr_base) || pres_tac1); same_leaf. Qed.
(** every frame but a change-number message leaves all numbers *)
Lemma numbers_unchanged mo id dlc data now s s' : (sys_mo E mo = true -> dlc = 8 -> byte_at data 0 <> 32) ->
  step E (OpFrame mo id dlc data now) s = Ret (tt, s') -> same_f m_nr s s'.
Proof.
  intro Hm. revert s s'. enough (pres (same_f m_nr) (step E (OpFrame mo id dlc data now))) as P by (intros s s'; apply P).
  assert (kernel E (same_f m_nr) (OpFrame mo id dlc data now) -> pres (same_f m_nr) (step E (OpFrame mo id dlc data now))) as K by (apply (kernel_step E); try typeclasses eauto; intros; reflexivity).
  destruct (sys_mo E mo) eqn:Hs; [|apply K; cbn [kernel]; unfold sys_mo in Hs; rewrite Hs; discriminate]. specialize (Hm eq_refl).
  destruct (N.eqb_spec dlc 8) as [Ed|Nd].
  - apply K. intros _. specialize (Hm Ed). unfold sys_kernel. change (b data 0) with (byte_at data 0). unfold cmd_of.
    repeat match goal with |- context [if byte_at data 0 =? ?k then _ else _] => destruct (N.eqb_spec (byte_at data 0) k); [cbv iota|] end; try exact I; try congruence.
    + split; [intro; apply same_mode; exact nr_base|apply same_baud; exact nr_base].
    + intro. apply same_sys_silent; exact nr_base.
    + intro. apply same_sys_silent; exact nr_base.
    + intro. apply nr_type.
  - cbn [step]. unfold frame_rx. refine (pres_bind _ _ _ _ _); [pres_tac|intro sy]. refine (pres_bind _ _ _ _ _); [destruct sy; [|pres_tac]|intro].
    { apply (kpres_on_data E (same_f m_nr)); try typeclasses eauto; intros; reflexivity. }
    refine (pres_bind _ _ _ _ _); [destruct (mo =? MO_PROCESS)%nat; [|pres_tac]|intro].
    { apply (kpres_on_process E (same_f m_nr)); try typeclasses eauto; intros; reflexivity. }
    fold (sys_mo E mo). rewrite Hs. unfold on_sys, sys_msg_rx. apply N.eqb_neq in Nd. rewrite Nd. cbn [negb]. pres_tac; reflexivity.
Qed.

Lemma strn_refl n x : strn_eq n x x = true.
Proof. revert x. induction n as [|n IH]; intro x; cbn [strn_eq]; auto. rewrite N.eqb_refl. destruct (hd 0 x =? 0); auto. Qed.
(** the numbers after the identifiers were changed *)
Lemma nr_ids_numbers type new actual s e s' p : named s type actual = Some p -> change_nr_ids E type new actual s = Ret (e, s') ->
  forall q, m_nr (modat s' q) = if (q =? p)%nat then new else m_nr (modat s q).
Proof.
  intros Hn H. unfold change_nr_ids in H. mbind H as tab s0 H0. apply gets_inv in H0. destruct H0 as [-> ->]. rewrite find_type_nr_named, Hn in H. apply named_spec in Hn. destruct Hn as (Lp & _).
  mbind H as u s1 H1. apply modify_inv in H1. assert (same_f m_nr s1 s') as S.
  { revert H. match goal with |- ?m s1 = _ -> _ => enough (pres (same_f m_nr) m) as P by (intro H; exact (P _ _ _ H)) end.
    repeat ((simple apply same_cnfg; exact nr_base) || (simple apply same_define_obj; exact nr_base) || (simple apply same_shared; exact nr_base) || pres_tac1); reflexivity. }
  intro q. rewrite (same_f_at m_nr _ _ q S). subst s1. rewrite modat_upd_mod by exact Lp. destruct (Nat.eqb_spec q p) as [->|]; reflexivity.
Qed.
Lemma entry_named s nr p : entry_of_nr s nr = Some p -> named s (m_type (modat s p)) nr = Some p.
Proof.
  intro H. apply entry_first in H. destruct H as (L & Q & F). apply find_first; auto.
  - rewrite strn_refl, Q, N.eqb_refl. reflexivity.
  - intros j Hj. apply andb_false_iff. right. apply N.eqb_neq, F, Hj.
Qed.
Lemma change_nr_numbers p new s e s' : entry_of_nr s (m_nr (modat s p)) = Some p -> change_nr E p new s = Ret (e, s') ->
  (forall q, m_nr (modat s' q) = m_nr (modat s q)) \/ (accepts_nr s p new /\ forall q, m_nr (modat s' q) = if (q =? p)%nat then new else m_nr (modat s q)).
Proof.
  intros He H. apply entry_named in He. unfold change_nr in H. mbind H as v s0 H0. apply gets_inv in H0. destruct H0 as [-> ->]. mbind H as m s0 H0. apply gets_inv in H0. destruct H0 as [-> ->].
  unfold accepts_nr. destruct (k_voter (n_cfg s)) as [v|].
  - assert (forall st, (change_nr_ids E (m_type (modat s p)) new (m_nr (modat s p)) >>> set_silent_awake E p st) s = Ret (e, s') -> forall q, m_nr (modat s' q) = if (q =? p)%nat then new else m_nr (modat s q)) as X.
    { intros st Hx. unfold andthen in Hx. mbind Hx as e1 s1 H1. pose proof (nr_ids_numbers _ _ _ _ _ _ _ He H1) as Q. destruct (e1 =? ERR_OK); [|apply ret_inv in Hx; destruct Hx as [_ ->]; exact Q].
      intro q. rewrite <- Q. apply (same_silent E m_nr nr_base) in Hx. apply (same_f_at m_nr _ _ q Hx). }
    destruct (N.eqb_spec (v (m_type (modat s p)) new (m_nr (modat s p))) 0) as [Z|Z]; [right; split; [auto|eapply X; eauto]|].
    destruct (N.eqb_spec (v (m_type (modat s p)) new (m_nr (modat s p))) 3) as [Z3|Z3]; [right; split; [auto|eapply X; eauto]|].
    left. apply ret_inv in H. destruct H as [_ ->]. reflexivity.
  - right. split; [exact I|]. eapply nr_ids_numbers; eauto.
Qed.
Lemma number_authorised pre mo id dlc data now s s' q : reached E pre s -> step E (OpFrame mo id dlc data now) s = Ret (tt, s') -> m_nr (modat s' q) <> m_nr (modat s q) ->
  sys_mo E mo = true /\ dlc = 8 /\ byte_at data 0 = 32 /\ id_nr id <> 1 /\ id_nr id = m_nr (modat s q) /\ has_serial E data = true /\ accepts_nr s q (byte_at data 2) /\
  m_nr (modat s' q) = byte_at data 2 /\ forall p, p <> q -> m_nr (modat s' p) = m_nr (modat s p).
Proof.
  intros R H Hq. assert (sys_mo E mo = true /\ dlc = 8 /\ byte_at data 0 = 32) as (Hm & Hd & Hc).
  { destruct (sys_mo E mo) eqn:Hm.
    - destruct (N.eq_dec dlc 8) as [->|Nd]; [destruct (N.eq_dec (byte_at data 0) 32); auto|]; exfalso; apply Hq; apply (same_f_at m_nr _ _ q); eapply numbers_unchanged; eauto; intros; congruence.
    - exfalso; apply Hq; apply (same_f_at m_nr _ _ q); eapply numbers_unchanged; eauto; intros; congruence. }
  subst dlc. split; [exact Hm|]. split; [reflexivity|]. split; [exact Hc|].
  eapply sys_step in H; eauto. assert (forall e s1, report_if e s1 = Ret (tt, s') -> forall p, m_nr (modat s' p) = m_nr (modat s1 p)) as Hr.
  { intros e s1 Hx p. assert (pres (fun a c : node => n_cfg c = n_cfg a) (report_if e)) as P by (apply pres_report_if; [split; congruence|intros; reflexivity]). apply P in Hx. unfold modat, tab_of. rewrite Hx. reflexivity. }
  assert (cmd_of (b data 0) = CNumber) as Cn by (change (b data 0) with (byte_at data 0); rewrite Hc; reflexivity).
  destruct (N.eqb_spec (id_nr id) 1) as [Q|Q].
  - exfalso. destruct (nmod s =? 0)%nat; [destruct H as (r & H & _); apply Hq; rewrite H; reflexivity|]. destruct H as (e & s1 & H1 & H2). apply Hq. rewrite (Hr _ _ H2). unfold sys_cmd in H1. mbind H1 as n s0 H0. apply gets_inv in H0. destruct H0 as [-> ->].
    rewrite Cn in H1. apply ret_inv in H1. destruct H1 as [_ ->]. reflexivity.
  - split; [exact Q|]. destruct (entry_of_nr s (id_nr id)) as [p|] eqn:En; [|exfalso; subst s'; apply Hq; reflexivity]. destruct H as (e & s1 & H1 & H2).
    unfold sys_cmd in H1. mbind H1 as n s0 H0. apply gets_inv in H0. destruct H0 as [-> ->]. rewrite Cn in H1. rewrite has_serial_spec in H1.
    destruct (has_serial E data); [|exfalso; apply Hq; rewrite (Hr _ _ H2); apply ret_inv in H1; destruct H1 as [_ ->]; reflexivity].
    pose proof (entry_lt _ _ _ En) as [Lp Qp]. rewrite <- Qp in En. apply change_nr_numbers in H1; [|exact En]. destruct H1 as [H1|[Ac H1]]; [exfalso; apply Hq; rewrite (Hr _ _ H2); apply H1|].
    rewrite (Hr _ _ H2), H1 in Hq. destruct (Nat.eqb_spec q p) as [->|Nq]; [|congruence].
    split; [congruence|]. split; [reflexivity|]. split; [exact Ac|]. split; [rewrite (Hr _ _ H2), H1, Nat.eqb_refl; reflexivity|].
    intros p' Np. rewrite (Hr _ _ H2), H1. apply Nat.eqb_neq in Np. rewrite Np. reflexivity.
Qed.
End Nr.

(** ** the send loop can be endless *)
Lemma skip_stuck n send cur xe : (xe < cur)%nat -> skip n send cur xe = (send, cur).
Proof. intro H. destruct n; cbn [skip]; auto. replace (cur <=? xe)%nat with false; [reflexivity|]. symmetry. apply Nat.leb_gt. exact H. Qed.
Lemma loop_stuck E send cur can s : send <> 0 -> N.odd send = false -> (x_end (n_tx s) < cur)%nat -> forall fuel, send_loop E fuel send cur can s = Hang.
Proof.
  intros Hs Ho Hc. induction fuel as [|fuel IH]; [reflexivity|]. cbn [send_loop]. apply N.eqb_neq in Hs. rewrite Hs. unfold bind at 1. unfold gets. rewrite skip_stuck by exact Hc. rewrite Ho. exact IH.
Qed.
Lemma loop_send E send cur can s can' s' : N.odd send = true -> send_one E cur can s = Ret (can', s') ->
  forall fuel, send_loop E (S fuel) send cur can s = send_loop E fuel (N.shiftr send 1) (S cur) can' s'.
Proof.
  intros Ho H fuel. cbn [send_loop]. replace (send =? 0) with false. 2: { symmetry. apply N.eqb_neq. intros ->. discriminate. }
  unfold bind at 1. unfold gets. cbn [skip]. rewrite Ho. rewrite andb_false_r. rewrite Ho. unfold bind. rewrite H. reflexivity.
Qed.
