(** C97: which data messages of the bus reach the user of the tunnel. *)
From Verif Require Import Words ErrModel NodeModel NodeLib NodeSpec NodeInv NodeHw NodeMo NodeCfg NodeEx LookModel AsyncModel AsyncSpec AsyncProofs TunnelModel TunLis NodeTunModel NodeTunSpec NodeTun.
From Verif Require TunnelSpec TunnelProps.

(** After an acknowledged opening, and as long as no module is added, no number or type changes and no other opening is acknowledged:
    a data message reaches the user, unchanged, exactly if it was sent to the module the tunnel was opened for. *)
Theorem C97_owner_partial : forall E pre out0 w0 o out1 w1 ops out2 w2 nr id dlc data now, env_ok E -> ASY E = true ->
  Forall fits pre -> wreached E pre out0 w0 -> ok1 (w_node w0) = true ->
  fits (WTun o) -> wstep E w0 (WTun o) = Ret (out1, w1) -> acknowledged out1 -> open_for w1 nr ->
  Forall (steady E) ops -> wrun E ops w1 = Ret (out2, w2) -> ~ acknowledged out2 -> id < 2048 -> dlc <= 8 ->
  wstep E w2 (WData id dlc data now) = Ret (if id =? async_rx_id nr then [WPort dlc data] else [], w2).
Proof.
  intros E pre out0 w0 o out1 w1 ops out2 w2 nr id dlc data now HE HA F R O K S A Op Fs Rn Na Hi Hd.
  destruct (after_open E HE HA _ _ _ _ _ _ _ _ _ _ F R O K S A Op Fs Rn Na) as [Rr Nw]. exact (narrow_data E HA nr w2 id dlc data now Rr Nw Hi Hd).
Qed.
Print Assumptions C97_owner_partial.

(** An opening is acknowledged only if the tunnel was closed and the message was sent to the number of a table entry that is not
    silent (entries that are not in use have the numbers from 125); it is opened for that number. *)
Theorem C97_acknowledged_partial : forall E w0 o out1 w1, fits (WTun o) -> wstep E w0 (WTun o) = Ret (out1, w1) -> acknowledged out1 ->
  closed w0 /\ exists nr data p, o = OMsg nr data p /\ listening (tab_of (w_node w0)) (k_silent (n_cfg (w_node w0))) nr /\ open_for w1 nr.
Proof.
  intros E w0 o out1 w1 K S A. cbn [wstep] in S. destruct (ctl_known (w_node w0) o) eqn:Ck; [|injection S as <- <-; destruct A as (x & [] & _)].
  destruct (tstep (w_tun w0) o) as [[t [e obs]]|] eqn:T; [|discriminate]. destruct (listen E obs (w_node w0)) as [[u s]| |]; try discriminate. injection S as <- <-.
  destruct A as (x & Hx & Hx2). apply in_map_iff in Hx. destruct Hx as (y & Hy & Iy). injection Hy as ->.
  destruct (TunnelProps.C48_acknowledge_partial (w_tun w0) o t e obs K T) as (nr & d & p & -> & _ & O1 & O2 & _); [apply Exists_exists; eauto|].
  split; [exact O1|]. exists nr, d, p. split; [reflexivity|]. split; [|eexists; exact O2].
  apply listening_iff. cbn [ctl_known] in Ck. destruct (LookProofs.by_nr (tab_of (w_node w0)) (k_silent (n_cfg (w_node w0))) nr) as [(q & _ & Q)|(_ & Q)].
  - rewrite Q in *. cbn [fst snd]. cbv iota beta in Ck. apply andb_true_iff in Ck. destruct Ck as [_ Ck]. apply negb_true_iff, N.eqb_neq in Ck. auto.
  - destruct (nr_valid (tab_of (w_node w0)) (k_silent (n_cfg (w_node w0))) nr) as [[q st] f]. injection Q as _ _ ->. discriminate.
Qed.
Print Assumptions C97_acknowledged_partial.

(** Refuted for every such history that closes the tunnel: what is sent to the module is still given to the user, although the tunnel is closed. *)
Theorem C97_closed_refuted : forall E pre out0 w0 o out1 w1 ops out2 w2 nr dlc data now, env_ok E -> ASY E = true ->
  Forall fits pre -> wreached E pre out0 w0 -> ok1 (w_node w0) = true ->
  fits (WTun o) -> wstep E w0 (WTun o) = Ret (out1, w1) -> acknowledged out1 -> open_for w1 nr ->
  Forall (steady E) ops -> wrun E ops w1 = Ret (out2, w2) -> ~ acknowledged out2 -> closed w2 -> dlc <= 8 ->
  wstep E w2 (WData (async_rx_id nr) dlc data now) = Ret ([WPort dlc data], w2).
Proof.
  intros E pre out0 w0 o out1 w1 ops out2 w2 nr dlc data now HE HA F R O K S A Op Fs Rn Na _ Hd.
  destruct (after_open E HE HA _ _ _ _ _ _ _ _ _ _ F R O K S A Op Fs Rn Na) as [Rr Nw].
  rewrite (narrow_data E HA nr w2 _ dlc data now Rr Nw) by (exact Hd || (destruct (lis_id E nr Rr); lia)). rewrite N.eqb_refl. reflexivity.
Qed.
Print Assumptions C97_closed_refuted.

(** Refuted for every addition of a module, with the tunnel closed, open for any module or closing: if the addition reports no error, what is
    sent to all nodes or to any of the modules reaches the user. *)
Theorem C97_addition_refuted : forall E pre out0 w0 d nr rxs txs out1 w1 i, env_ok E -> ASY E = true -> Forall fits pre -> wreached E pre out0 w0 ->
  next_pos (w_node w0) = Some i -> wstep E w0 (WNode (OpAdd d nr rxs txs)) = Ret (out1, w1) ->
  w_tun w1 = w_tun w0 /\
  (reported (w_node w0) (w_node w1) \/
   forall nr' dlc data now, 1 <= nr' <= 128 -> dlc <= 8 -> nr' = 1 \/ (exists p, (p <= i)%nat /\ m_nr (modat (w_node w1) p) = nr') ->
   wstep E w1 (WData (async_rx_id nr') dlc data now) = Ret ([WPort dlc data], w1)).
Proof.
  intros E pre out0 w0 d nr rxs txs out1 w1 i HE HA F R Np S. pose proof (ok_reached E HE HA _ _ _ F R) as K.
  assert (okn E (w_node w1)) as K1 by (refine (ok_step E HE HA w0 (WNode (OpAdd d nr rxs txs)) out1 w1 _ K S); exact I).
  cbn [wstep] in S. destruct (step E (OpAdd d nr rxs txs) (w_node w0)) as [[[] s]| |] eqn:Q; try discriminate. injection S as <- <-. cbn [w_node w_tun] in *.
  split; [reflexivity|]. destruct (hears_added_now E HE HA d nr rxs txs (w_node w0) s i K Q Np) as [A|[_ A]]; [left; exact A|right].
  intros nr' dlc data now Rr Hd Hn. destruct (A nr' Rr Hn) as (_ & _ & P). apply (heard_data E HA); [apply K1|exact (P HA)|exact Hd].
Qed.
Print Assumptions C97_addition_refuted.

(** Refuted for every opening during which the driver refuses the new definition of the message object: the opening is acknowledged nevertheless,
    and no acceptance filter changes. *)
Theorem C97_driver_refuses_refuted : forall E w0 nr peer hi lo p, env_ok E -> 1 <= nr <= 127 -> is_byte peer -> is_byte hi -> is_byte lo ->
  closed w0 -> listening (tab_of (w_node w0)) (k_silent (n_cfg (w_node w0))) nr -> po_open p = 0 -> n_orc (w_node w0) <> [] -> ok1 (w_node w0) = false ->
  exists out w1, wstep E w0 (WTun (OMsg nr (TunnelSpec.open_msg peer 0 hi lo) p)) = Ret (out, w1) /\ acknowledged out /\ open_for w1 nr /\
  forall mo id, passes (w_node w1) mo id <-> passes (w_node w0) mo id.
Proof.
  intros E w0 nr peer hi lo p HE Rn Hp Hh Hl Cl Li Po No O. cbn [wstep].
  assert (ctl_known (w_node w0) (OMsg nr (TunnelSpec.open_msg peer 0 hi lo) p) = true) as ->.
  { cbn [ctl_known]. apply listening_iff in Li. destruct (nr_valid (tab_of (w_node w0)) (k_silent (n_cfg (w_node w0))) nr) as [[q st] f]. cbn in Li. destruct Li as [-> L]. apply N.eqb_neq in L. rewrite L. reflexivity. }
  destruct (TunnelProps.C48_granted_partial (w_tun w0) nr peer hi lo p Rn Hp Hh Hl Cl Po) as (t' & T & Ow). rewrite T.
  destruct (refused_define E HE (0x602 + 4 * (nr - 1)) (w_node w0) ltac:(lia) No O) as (s & D & Hf). cbn [listen]. unfold bind at 1. rewrite D. cbn [listen TunnelSpec.open_ack].
  eexists. eexists. split; [reflexivity|]. split; [|split].
  - eexists. split; [right; left; reflexivity|]. eexists. eexists. reflexivity.
  - exists peer. exact Ow.
  - intros mo id. cbn [w_node]. unfold passes. rewrite Hf. reflexivity.
Qed.
Print Assumptions C97_driver_refuses_refuted.

(** ** concrete cases: modules 10 and 20 *)
Definition w_add : tnode := TNode (after add2) tun_zero.
Definition open10 : wop := WTun (OMsg 10 (TunnelSpec.open_msg 99 0 0 0) (POuts 0 0 0)).
Definition close10 : wop := WTun (OMsg 10 (TunnelSpec.close_msg 99) (POuts 0 0 0)).
Definition after_w (ops : list wop) : tnode := match wrun E0 ops w_add with Ret (_, w) => w | _ => w_add end.
Definition told (ops : list wop) : list wobs := match wrun E0 ops w_add with Ret (o, _) => o | _ => [] end.
Lemma wrun_app E a b : forall w, wrun E (a ++ b) w = match wrun E a w with Ret (x, w1) => match wrun E b w1 with Ret (y, w2) => Ret (x ++ y, w2) | r => r end | r => r end.
Proof.
  induction a as [|o a IH]; intro w; cbn [app wrun]; [destruct (wrun E b w) as [[y w2]| |]; reflexivity|].
  destruct (wstep E w o) as [[x w1]| |]; try reflexivity. rewrite IH. destruct (wrun E a w1) as [[y w2]| |]; try reflexivity. destruct (wrun E b w2) as [[z w3]| |]; try reflexivity. rewrite app_assoc. reflexivity.
Qed.
Lemma wrun_nodes E ops : forall s t s', run E ops s = Ret (tt, s') -> wrun E (map WNode ops) (TNode s t) = Ret ([], TNode s' t).
Proof.
  induction ops as [|o ops IH]; intros s t s' H; cbn [map wrun run] in *.
  - apply ret_inv in H. destruct H as [_ ->]. reflexivity.
  - apply bind_inv in H. destruct H as ([] & s1 & H1 & H2). cbn [wstep w_node w_tun]. rewrite H1. rewrite (IH _ _ _ H2). reflexivity.
Qed.
Lemma reached_w : wreached E0 (map WNode add2) [] w_add.
Proof.
  assert (fine add2 = true) as F by (vm_compute; reflexivity). destruct (reached_after add2 F) as (s0 & B & R). exists s0. split; [exact B|].
  apply wrun_nodes. exact R.
Qed.
Definition data_to (nr : N) : wop := WData (async_rx_id nr) 2 [7; 8] 0.
Definition steps10 : list wop := [data_to 10; WNode (request 0 5); data_to 20; WTun (OPutc 0 65 []); close10].
(** the result of a run *)
Definition outs_of (r : res (list wobs * tnode)) : list wobs := match r with Ret (o, _) => o | _ => [] end.
Definition node_of (r : res (list wobs * tnode)) : tnode := match r with Ret (_, w) => w | _ => w_add end.
Definition ran (r : res (list wobs * tnode)) : bool := match r with Ret _ => true | _ => false end.
Lemma ran_ret r : ran r = true -> r = Ret (outs_of r, node_of r).
Proof. destruct r as [[o w]| |]; try discriminate. reflexivity. Qed.
Example C97_case : exists out1 w1 out2 w2, wstep E0 w_add open10 = Ret (out1, w1) /\ acknowledged out1 /\ open_for w1 10 /\ ok1 (w_node w_add) = true /\
  Forall (steady E0) steps10 /\ wrun E0 steps10 w1 = Ret (out2, w2) /\ port_data out2 = [(2, [7; 8])] /\ ~ acknowledged out2 /\ closed w2.
Proof.
  eexists. eexists. eexists. eexists.
  split; [apply ran_ret; vm_compute; reflexivity|].
  assert (outs_of (wstep E0 w_add open10) = [WObs (TListen 1574); WObs (TCtrl 1573 [3; 99; 0; 0; 0; 0; 0; 0])]) as O1 by (vm_compute; reflexivity).
  split. { rewrite O1. eexists. split; [right; left; reflexivity|]. eexists. eexists. reflexivity. }
  split. { exists 99. vm_compute. reflexivity. }
  split; [vm_compute; reflexivity|]. split.
  { repeat constructor; cbn [steady]; try (intros; discriminate); try (unfold async_rx_id; lia); try (cbn; repeat constructor; unfold is_byte; lia). }
  split; [apply ran_ret; vm_compute; reflexivity|].
  assert (outs_of (wrun E0 steps10 (node_of (wstep E0 w_add open10))) = [WPort 2 [7; 8]; WObs (TCtrl 1573 [4; 99; 0; 0; 0; 0; 0; 0])]) as O2 by (vm_compute; reflexivity).
  split; [rewrite O2; reflexivity|]. split; [|vm_compute; reflexivity].
  rewrite O2. intros (x & [H|[H|[]]] & id & d & ->); discriminate.
Qed.
Example C97_addition_case : exists w0 out1 w1, wreached E0 (map WNode add2 ++ [open10]) (told [open10]) w0 /\ open_for w0 10 /\ next_pos (w_node w0) = Some 2%nat /\
  wstep E0 w0 (WNode (OpAdd (desc 51 1 1) 30 [0;0;0;0]%nat [4;5;0;0]%nat)) = Ret (out1, w1) /\ open_for w1 10 /\
  wstep E0 w1 (data_to 20) = Ret ([WPort 2 [7; 8]], w1).
Proof.
  exists (node_of (wstep E0 w_add open10)). eexists. eexists. split.
  { destruct reached_w as (s0 & B & R). exists s0. split; [exact B|]. rewrite wrun_app, R. vm_compute. reflexivity. }
  split; [exists 99; vm_compute; reflexivity|]. split; [vm_compute; reflexivity|]. split; [apply ran_ret; vm_compute; reflexivity|].
  split; [exists 99; vm_compute; reflexivity|vm_compute; reflexivity].
Qed.
(** a node whose driver refuses the first call after the additions *)
Definition boot_r : node := match can_init E0 250 (static_node E0 mem0 slot_empty (repeat true 16 ++ [false])) with Ret (_, s) => s | _ => static0 end.
Definition node_r : node := match run E0 add2 boot_r with Ret (_, s1) => s1 | _ => static0 end.
Example C97_driver_refuses_case : reached E0 add2 node_r /\ closed (TNode node_r tun_zero) /\ listening (tab_of node_r) (k_silent (n_cfg node_r)) 10 /\ n_orc node_r = [false].
Proof.
  split.
  { exists boot_r. split; [exists mem0, slot_empty, (repeat true 16 ++ [false]), 250; vm_compute; reflexivity|vm_compute; reflexivity]. }
  split; [reflexivity|]. split; [|vm_compute; reflexivity]. exists 0%nat. split; [split; [|split]|].
  - assert (length (tab_of node_r) = 8%nat) as -> by (vm_compute; reflexivity). lia.
  - vm_compute. reflexivity.
  - intros q Hq. lia.
  - assert (nth 0 (k_silent (n_cfg node_r)) 0 = AWAKE) as -> by (vm_compute; reflexivity). discriminate.
Qed.

(** Refuted: the number of the module for which the tunnel is open changes.  The tunnel stays open for the old number: it sends under the identifier
    of the old number, what the other side sends to the old number is lost, what is sent to another module or to the new number reaches the user,
    and the closing message to the old number is not answered. *)
Theorem C97_renumbered_refuted : exists E pre out0 w0 out1 w1, env_ok E /\ ASY E = true /\ Forall fits pre /\ wreached E pre out0 w0 /\ open_for w0 10 /\
  wstep E w0 (WNode (OpSetNr (m_type (desc 49 1 2)) 40 10)) = Ret (out1, w1) /\ m_nr (modat (w_node w1) 0) = 40 /\ m_nr (modat (w_node w1) 1) = 20 /\ open_for w1 10 /\
  wstep E w1 (data_to 10) = Ret ([], w1) /\ wstep E w1 (data_to 20) = Ret ([WPort 2 [7; 8]], w1) /\ wstep E w1 (data_to 40) = Ret ([WPort 2 [7; 8]], w1) /\
  wstep E w1 close10 = Ret ([], w1) /\
  exists out2 w2, wrun E (repeat (WTun (OPutc 0 65 [])) 8 ++ [WTun (OHandle 0)]) w1 = Ret (out2, w2) /\
    In (WObs (TSent (1539 + 4 * (10 - 1), 8, repeat 65 8))) out2.
Proof.
  exists E0, (map WNode add2 ++ [open10]), (told [open10]), (node_of (wstep E0 w_add open10)). eexists. eexists. split; [apply E0_ok|]. split; [reflexivity|]. split.
  { repeat constructor; cbn; repeat constructor; unfold is_byte; lia. }
  split.
  { destruct reached_w as (s0 & B & R). exists s0. split; [exact B|]. rewrite wrun_app, R. vm_compute. reflexivity. }
  split; [exists 99; vm_compute; reflexivity|]. split; [apply ran_ret; vm_compute; reflexivity|]. split; [vm_compute; reflexivity|]. split; [vm_compute; reflexivity|].
  split; [exists 99; vm_compute; reflexivity|]. split; [vm_compute; reflexivity|]. split; [vm_compute; reflexivity|]. split; [vm_compute; reflexivity|]. split; [vm_compute; reflexivity|].
  eexists. eexists. split; [apply ran_ret; vm_compute; reflexivity|].
  match goal with |- In _ (outs_of ?r) => assert (outs_of r = [WObs (TQueued (1575, 8, repeat 65 8)); WObs (TSent (1575, 8, repeat 65 8))]) as O by (vm_compute; reflexivity) end.
  rewrite O. right. left. reflexivity.
Qed.
Print Assumptions C97_renumbered_refuted.
