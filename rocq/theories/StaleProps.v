From Verif Require Import Words WordsFacts ErrModel NodeModel NodeSpec NodeEx NodeServModel NodeServSpec NodeServProps StaleSpec Stale ConvModel.
From Verif Require LookSpec AsyncSpec XloadModel XloadRun.

(** ** C87 *)
(** What a received frame does to the node depends on identifier, length, time and the received bytes only, whatever the memory of the
    buffer held before, for every build and every state of the node whose receive conversions look at the received bytes only; the
    messages passed on to the services agree in everything but the bytes that were not received.  Missing: that the services ignore
    these bytes; the control messages do not. *)
Theorem C87_node_partial : forall E s ext mo id dlc a b now,
  conversions_ok s -> same_frame dlc a b ->
  match main_rx E ext mo id dlc a now s, main_rx E ext mo id dlc b now s with
  | Ret (x, s1), Ret (y, s2) => s1 = s2 /\ Forall2 (same_message dlc) x y
  | Undef, Undef | Hang, Hang => True
  | _, _ => False
  end.
Proof. exact main_same. Qed.
Print Assumptions C87_node_partial.

(** The receive conversions that come with the library look at the received bytes only. *)
Theorem C87_conversions_partial : forall le a b app p dlc, same_frame dlc a b ->
  rx_bit le a app p dlc = rx_bit le b app p dlc /\ rx_nibble le a app p dlc = rx_nibble le b app p dlc /\
  rx_uint16 le a app p dlc = rx_uint16 le b app p dlc /\ rx_uint32 le a app p dlc = rx_uint32 le b app p dlc /\
  rx_uint12_1 a app p dlc = rx_uint12_1 b app p dlc /\ rx_uint12_2 a app p dlc = rx_uint12_2 b app p dlc /\
  rx_uint12_3 a app p dlc = rx_uint12_3 b app p dlc.
Proof.
  intros le a b app p dlc S.
  assert (A : agree (0 + N.to_nat dlc) a b) by (apply (frame_agree dlc); [exact S|lia]).
  assert (B : agree (0 + 2 * half dlc) a b) by (apply (frame_agree dlc); [exact S|apply half_le]).
  repeat split.
  - unfold rx_bit. destruct le; [apply up_same|apply down_same]; exact A.
  - apply conv16_same, B.
  - apply conv16_same, B.
  - apply uint32_same, S.
  - apply high_same, A.
  - apply high_same, A.
  - unfold rx_uint12_3. destruct (p <? 16)%nat; [reflexivity|]. apply low_same, A.
Qed.
Print Assumptions C87_conversions_partial.

(** Refuted for control messages.  An empty frame for a module of the node (every reachable node whose numbers are 1 to 128, every
    configured module that listens) reaches the services with all eight bytes of the buffer: with 27 left in the first byte a running
    transfer is ended, with 24 nothing happens. *)
Theorem C87_control_refuted : forall E pre s p now size handler x,
  env_ok E -> small_history E pre s -> ASY E = true -> complete E s p -> 1 <= m_nr (modat s p) <= 128 ->
  AsyncSpec.listening (tab_of s) (k_silent (n_cfg s)) (m_nr (modat s p)) -> XloadModel.x_prog x = XloadModel.InProgress ->
  exists a b x1 x2, same_frame 0 a b /\
    main_rx E false (ctl_mo s p) (ctl_rx_id (m_nr (modat s p))) 0 a now s = Ret ([HCtl (m_nr (modat s p)) a], s) /\
    main_rx E false (ctl_mo s p) (ctl_rx_id (m_nr (modat s p))) 0 b now s = Ret ([HCtl (m_nr (modat s p)) b], s) /\
    XloadModel.async_rx size (tab_of s) (k_silent (n_cfg s)) (m_nr (modat s p)) a handler x = Some (ERR_OK, x1, []) /\
    XloadModel.async_rx size (tab_of s) (k_silent (n_cfg s)) (m_nr (modat s p)) b handler x = Some (ERR_OK, x2, []) /\
    XloadModel.x_prog x1 = XloadModel.Idle /\ XloadModel.x_prog x2 = XloadModel.InProgress.
Proof.
  intros E pre s p now size handler x HE Sh Asy Cp R L X.
  exists [27;0;0;0;0;0;0;0], [24;0;0;0;0;0;0;0], (XloadModel.set_prog x XloadModel.Idle), x.
  split; [repeat split|]. split; [apply (C84_control_delivered_partial E pre); auto; lia|]. split; [apply (C84_control_delivered_partial E pre); auto; lia|].
  destruct (XloadRun.rx_listening size _ _ _ [27;0;0;0;0;0;0;0] handler x L) as (q & _ & E1).
  destruct (XloadRun.rx_listening size _ _ _ [24;0;0;0;0;0;0;0] handler x L) as (q' & _ & E2).
  rewrite E1, E2. split; [reflexivity|]. split; [reflexivity|]. split; [reflexivity|exact X].
Qed.
Print Assumptions C87_control_refuted.
Example C87_control_ex : let s := after add2 in
  small_history E0 add2 s /\ complete E0 s 1 /\ m_nr (modat s 1) = 20 /\ AsyncSpec.listening (tab_of s) (k_silent (n_cfg s)) 20.
Proof.
  cbv zeta. split; [exact small_add2|]. split; [exact complete_add2|]. split; [vm_compute; reflexivity|].
  exists 1%nat. assert (T : map m_nr (tab_of (after add2)) = [10; 20; 127; 127; 127; 127; 127; 127]) by (vm_compute; reflexivity).
  assert (S : k_silent (n_cfg (after add2)) = repeat AWAKE 8) by (vm_compute; reflexivity).
  generalize dependent (tab_of (after add2)). intros tab T. rewrite S. split; [|vm_compute; discriminate].
  split; [rewrite <- (map_length m_nr), T; cbn; lia|].
  assert (N : forall q, m_nr (LookSpec.entry tab q) = nth q (map m_nr tab) (m_nr modl0)) by (intro q; symmetry; apply map_nth).
  unfold LookSpec.of_nr. split; [rewrite N, T; reflexivity|]. intros q Q. rewrite N, T. replace q with 0%nat by lia. discriminate.
Qed.

Lemma copies_ok s : map (fun m => map r_conv_s (m_rx m)) (tab_of s) = repeat (repeat (Some rxc) 4) 2 ++ repeat (repeat None 4) 6 -> conversions_ok s.
Proof.
  intro T.
  intros pos obj f F. unfold rxat, modat in F. rewrite <- (map_nth r_conv_s) in F. rewrite <- (map_nth (fun m => map r_conv_s (m_rx m))) in F. rewrite T in F.
  assert (f = rxc) as ->.
  { clear T. revert F. set (row := nth pos _ _). intro F.
    assert (R : row = repeat (Some rxc) 4 \/ row = repeat None 4).
    { unfold row. destruct (nth_in_or_default pos (repeat (repeat (Some rxc) 4) 2 ++ repeat (repeat None 4) 6) (map r_conv_s (m_rx modl0))) as [I| ->]; [|right; reflexivity].
      apply in_app_iff in I. destruct I as [I|I]; apply repeat_spec in I; auto. }
    clearbody row. destruct (nth_in_or_default obj row (r_conv_s rxo0)) as [I|D]; [|rewrite D in F; discriminate F]. rewrite F in I.
    destruct R as [-> | ->]; apply repeat_spec in I; congruence. }
  intros a b app dlc (_ & _ & S). unfold rxc. rewrite S. reflexivity.
Qed.
(** a node with two modules, a process data frame of three bytes for an object of eight (checked: refused; the rest of the buffer differs) and the
    byte copy *)
Example C87_case : let s := after add2 in
  conversions_ok s /\ same_frame 3 [1;2;3;4;5;6;7;8] [1;2;3;0;0;0;0;0] /\
  rx_bit true [1;2;3;4;5;6;7;8] [9;9;9;9] 0 3 = Some [1;2;3;9] /\ rx_bit true [1;2;3;0;0;0;0;0] [9;9;9;9] 0 3 = Some [1;2;3;9].
Proof.
  cbv zeta. split; [|split; [repeat split|split; reflexivity]].
  apply copies_ok. vm_compute. reflexivity.
Qed.
