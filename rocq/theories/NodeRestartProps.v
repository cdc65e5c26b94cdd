(** C70: a second initialisation. *)
From Verif Require Import Words ErrModel NodeModel NodeLib NodeSpec NodeHw NodeRestart NodeEx NodeTxProps.

(** C70, the part that holds: after it no module is configured, the message objects are free or defined and accept the same
    identifiers as after the first initialisation (of [s0]), and the callbacks of the modules are gone. *)
Theorem C70_tables_partial : forall E rate s s' s0,
  restart E rate s = Ret (ERR_OK, s') -> booted E s0 ->
  nmod s' = 0%nat /\ (forall p, in_use (modat s' p) = false) /\
  h_used (n_hw s') = h_used (n_hw s0) /\ (forall mo id, passes s' mo id <-> passes s0 mo id) /\
  (forall p, nth p (y_cbv (n_sync s')) None = None /\ nth p (y_cbn (n_sync s')) None = None /\ nth p (y_cbr (n_sync s')) None = None) /\ y_per (n_sync s') = y_per (n_sync s0) /\
  z_first (n_sys s') = false /\ z_cbs (n_sys s') = None.
Proof.
  intros E rate s s' s0 H (mem & st & orc & r0 & B). unfold restart in H. mbind H as u t G. apply modify_inv in G. clear u.
  destruct (init_hooks _ _ _ _ H) as (Z1 & Z2 & _).
  apply init_effect in H. apply init_effect in B. destruct H as (H1 & H2 & H3 & H4 & H5 & H6 & H7), B as (B1 & _ & _ & _ & _ & _ & B7).
  assert (mos s' = mos s0) as M by congruence. injection M as M1 M2.
  split; [exact H2|]. split.
  { intro p. unfold modat, tab_of, in_use. rewrite H3. destruct (Nat.lt_ge_cases p (length (k_tab (n_cfg t)))) as [L|L].
    - rewrite (nth_indep _ _ (set_m_type (slot0 NR_DEF) (set_nth (m_type (slot0 NR_DEF)) 0 0))) by (rewrite map_length; exact L). rewrite (map_nth (fun m => set_m_type m (set_nth (m_type m) 0 0))).
      generalize (nth p (k_tab (n_cfg t)) (slot0 NR_DEF)). intros [ty ? ? ? ? ? ? ?]. destruct ty; reflexivity.
    - rewrite nth_overflow by (rewrite map_length; exact L). reflexivity. }
  split; [exact M1|]. split; [intros mo id; unfold passes; rewrite M2; tauto|]. split; [|split; [congruence|split; assumption]].
  intro p. rewrite H4, H5, H6. assert (forall n, nth p (repeat (@None N) n) None = None) as K by (intro n; destruct (Nat.lt_ge_cases p n); [apply nth_repeat|apply nth_overflow; rewrite repeat_length; assumption]). repeat split; apply K.
Qed.
Print Assumptions C70_tables_partial.

(** the example node after [ops], a second initialisation and [more] *)
Definition again (ops more : list op) : node :=
  match restart E0 250 (after ops) with Ret (_, s) => match run E0 more s with Ret (_, s2) => s2 | _ => s end | _ => boot0 end.
Definition again_ok (ops more : list op) : Prop :=
  reached E0 ops (after ops) /\ exists s1, restart E0 250 (after ops) = Ret (ERR_OK, s1) /\ run E0 more s1 = Ret (tt, again ops more).
Lemma again_intro ops more : fine ops = true ->
  (match restart E0 250 (after ops) with Ret (e, s) => (e =? ERR_OK) && match run E0 more s with Ret _ => true | _ => false end | _ => false end) = true -> again_ok ops more.
Proof.
  intros F H. split; [apply reached_after, F|]. unfold again. destruct (restart E0 250 (after ops)) as [[e s]| |]; try discriminate. apply andb_prop in H. destruct H as [H1 H2]. apply N.eqb_eq in H1. subst e.
  exists s. split; [reflexivity|]. destruct (run E0 more s) as [[[] s2]| |]; try discriminate. reflexivity.
Qed.
(** frames sent after the second initialisation *)
Definition again_sent (ops more : list op) : list (N * N * list byte) := sent (skipn (length (n_log (after ops))) (n_log (again ops more))).
Example C70_tables_partial_case : again_ok add2 [] /\ nmod (after add2) = 2%nat /\ nmod (again add2 []) = 0%nat /\ passes (after add2) mo_1_0 (data_id 10 0) /\ booted E0 boot0.
Proof. split; [apply again_intro; vm_compute; reflexivity|]. split; [vm_compute; reflexivity|]. split; [vm_compute; reflexivity|]. split; [vm_compute; reflexivity|]. exact boot0_ok. Qed.

(** C70, finding: with no module configured a process request sends the objects of the modules configured before. *)
Theorem C70_sends_refuted :
  again_ok add2 [request 0 0] /\ nmod (again add2 []) = 0%nat /\ (forall p, in_use (modat (again add2 []) p) = false) /\
  map fst (again_sent add2 [request 0 0]) = [(1060, 8); (1061, 8); (1100, 8)].
Proof.
  split; [apply again_intro; vm_compute; reflexivity|]. split; [vm_compute; reflexivity|]. split; [|vm_compute; reflexivity].
  intro p. do 9 (destruct p as [|p]; [vm_compute; reflexivity|]). unfold modat. rewrite nth_overflow; [reflexivity|]. assert (length (tab_of (again add2 [])) = 8%nat) as -> by (vm_compute; reflexivity). lia.
Qed.
Print Assumptions C70_sends_refuted.
(** C70, finding: a module that was silent stays silent when it is added again. *)
Theorem C70_silent_refuted :
  again_ok (add2 ++ [sleep 49 10]) add2 /\ awake (after add2) 0 = true /\ awake (again (add2 ++ [sleep 49 10]) add2) 0 = false.
Proof. split; [apply again_intro; vm_compute; reflexivity|]. split; vm_compute; reflexivity. Qed.
Print Assumptions C70_silent_refuted.
(** C70, finding: the table of message objects keeps its old entries. A message object used for another module before is
    taken for that module's: with one module of 3 receive objects instead of two modules, an accepted data frame for the
    third object is not delivered. *)
Definition one3 : list op := [OpAdd (desc 51 3 1) 10 [1;2;3;0]%nat [6;0;0;0]%nat].
Definition frame_again (s : node) : op := rx_frame (r_mo (rxat (modat s 0) 2)) 10 2 [1;2;3;4;5;6;7;8].
Theorem C70_receive_refuted :
  again_ok add2 (one3 ++ [frame_again (again add2 one3)]) /\ passes (again add2 one3) (r_mo (rxat (modat (again add2 one3) 0) 2)) (data_id 10 2) /\
  nth 3 (n_mem (again add2 (one3 ++ [frame_again (again add2 one3)]))) [] = [3;3;3;3;3;3;3;3] /\
  nth 3 (n_mem (after (one3 ++ [frame_again (after one3)]))) [] = [1;2;3;4;5;6;7;8].
Proof. split; [apply again_intro; vm_compute; reflexivity|]. split; [vm_compute; reflexivity|]. split; vm_compute; reflexivity. Qed.
Print Assumptions C70_receive_refuted.
(** C70, finding: the table of message objects fills up. A node with one module of 3 receive objects that is initialised a
    second time: adding the module reports success again, but frames for its third object are not accepted any more. *)
Definition E1 : env := Env 1 32 50 true true true true 1995998 1 2 3 4 12345678 77 [170;170;170;170;170;170;170;170].
Theorem C70_full_refuted : exists s0 s1 s2 s3 : node,
  booted E1 s0 /\ add_module E1 (desc 51 3 1) 10 [1;2;3;0]%nat [6;0;0;0]%nat s0 = Ret (ERR_OK, s1) /\ passes s1 5 (data_id 10 2) /\
  restart E1 250 s1 = Ret (ERR_OK, s2) /\ add_module E1 (desc 51 3 1) 10 [1;2;3;0]%nat [6;0;0;0]%nat s2 = Ret (ERR_OK, s3) /\ (forall mo, ~ passes s3 mo (data_id 10 2)).
Proof.
  do 4 eexists. split; [exists mem0, slot_empty, [], 250; vm_compute; reflexivity|]. split; [vm_compute; reflexivity|]. split; [vm_compute; reflexivity|].
  split; [vm_compute; reflexivity|]. split; [vm_compute; reflexivity|].
  intro mo. unfold passes. cbn [h_filt n_hw]. do 32 (destruct mo as [|mo]; [vm_compute; tauto || (vm_compute; discriminate)|]). destruct mo; exact (fun x => x).
Qed.
Print Assumptions C70_full_refuted.
(** C70, finding: of the hooks only those for the process images of modules and for the first status request are removed.  The
    hooks for the process request, the first process request, the system time, the factory reset and silent modules stay, for
    every state, and the first process request after the second initialisation counts as seen. *)
Theorem C70_hooks_refuted : forall E rate s s', restart E rate s = Ret (ERR_OK, s') ->
  y_cbp (n_sync s') = y_cbp (n_sync s) /\ y_cbf (n_sync s') = y_cbf (n_sync s) /\ y_first (n_sync s') = y_first (n_sync s) /\
  z_cbt (n_sys s') = z_cbt (n_sys s) /\ z_cbr (n_sys s') = z_cbr (n_sys s) /\ k_silcb (n_cfg s') = k_silcb (n_cfg s).
Proof.
  intros E rate s s' H. unfold restart in H. mbind H as u t G. apply modify_inv in G. subst t. destruct (init_hooks _ _ _ _ H) as (_ & _ & A1 & A2 & A3 & A4 & A5 & A6).
  repeat split; assumption.
Qed.
Print Assumptions C70_hooks_refuted.
(** a factory reset calls the hook 7 registered before the second initialisation; the hook 8 for the first process request is
    called on a fresh start, not after the second initialisation *)
Definition hooks70 : list op := [OpSysCb None None (Some 7)].
Definition again_log (ops more : list op) : list event := skipn (length (n_log (after ops))) (n_log (again ops more)).
Example C70_hooks_case : let h := sysmsg 1 [48;5;0;0;0;0;0;0] in
  again_ok (add2 ++ hooks70) (add2 ++ [h]) /\ In (EvReset 7 5) (again_log (add2 ++ hooks70) (add2 ++ [h])) /\ ~ In (EvReset 7 5) (n_log (after (add2 ++ [h]))) /\
  again_ok (add2 ++ [request 0 0]) (add2 ++ [OpFirstReqCb (Some 8); request 0 0]) /\ In (EvFirstReq (Some 8)) (n_log (after (add2 ++ [OpFirstReqCb (Some 8); request 0 0]))) /\
  ~ In (EvFirstReq (Some 8)) (again_log (add2 ++ [request 0 0]) (add2 ++ [OpFirstReqCb (Some 8); request 0 0])).
Proof.
  cbv zeta. split; [apply again_intro; vm_compute; reflexivity|]. split; [vm_compute; tauto|]. split; [vm_compute; intro Q; repeat (destruct Q as [Q|Q]; [discriminate Q|]); exact Q|].
  split; [apply again_intro; vm_compute; reflexivity|]. split; [vm_compute; tauto|]. vm_compute. intro Q. repeat (destruct Q as [Q|Q]; [discriminate Q|]); exact Q.
Qed.
