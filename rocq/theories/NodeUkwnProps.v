(** C96: a node to which the application added no module still announces itself, as a module of unknown type. *)
From Verif Require Import Words ErrModel NodeModel NodeLib NodeSpec NodeImage NodeSysP NodeTx NodeSend NodeNum NodeInv NodeHw NodeMo NodeCfg NodeEx NodeUkwnModel NodeUkwnSpec NodeUkwn.

(** a node with modules: the start changes no configuration *)
Theorem C96_modules_present_partial : forall E s, nmod s <> 0%nat -> start_ukwn E s = Ret (tt, s).
Proof. intros E s H. unfold start_ukwn, bind, gets. apply Nat.eqb_neq in H. rewrite H. reflexivity. Qed.
Print Assumptions C96_modules_present_partial.

(** a node without additions: afterwards it has exactly the module of unknown type, and either an error is pending or the
    acceptance filters let pass what is sent to all nodes and to number 125 *)
Theorem C96_unknown_added_partial : forall E pre s s', env_ok E -> Forall (plain E) pre -> no_adds pre -> reached E pre s -> start_ukwn E s = Ret (tt, s') ->
  unknown_node E s' /\ (reported s s' \/ n_err s' = n_err s /\ hears E s' 1 /\ hears E s' 125).
Proof.
  intros E pre s s' HE F A R H. split; [apply (start_unknown E HE pre s s' F A R H)|apply (hears_start E HE pre s s' F A R H)].
Qed.
Print Assumptions C96_unknown_added_partial.
(** the start always comes to an end with a result *)
Theorem C96_start_ends_partial : forall E pre s, env_ok E -> Forall (plain E) pre -> no_adds pre -> reached E pre s -> start_ukwn E s <> Hang.
Proof.
  intros E pre s HE F A R H. destruct (fresh E pre s F A R) as [N0 B]. assert (0 < MAXM E)%nat as L0 by (destruct HE; lia).
  assert (nr_main s = 125) as N1 by (apply (f_equal m_nr (B 0%nat L0))).
  apply (ends_step E HE (ukwn_op 125) pre s F R). rewrite <- (start_eq E s N0 N1). exact H.
Qed.
Print Assumptions C96_start_ends_partial.

(** whatever happens later, except additions and changes of numbers and types: it stays that node, *)
Theorem C96_stays_partial : forall E pre s s1 post s2, env_ok E -> Forall (plain E) (pre ++ post) -> no_adds (pre ++ post) -> reached E pre s -> start_ukwn E s = Ret (tt, s1) ->
  run E post s1 = Ret (tt, s2) -> unknown_node E s2.
Proof.
  intros E pre s s1 post s2 HE F A R H Q. apply Forall_app in F. destruct F as [F1 F2]. unfold no_adds in A. rewrite adds_app in A. apply app_eq_nil in A. destruct A as [A1 A2].
  destruct (start_unknown E HE pre s s1 F1 A1 R H) as (U & N & _). apply (unknown_kept E post s1 s2 F2 A2 Q (conj U N)).
Qed.
Print Assumptions C96_stays_partial.
(** it answers a status request to all nodes or to number 125 with one acknowledge that names the type "UKWN" and the serial
    number, unless it was switched to listen-only or silenced, *)
Theorem C96_announces_partial : forall E pre s s1 post s2 mo id data now s3, env_ok E -> Forall (plain E) (pre ++ post) -> no_adds (pre ++ post) -> reached E pre s -> start_ukwn E s = Ret (tt, s1) ->
  run E post s1 = Ret (tt, s2) -> sys_mo E mo = true -> id_nr id = 1 \/ id_nr id = 125 -> byte_at data 0 = 1 -> step E (OpFrame mo id 8 data now) s2 = Ret (tt, s3) ->
  exists new, n_log s3 = n_log s2 ++ new /\
    sent new = (if listen_only s2 || negb (awake s2 0) then [] else [unknown_status E]) ++ flat_map (error_tx s2) (pending_errors (n_err s2)).
Proof.
  intros E pre s s1 post s2 mo id data now s3 HE F A R H Q M I C S. apply Forall_app in F. destruct F as [F1 F2]. unfold no_adds in A. rewrite adds_app in A. apply app_eq_nil in A. destruct A as [A1 A2].
  destruct (start_unknown E HE pre s s1 F1 A1 R H) as (U1 & N1 & R1). destruct (unknown_kept E post s1 s2 F2 A2 Q (conj U1 N1)) as [U N]. pose proof (reached_run E _ _ _ _ R1 Q) as R2.
  assert (numbers_differ s2) as D by (intros i j Hi Hj; rewrite (un_one _ _ U) in Hj; lia).
  assert (addressed s2 id [0%nat]) as Ad.
  { destruct I as [I|I]; [left|right].
    - split; [exact I|]. rewrite (un_one _ _ U). split; [lia|reflexivity].
    - split; [rewrite I; discriminate|]. exists 0%nat. rewrite (un_one _ _ U), (un_nr _ _ U). split; [lia|]. split; [exact I|reflexivity]. }
  destruct (status_request E _ mo id data now s2 s3 [0%nat] HE R2 M N D Ad C S) as (new & L & T & _). exists new. split; [exact L|]. rewrite T. f_equal.
  destruct (listen_only s2); [reflexivity|]. unfold of_awake. cbn [flat_map orb]. rewrite app_nil_r. destruct (awake s2 0); [|reflexivity]. cbn [negb].
  unfold status_tx, unknown_status. rewrite (un_nr _ _ U), (un_type _ _ U). reflexivity.
Qed.
Print Assumptions C96_announces_partial.
(** and it sends no process data: at most the announcement of a pending error. *)
Theorem C96_no_process_data_partial : forall E pre s s1 post s2 id dlc data now s3, env_ok E -> Forall (plain E) (pre ++ post) -> no_adds (pre ++ post) -> reached E pre s -> start_ukwn E s = Ret (tt, s1) ->
  run E post s1 = Ret (tt, s2) -> step E (OpFrame MO_PROCESS id dlc data now) s2 = Ret (tt, s3) ->
  exists new st, added s2 s3 new /\ reports 125 (n_err s2) st /\ sent new = match pending_errors st with [] => [] | e :: _ => error_tx s2 e end.
Proof.
  intros E pre s s1 post s2 id dlc data now s3 HE F A R H Q S. apply Forall_app in F. destruct F as [F1 F2]. unfold no_adds in A. rewrite adds_app in A. apply app_eq_nil in A. destruct A as [A1 A2].
  destruct (start_unknown E HE pre s s1 F1 A1 R H) as (U1 & N1 & R1). destruct (unknown_kept E post s1 s2 F2 A2 Q (conj U1 N1)) as [U N]. pose proof (reached_run E _ _ _ _ R1 Q) as R2.
  assert (Forall (plain E) ((pre ++ [ukwn_op 125]) ++ post)) as FF by (apply Forall_app; split; [apply Forall_app; split; [exact F1|repeat constructor]|exact F2]).
  destruct (request_frames E HE _ id dlc data now s2 s3 FF R2 S) as (new & st & Ad & Rp & T). exists new, st. split; [exact Ad|]. rewrite <- (un_nr _ _ U). split; [exact Rp|].
  rewrite T, (unknown_enabled E s2 U (tab_len E s2 (WF_reached E _ _ R2))). reflexivity.
Qed.
Print Assumptions C96_no_process_data_partial.

Definition started (ops : list op) : node := match start_ukwn E0 (after ops) with Ret (_, s) => s | _ => after ops end.
Lemma started_ok ops : (match start_ukwn E0 (after ops) with Ret _ => true | _ => false end) = true -> start_ukwn E0 (after ops) = Ret (tt, started ops).
Proof. unfold started. destruct (start_ukwn E0 (after ops)) as [[[] s]| |]; congruence. Qed.
Definition all_nodes : op := sysmsg 1 [1;0;0;0;0;0;0;0].
Definition sent_by (ops : list op) (s : node) : list (N * N * list byte) :=
  match run E0 ops s with Ret (_, s') => sent (skipn (length (n_log s)) (n_log s')) | _ => [] end.
Example C96_case : let pre := [OpBaud 500] in
  env_ok E0 /\ Forall (plain E0) (pre ++ [all_nodes; request 0 7]) /\ no_adds (pre ++ [all_nodes; request 0 7]) /\ reached E0 pre (after pre) /\ start_ukwn E0 (after pre) = Ret (tt, started pre) /\
  nmod (after pre) = 0%nat /\ nmod (started pre) = 1%nat /\ n_err (started pre) = n_err (after pre) /\
  sent_by [all_nodes] (after pre) = [] /\ sent_by [all_nodes] (started pre) = [unknown_status E0] /\ sent_by [all_nodes; request 0 7; sysmsg 125 [1;0;0;0;0;0;0;0]] (started pre) = [unknown_status E0; unknown_status E0].
Proof.
  cbn zeta. split; [exact E0_ok|]. split; [apply plainb_ok; vm_compute; reflexivity|]. split; [reflexivity|]. split; [apply reached_after; vm_compute; reflexivity|].
  split; [apply started_ok; vm_compute; reflexivity|]. do 5 (split; [vm_compute; reflexivity|]). vm_compute; reflexivity.
Qed.
Print Assumptions C96_case.

(** Refuted for a node whose only addition failed: the failed addition keeps its table entry but is not counted (see C33), the
    start then counts the module of unknown type at position 1, and the node answers as the module whose addition failed; the
    type "UKWN" is never announced. *)
Definition failed_add : op := OpAdd (desc 49 2 1) 10 [0;1;0;0]%nat [1;0;0;0]%nat.
(** the controller refuses the seventh message object, the second one of the module *)
Definition boot_short : node := match can_init E0 250 (static_node E0 mem0 slot_empty (repeat true 6 ++ [false])) with Ret (_, s) => s | _ => boot0 end.
Definition short_run (l : list op) : node := match run E0 l boot_short with Ret (_, s) => s | _ => boot_short end.
Definition short_started : node := match start_ukwn E0 (short_run [failed_add]) with Ret (_, s) => s | _ => boot_short end.
Theorem C96_failed_addition_refuted : exists s s1 s2 new,
  booted E0 boot_short /\ Forall (plain E0) [failed_add] /\ reached E0 [failed_add] s /\ nmod s = 0%nat /\ start_ukwn E0 s = Ret (tt, s1) /\ nmod s1 = 1%nat /\
  m_type (modat s1 1) = UKWN /\ run E0 [sysmsg 1 [1;0;0;0;0;0;0;0]; sysmsg 1 [1;0;0;0;0;0;0;0]] s1 = Ret (tt, s2) /\ n_log s2 = n_log s1 ++ new /\
  Forall (fun f => f <> unknown_status E0) (sent new) /\ length (filter (fun f => nth 0 (snd f) 0 =? 4) (sent new)) = 2%nat /\ In (sys_tx_id 10, 8, [4; 109; 111; 100; 49; 30; 116; 222]) (sent new).
Proof.
  exists (short_run [failed_add]), short_started. eexists. eexists.
  assert (booted E0 boot_short) as B by (exists mem0, slot_empty, (repeat true 6 ++ [false]), 250; vm_compute; reflexivity).
  split; [exact B|]. split; [repeat constructor|]. split.
  { exists boot_short. split; [exact B|]. vm_compute. reflexivity. }
  split; [vm_compute; reflexivity|]. split; [vm_compute; reflexivity|]. split; [vm_compute; reflexivity|]. split; [vm_compute; reflexivity|].
  split; [vm_compute; reflexivity|]. split; [vm_compute; reflexivity|].
  split; [repeat constructor; discriminate|]. split; [reflexivity|]. cbn; tauto.
Qed.
Print Assumptions C96_failed_addition_refuted.
