(** Properties C01, C02, C03, C04, C09, C10, C21: the synchronous process of a node. *)
From Verif Require Import Words ErrModel NodeModel NodeSpec NodeSync NodeImage NodeFirst NodeRx NodeEx.

(** C01.  After at least one earlier request, a cycle opened by a request of DLC <= 1 and closed by the next
    request yields exactly one verdict per configured module, in table order; the verdict is 'valid' iff every
    listening receive object was accepted exactly once (modulo 2^16) in the cycle.
    Missing from the full claim: the cycle opened by the very first request and modules woken up in the cycle
    (both refuted below), and more than 65536 receptions of one object in one cycle. *)
Theorem C01_image_verdict_partial : forall E pre d1 t1 mid d2 t2 s0 s1 s2 s3 new,
  reached E pre s0 -> existsb is_request pre = true -> d1 <= 1 ->
  step E (request d1 t1) s0 = Ret (tt, s1) -> no_requests mid -> run E mid s1 = Ret (tt, s2) ->
  step E (request d2 t2) s2 = Ret (tt, s3) -> added s2 s3 new ->
  map fst (verdicts new) = seq 0 (nmod s2) /\
  forall pos v, In (pos, v) (verdicts new) -> (listening s2 pos <= listening s0 pos)%nat ->
    (v = true <-> forall obj, (obj < listening s2 pos)%nat -> N.of_nat (receptions E s1 mid pos obj) mod 65536 = 1).
Proof. exact image_verdict. Qed.
Print Assumptions C01_image_verdict_partial.

(** the same without the modulus, for cycles of at most 65536 operations *)
Theorem C01_image_verdict_short_partial : forall E pre d1 t1 mid d2 t2 s0 s1 s2 s3 new,
  reached E pre s0 -> existsb is_request pre = true -> d1 <= 1 ->
  step E (request d1 t1) s0 = Ret (tt, s1) -> no_requests mid -> run E mid s1 = Ret (tt, s2) ->
  step E (request d2 t2) s2 = Ret (tt, s3) -> added s2 s3 new -> N.of_nat (length mid) <= 65536 ->
  map fst (verdicts new) = seq 0 (nmod s2) /\
  forall pos v, In (pos, v) (verdicts new) -> (listening s2 pos <= listening s0 pos)%nat ->
    (v = true <-> forall obj, (obj < listening s2 pos)%nat -> receptions E s1 mid pos obj = 1%nat).
Proof. exact image_verdict_short. Qed.
Print Assumptions C01_image_verdict_short_partial.

(** each verdict calls the callback registered for that module and verdict, at the time of the request *)
Theorem C01_verdict_callback_partial : forall E pre d t s s' new pos v cb now,
  reached E pre s -> step E (request d t) s = Ret (tt, s') -> added s s' new -> In (EvVerdict pos v cb now) new ->
  now = t /\ cb = nth pos (if v then y_cbv (n_sync s) else y_cbn (n_sync s)) None.
Proof. exact verdict_call_reached. Qed.
Print Assumptions C01_verdict_callback_partial.

(** two modules; in the third cycle module 0 gets its object once, module 1 gets object 0 twice, object 1 once *)
Definition c01_pre : list op :=
  add2 ++ [OpImageCb CbValid [109;111;100;49;0] 10 (Some 71); OpImageCb CbNotValid [109;111;100;50;0] 20 (Some 72); request 1 5; rx_frame mo_2_0 20 0 (repeat 9 8)].
Definition c01_mid : list op :=
  [rx_frame mo_1_0 10 0 (repeat 7 8); rx_frame mo_2_0 20 0 (repeat 8 8); rx_frame mo_2_1 20 1 (repeat 8 8); rx_frame mo_2_0 20 0 (repeat 6 8)].
Example C01_case : exists s0 s1 s2 s3 new,
  reached E0 c01_pre s0 /\ existsb is_request c01_pre = true /\ step E0 (request 0 15) s0 = Ret (tt, s1) /\ no_requests c01_mid /\
  run E0 c01_mid s1 = Ret (tt, s2) /\ step E0 (request 1 25) s2 = Ret (tt, s3) /\ added s2 s3 new /\
  verdicts new = [(0%nat, true); (1%nat, false)] /\ In (EvVerdict 0 true (Some 71) 25) new /\ In (EvVerdict 1 false (Some 72) 25) new /\
  map (fun p => listening s2 p) [0;1]%nat = [1;2]%nat /\
  receptions E0 s1 c01_mid 0 0 = 1%nat /\ receptions E0 s1 c01_mid 1 0 = 2%nat /\ receptions E0 s1 c01_mid 1 1 = 1%nat.
Proof.
  exists (after c01_pre), (after (c01_pre ++ [request 0 15])), (after ((c01_pre ++ [request 0 15]) ++ c01_mid)),
    (after (((c01_pre ++ [request 0 15]) ++ c01_mid) ++ [request 1 25])), (delta ((c01_pre ++ [request 0 15]) ++ c01_mid) [request 1 25]).
  ex; vm_compute; tauto.
Qed.

(** C01 is false for the cycle opened by the first request: a frame received before it is counted.  Every
    receive object is received exactly once in the cycle, yet module 0 is reported 'not valid'. *)
Theorem C01_first_cycle_refuted : exists pre mid s0 s1 s2 s3 new,
  reached E0 pre s0 /\ existsb is_request pre = false /\ step E0 (request 1 5) s0 = Ret (tt, s1) /\ no_requests mid /\
  run E0 mid s1 = Ret (tt, s2) /\ step E0 (request 1 15) s2 = Ret (tt, s3) /\ added s2 s3 new /\
  listening s0 0 = 1%nat /\ listening s2 0 = 1%nat /\ receptions E0 s1 mid 0 0 = 1%nat /\ In (0%nat, false) (verdicts new).
Proof.
  pose (pre := add2 ++ [rx_frame mo_1_0 10 0 (repeat 7 8)]). pose (mid := [rx_frame mo_1_0 10 0 (repeat 8 8)]).
  exists pre, mid, (after pre), (after (pre ++ [request 1 5])), (after ((pre ++ [request 1 5]) ++ mid)), (after (((pre ++ [request 1 5]) ++ mid) ++ [request 1 15])),
    (delta ((pre ++ [request 1 5]) ++ mid) [request 1 15]).
  ex; vm_compute; tauto.
Qed.
Print Assumptions C01_first_cycle_refuted.

(** C01 is false for a module that is woken up inside the cycle: what it received before it was silenced, in an
    earlier cycle, is still counted. *)
Theorem C01_woken_module_refuted : exists pre mid s0 s1 s2 s3 new,
  reached E0 pre s0 /\ existsb is_request pre = true /\ step E0 (request 1 15) s0 = Ret (tt, s1) /\ no_requests mid /\
  run E0 mid s1 = Ret (tt, s2) /\ step E0 (request 1 25) s2 = Ret (tt, s3) /\ added s2 s3 new /\
  listening s2 0 = 1%nat /\ receptions E0 s1 mid 0 0 = 1%nat /\ In (0%nat, false) (verdicts new).
Proof.
  pose (ty := [109;111;100;49;0]).
  pose (pre := add2 ++ [request 1 5; rx_frame mo_1_0 10 0 (repeat 7 8); OpSilent ty 10 SILENT]).
  pose (mid := [OpSilent ty 10 AWAKE; rx_frame mo_1_0 10 0 (repeat 8 8)]).
  exists pre, mid, (after pre), (after (pre ++ [request 1 15])), (after ((pre ++ [request 1 15]) ++ mid)), (after (((pre ++ [request 1 15]) ++ mid) ++ [request 1 25])),
    (delta ((pre ++ [request 1 15]) ++ mid) [request 1 25]).
  ex; vm_compute; tauto.
Qed.
Print Assumptions C01_woken_module_refuted.

(** C02: the request after an over-long one gives no verdict and leaves the valid times alone. *)
Theorem C02_long_request_suppressed : forall E pre d1 t1 mid d2 t2 s0 s1 s2 s3 new,
  reached E pre s0 -> 1 < d1 ->
  step E (request d1 t1) s0 = Ret (tt, s1) -> no_requests mid -> run E mid s1 = Ret (tt, s2) ->
  step E (request d2 t2) s2 = Ret (tt, s3) -> added s2 s3 new ->
  verdicts new = [] /\ image_hooks new = 0%nat /\
  y_tv (n_sync s3) = y_tv (n_sync s2) /\ y_tvm (n_sync s3) = y_tvm (n_sync s2).
Proof. exact long_request. Qed.
Print Assumptions C02_long_request_suppressed.

(** C02: and the cycle it opens is fresh.  [sup] is what happens in the suppressed cycle: the verdict of the
    following cycle depends on the receptions of that cycle only. *)
Theorem C02_next_cycle_fresh : forall E pre d0 t0 sup d1 t1 mid d2 t2 s00 s01 s0 s1 s2 s3 new,
  reached E pre s00 -> 1 < d0 -> step E (request d0 t0) s00 = Ret (tt, s01) -> no_requests sup -> run E sup s01 = Ret (tt, s0) ->
  d1 <= 1 -> step E (request d1 t1) s0 = Ret (tt, s1) -> no_requests mid -> run E mid s1 = Ret (tt, s2) ->
  step E (request d2 t2) s2 = Ret (tt, s3) -> added s2 s3 new ->
  map fst (verdicts new) = seq 0 (nmod s2) /\
  forall pos v, In (pos, v) (verdicts new) -> (listening s2 pos <= listening s0 pos)%nat ->
    (v = true <-> forall obj, (obj < listening s2 pos)%nat -> N.of_nat (receptions E s1 mid pos obj) mod 65536 = 1).
Proof. exact long_request_next. Qed.
Print Assumptions C02_next_cycle_fresh.

Example C02_case : exists s0 s1 s2 s3 new,
  reached E0 add2 s0 /\ step E0 (request 2 5) s0 = Ret (tt, s1) /\ run E0 c01_mid s1 = Ret (tt, s2) /\
  step E0 (request 1 15) s2 = Ret (tt, s3) /\ added s2 s3 new /\ new <> [] /\ nmod s2 = 2%nat.
Proof.
  exists (after add2), (after (add2 ++ [request 2 5])), (after ((add2 ++ [request 2 5]) ++ c01_mid)), (after (((add2 ++ [request 2 5]) ++ c01_mid) ++ [request 1 15])),
   (delta ((add2 ++ [request 2 5]) ++ c01_mid) [request 1 15]).
  ex; vm_compute; discriminate.
Qed.

(** C03: the value of the process-valid-time getter ([y_tv]) is the time of the last whole-image hook, the
    per-module value ([y_tvm]) the time of the module's last 'valid' verdict. *)
Theorem C03_valid_times : forall E ops s, reached E ops s ->
  y_tv (n_sync s) = last_image (n_log s) 0 /\
  forall pos, (pos < MAXM E)%nat -> nth pos (y_tvm (n_sync s)) 0 = last_valid pos (n_log s) 0.
Proof. exact TimeI_reached. Qed.
Print Assumptions C03_valid_times.

(** C03: the whole-image hook runs, once, at exactly the requests at which every configured module is valid
    (a node without modules: at every request closing a cycle of DLC <= 1). *)
Theorem C03_hook_iff_all_valid : forall E pre d t s s' new,
  reached E pre s -> step E (request d t) s = Ret (tt, s') -> added s s' new ->
  (image_hooks new <= 1)%nat /\
  (image_hooks new = 1%nat <-> (map fst (verdicts new) = seq 0 (nmod s) /\
     (nmod s = 0%nat -> y_pr_flag (n_sync s) && (y_pr_dlc (n_sync s) <=? 1) = true) /\
     forall pos v, In (pos, v) (verdicts new) -> v = true)).
Proof. exact hook_iff. Qed.
Print Assumptions C03_hook_iff_all_valid.

(** C03: between requests neither hook nor verdict occurs. *)
Theorem C03_only_at_requests : forall E pre o s s' new,
  reached E pre s -> is_request o = false -> step E o s = Ret (tt, s') -> added s s' new ->
  verdicts new = [] /\ image_hooks new = 0%nat.
Proof. exact no_verdict_between. Qed.
Print Assumptions C03_only_at_requests.

Example C03_case :
  let ops := add2 ++ [request 1 5; rx_frame mo_1_0 10 0 (repeat 7 8); rx_frame mo_2_0 20 0 (repeat 8 8); rx_frame mo_2_1 20 1 (repeat 8 8); request 1 15;
     rx_frame mo_1_0 10 0 (repeat 7 8); request 1 25] in
  reached E0 ops (after ops) /\ y_tv (n_sync (after ops)) = 15 /\ nth 0 (y_tvm (n_sync (after ops))) 0 = 25 /\ nth 1 (y_tvm (n_sync (after ops))) 0 = 15.
Proof. cbn zeta. ex. Qed.

(** C04: the period getter never exceeds the maximum, in any state. *)
Theorem C04_period_bounded : forall E s p s', get_period E s = Ret (p, s') -> p <= PMAX E.
Proof. exact period_max. Qed.
Print Assumptions C04_period_bounded.

(** C04: it is the distance of the last two requests, capped at the maximum, unless the period was triggered
    after the last request. *)
Theorem C04_period_is_distance : forall E pre d1 t1 mid d2 t2 mid' s0 s1 s2 s3 s4 s5 p,
  reached E pre s0 -> step E (request d1 t1) s0 = Ret (tt, s1) -> no_requests mid -> run E mid s1 = Ret (tt, s2) ->
  step E (request d2 t2) s2 = Ret (tt, s3) ->
  forallb (fun o => negb (is_request o) && negb (is_trigger o)) mid' = true -> run E mid' s3 = Ret (tt, s4) ->
  get_period E s4 = Ret (p, s5) ->
  p = N.min (u32_sub t2 t1) (PMAX E).
Proof. exact period_distance. Qed.
Print Assumptions C04_period_is_distance.

(** C04: the cycle time (getter [y_cyc]) never exceeds the maximum; a larger one is refused with an error and
    replaced by the maximum, an allowed one is stored. *)
Theorem C04_cycle_time_bounded : forall E ops s, reached E ops s -> y_cyc (n_sync s) <= PMAX E.
Proof. exact PerI_reached. Qed.
Print Assumptions C04_cycle_time_bounded.
Theorem C04_cycle_time_set : forall E t s, exists e s',
  set_cycle_time E t s = Ret (e, s') /\ y_cyc (n_sync s') = N.min t (PMAX E) /\ (e = ERR_OK <-> t <= PMAX E) /\
  s' = set_n_sync s (set_y_cyc (n_sync s) (N.min t (PMAX E))).
Proof. exact cycle_time_set. Qed.
Print Assumptions C04_cycle_time_set.

Example C04_case :
  let ops := add2 ++ [request 1 5; OpCycle 60; request 1 35; OpPeriod] in
  reached E0 ops (after ops) /\ (exists s, get_period E0 (after ops) = Ret (30, s)) /\ y_cyc (n_sync (after ops)) = 50 /\
  (exists s, get_period E0 (after (ops ++ [request 1 105])) = Ret (50, s)).
Proof. cbn zeta. ex; eexists; vm_compute; reflexivity. Qed.

(** C09: with the check enabled, a data frame in a message object of module [pos] whose identifier names
    another module number or whose DLC is not the configured one changes nothing at all; the receive routine
    answers with the corresponding error code (the interrupt handler drops that code). *)
Theorem C09_wrong_frame_ignored : forall E pre s mo id dlc data now s' pos,
  CHK E = true -> reached E pre s -> owner s mo = Some pos -> 512 <= id -> id < 1024 ->
  (id - 512) / 4 + 1 <> m_nr (modat s pos) \/ dlc <> r_dlc_s (rxat (modat s pos) (N.to_nat (id mod 4))) ->
  step E (OpFrame mo id dlc data now) s = Ret (tt, s') ->
  s' = s /\ rx_data_main E pos id dlc data s = Ret (if (id - 512) / 4 + 1 =? m_nr (modat s pos) then E_RX_WRONG_DLC else E_RX_WRONG_NR, s).
Proof. exact wrong_frame. Qed.
Print Assumptions C09_wrong_frame_ignored.

Example C09_case :
  reached E0 add2 (after add2) /\ owner (after add2) mo_2_1 = Some 1%nat /\ CHK E0 = true /\
  (data_id 19 1 - 512) / 4 + 1 <> m_nr (modat (after add2) 1) /\ 7 <> r_dlc_s (rxat (modat (after add2) 1) 1) /\
  (exists s', step E0 (OpFrame mo_2_1 (data_id 19 1) 8 (repeat 1 8) 0) (after add2) = Ret (tt, s')) /\
  (exists s', step E0 (OpFrame mo_2_1 (data_id 20 1) 7 (repeat 1 8) 0) (after add2) = Ret (tt, s')).
Proof. ex; try (vm_compute; discriminate); eexists; apply after_step; vm_compute; reflexivity. Qed.

(** C10: an accepted frame replaces the application object registered for (module, object) by the conversion of
    the received bytes, counts one reception of that object, and changes nothing else. *)
Theorem C10_accepted_frame_effect : forall E pre s mo id dlc data now s' pos obj,
  reached E pre s -> accepted E s (OpFrame mo id dlc data now) pos obj = true ->
  step E (OpFrame mo id dlc data now) s = Ret (tt, s') ->
  let o := rxat (modat s pos) obj in
  exists g app, r_conv_s o = Some g /\ nth_error (n_mem s) (r_addr o) = Some app /\
    nth_error (n_mem s') (r_addr o) = Some (fst (g data app dlc)) /\
    (forall a, a <> r_addr o -> nth_error (n_mem s') a = nth_error (n_mem s) a) /\
    get2 (y_cnt (n_sync s')) pos obj = (get2 (y_cnt (n_sync s)) pos obj + 1) mod 65536 /\
    (forall p j, p <> pos \/ j <> obj -> get2 (y_cnt (n_sync s')) p j = get2 (y_cnt (n_sync s)) p j) /\
    s' = set_n_sync (set_n_mem s (n_mem s')) (set_y_cnt (n_sync s) (y_cnt (n_sync s'))).
Proof. exact right_frame. Qed.
Print Assumptions C10_accepted_frame_effect.

(** C10: with the check enabled the identifier of an accepted frame denotes exactly that module and object *)
Theorem C10_accepted_identifier : forall E s mo id dlc data now pos obj, CHK E = true -> 512 <= id -> id < 1024 ->
  accepted E s (OpFrame mo id dlc data now) pos obj = true ->
  id = 512 + 4 * (m_nr (modat s pos) - 1) + N.of_nat obj /\ dlc = r_dlc_s (rxat (modat s pos) obj).
Proof. exact accepted_ident. Qed.
Print Assumptions C10_accepted_identifier.

Example C10_case :
  let f := rx_frame mo_2_1 20 1 [1;2;3;4;5;6;7;8] in
  reached E0 add2 (after add2) /\ accepted E0 (after add2) f 1 1 = true /\
  step E0 f (after add2) = Ret (tt, after (add2 ++ [f])) /\
  nth_error (n_mem (after (add2 ++ [f]))) 2 = Some [1;2;3;4;5;6;7;8] /\ get2 (y_cnt (n_sync (after (add2 ++ [f])))) 1 1 = 1.
Proof. cbn zeta. ex. Qed.

(** C21: in every history the first-process-request callback runs at the first process request only, the
    first-status-request callback at the first accepted status request only. *)
Theorem C21_first_process_request : forall E ops o s s' new,
  reached E ops s -> step E o s = Ret (tt, s') -> added s s' new ->
  filter is_freq new = (if is_request o && (num is_freq (n_log s) =? 0)%nat then [EvFirstReq (y_cbf (n_sync s))] else []).
Proof. exact first_request. Qed.
Print Assumptions C21_first_process_request.
Theorem C21_first_status_request : forall E ops o s s' new,
  reached E ops s -> step E o s = Ret (tt, s') -> added s s' new ->
  filter is_fstat new = (if is_status E s o && (num is_fstat (n_log s) =? 0)%nat then [EvFirstStatus (z_cbs (n_sys s))] else []).
Proof. exact first_status. Qed.
Print Assumptions C21_first_status_request.
Theorem C21_at_most_once : forall E ops s, reached E ops s ->
  (num is_freq (n_log s) <= 1)%nat /\ (num is_fstat (n_log s) <= 1)%nat.
Proof. exact first_at_most_once. Qed.
Print Assumptions C21_at_most_once.

Example C21_case :
  let st := sysmsg 1 [1;0;0;0;0;0;0;0] in
  let ops := add2 ++ [OpFirstReqCb (Some 3); OpSysCb (Some 4) None None; request 1 5; st; request 1 15; st] in
  reached E0 ops (after ops) /\ filter is_freq (n_log (after ops)) = [EvFirstReq (Some 3)] /\
  filter is_fstat (n_log (after ops)) = [EvFirstStatus (Some 4)] /\ is_status E0 (after ops) st = true.
Proof. cbn zeta. ex. Qed.
