(** C13-C16, C18-C20, C22, C26: system messages. *)
From Verif Require Import Words ErrModel NodeModel NodeSpec NodeSysP NodeEx.

(** C13: a system message with another DLC than 8 is reported as an error and changes nothing else. *)
Theorem C13_wrong_dlc_only_reported : forall E pre s mo id dlc data now s',
  reached E pre s -> sys_mo E mo = true -> dlc <> 8 -> step E (OpFrame mo id dlc data now) s = Ret (tt, s') ->
  s' = set_n_err s (n_err s') /\ exists r, syserr_send (n_err s) E_SYS_DLC LVL_INFO (m_nr (modat s 0)) = Some (n_err s', r).
Proof. intros E pre s mo id dlc data now s'. exact (wrong_dlc E pre mo id dlc data now s s'). Qed.
Print Assumptions C13_wrong_dlc_only_reported.

Example C13_case :
  let f := OpFrame MO_SYS2 (sys_id 10) 7 [32;0;30;0;0;30;116;222] 0 in
  reached E0 add2 (after add2) /\ sys_mo E0 MO_SYS2 = true /\ step E0 f (after add2) = Ret (tt, after (add2 ++ [f])) /\
  es_count (n_err (after (add2 ++ [f]))) = 1%nat /\ m_nr (modat (after (add2 ++ [f])) 0) = 10.
Proof. cbn zeta. ex. Qed.

(** C14: a direct message to a number that no table entry has changes nothing at all. *)
Theorem C14_unknown_number_ignored : forall E pre s mo id data now s',
  reached E pre s -> sys_mo E mo = true -> id_nr id <> 1 ->
  (forall p, (p < length (tab_of s))%nat -> m_nr (modat s p) <> id_nr id) ->
  step E (OpFrame mo id 8 data now) s = Ret (tt, s') -> s' = s.
Proof. intros E pre s mo id data now s' R M. exact (unknown_number E pre mo id 8 data now s s' R M eq_refl). Qed.
Print Assumptions C14_unknown_number_ignored.
(** C14: an unknown or unimplemented command is reported as an error and changes nothing else. *)
Theorem C14_unknown_command_only_reported : forall E pre s mo id data now s',
  reached E pre s -> sys_mo E mo = true ->
  (if id_nr id =? 1 then nmod s <> 0%nat else exists p, (p < length (tab_of s))%nat /\ m_nr (modat s p) = id_nr id) ->
  known_cmd (byte_at data 0) = false -> step E (OpFrame mo id 8 data now) s = Ret (tt, s') ->
  s' = set_n_err s (n_err s') /\ exists e r, e <> ERR_OK /\ syserr_send (n_err s) e LVL_INFO (m_nr (modat s 0)) = Some (n_err s', r).
Proof. intros E pre s mo id data now s' R M. exact (unknown_command E pre mo id 8 data now s s' R M eq_refl). Qed.
Print Assumptions C14_unknown_command_only_reported.
(** C14, finding: "belongs to no table entry" cannot be weakened to "belongs to no configured module": unused
    table entries have default numbers and a status request to such a number is answered. *)
Theorem C14_unconfigured_number_refuted : exists pre s s' new,
  reached E0 pre s /\ (forall p, (p < nmod s)%nat -> m_nr (modat s p) <> 127) /\
  step E0 (sysmsg 127 [1;0;0;0;0;0;0;0]) s = Ret (tt, s') /\ n_log s' = n_log s ++ new /\
  sent new = [(sys_tx_id 127, 8, [4;0;0;0;0;30;116;222])].
Proof.
  exists add2, (after add2), (after (add2 ++ [sysmsg 127 [1;0;0;0;0;0;0;0]])). eexists. ex.
  intros p Hp. change (nmod (after add2)) with 2%nat in Hp. destruct p as [|[|p]]; [vm_compute; discriminate|vm_compute; discriminate|lia].
Qed.
Print Assumptions C14_unconfigured_number_refuted.

Example C14_case :
  let f := sysmsg 20 [99;0;0;0;0;0;0;0] in let g := sysmsg 77 [1;0;0;0;0;0;0;0] in
  reached E0 add2 (after add2) /\ id_nr (sys_id 77) = 77 /\ forallb (fun m => negb (m_nr m =? 77)) (tab_of (after add2)) = true /\
  step E0 g (after add2) = Ret (tt, after (add2 ++ [g])) /\ m_nr (modat (after add2) 1) = id_nr (sys_id 20) /\ known_cmd 99 = false /\
  step E0 f (after add2) = Ret (tt, after (add2 ++ [f])) /\ es_count (n_err (after (add2 ++ [f]))) = 1%nat.
Proof. cbn zeta. ex. Qed.

(** C15: every addressed awake module answers a status request with exactly one acknowledge, in table order
    (none in listen-only mode); then all pending errors are sent, oldest first, and the memory is empty. *)
Theorem C15_status_request_partial : forall E pre s mo id data now s' l,
  env_ok E -> reached E pre s -> sys_mo E mo = true -> numbers_ok s -> numbers_differ s ->
  addressed s id l -> byte_at data 0 = 1 -> step E (OpFrame mo id 8 data now) s = Ret (tt, s') ->
  exists new, n_log s' = n_log s ++ new /\
  sent new = (if listen_only s then [] else of_awake s (fun i => [status_tx E s i]) l) ++ flat_map (error_tx s) (pending_errors (n_err s)) /\
  es_count (n_err s') = 0%nat.
Proof. intros E pre s mo id data now s' l. exact (status_request E pre mo id data now s s' l). Qed.
Print Assumptions C15_status_request_partial.
(** C15, finding: "in listen-only mode nothing is sent" holds for the acknowledges only; pending errors are still
    handed to the controller. *)
Theorem C15_listen_only_refuted : exists pre s s' new,
  reached E0 pre s /\ listen_only s = true /\ step E0 (sysmsg 10 [1;0;0;0;0;0;0;0]) s = Ret (tt, s') /\
  n_log s' = n_log s ++ new /\ length (sent new) = 1%nat.
Proof.
  exists (add2 ++ [OpMode MODE_LISTEN_ONLY; sysmsg 20 [99;0;0;0;0;0;0;0]]). eexists. exists (after ((add2 ++ [OpMode MODE_LISTEN_ONLY; sysmsg 20 [99;0;0;0;0;0;0;0]]) ++ [sysmsg 10 [1;0;0;0;0;0;0;0]])). eexists.
  split; [simple apply reached_after; vm_compute; reflexivity|]. split; [vm_compute; reflexivity|]. split; [simple apply after_step; vm_compute; reflexivity|].
  split; [vm_compute; reflexivity|]. reflexivity.
Qed.
Print Assumptions C15_listen_only_refuted.
(** C15, finding: if two modules got the same number (C30), an awake module does not answer at all while the first module
    with that number is silent: the answer depends on the state of the first module with the number. *)
Definition twins : list op := add2 ++ [sysmsg 10 [32;0;20;0;0;30;116;222]; OpSilent [109;111;100;49;0] 20 SILENT].
Theorem C15_duplicate_refuted : exists s s', reached E0 twins s /\ numbers_ok s /\ listen_only s = false /\ nmod s = 2%nat /\ silat s 1 = AWAKE /\ m_nr (modat s 1) = 20 /\
  step E0 (sysmsg 1 [1;0;0;0;0;0;0;0]) s = Ret (tt, s') /\ exists new, n_log s' = n_log s ++ new /\ sent new = [].
Proof.
  exists (after twins), (after (twins ++ [sysmsg 1 [1;0;0;0;0;0;0;0]])). split; [simple apply reached_after; vm_compute; reflexivity|].
  split. { unfold numbers_ok. assert (forallb (fun m => (1 <=? m_nr m) && (m_nr m <=? 255)) (tab_of (after twins)) = true) as K by (vm_compute; reflexivity). rewrite forallb_forall in K. intros i Li. specialize (K (modat (after twins) i) ltac:(apply nth_In; exact Li)). lia. }
  split; [vm_compute; reflexivity|]. split; [vm_compute; reflexivity|]. split; [vm_compute; reflexivity|]. split; [vm_compute; reflexivity|].
  split; [simple apply after_step; vm_compute; reflexivity|]. eexists. split; [vm_compute; reflexivity|]. reflexivity.
Qed.
Print Assumptions C15_duplicate_refuted.

Example C15_case :
  let pre := add2 ++ [OpSilent [109;111;100;50;0] 20 SILENT; OpAdd (desc 51 1 1) 30 [3;0;0;0]%nat [7;0;0;0]%nat; sysmsg 10 [99;0;0;0;0;0;0;0]] in
  let f := sysmsg 1 [1;0;0;0;0;0;0;0] in
  reached E0 pre (after pre) /\ step E0 f (after pre) = Ret (tt, after (pre ++ [f])) /\
  forallb (fun m => (1 <=? m_nr m) && (m_nr m <=? 255)) (tab_of (after pre)) = true /\
  map (fun p => m_nr (modat (after pre) p)) (seq 0 (nmod (after pre))) = [10; 20; 30] /\
  addressed (after pre) (sys_id 1) [0; 1; 2]%nat /\
  of_awake (after pre) (fun i => [status_tx E0 (after pre) i]) [0; 1; 2]%nat =
    [(39, 8, [4;109;111;100;49;30;116;222]); (119, 8, [4;109;111;100;51;30;116;222])] /\
  sent (delta pre [f]) = of_awake (after pre) (fun i => [status_tx E0 (after pre) i]) [0; 1; 2]%nat ++ [(39, 8, [3;117;0;0;101;0;4;117])].
Proof.
  cbn zeta. ex.
  left. split; [vm_compute; reflexivity|]. split; [vm_compute; discriminate|vm_compute; reflexivity].
Qed.

(** C16: every addressed awake module answers a version request with its two version acknowledges ... *)
Theorem C16_version_request : forall E pre s mo id data now s' l,
  reached E pre s -> sys_mo E mo = true -> numbers_ok s -> numbers_differ s ->
  addressed s id l -> byte_at data 0 = 5 -> step E (OpFrame mo id 8 data now) s = Ret (tt, s') ->
  only_tx s s' /\ n_err s' = n_err s /\ exists new, n_log s' = n_log s ++ new /\ sent new = (if listen_only s then [] else of_awake s (version_tx E s) l).
Proof. intros E pre s mo id data now s' l. exact (version_request E pre mo id data now s s' l). Qed.
Print Assumptions C16_version_request.
(** ... whose bytes decode to the version data of the port. *)
Theorem C16_version_bytes_decode : forall E s pos,
  BOOTMAJ E < 256 -> BOOTMIN E < 65536 -> SWMAJ E < 256 -> SWMIN E < 65536 -> IDENT E < 4294967296 -> CHANGEIDX E < 16777216 ->
  exists b1 b2 b3 s1 s2 s3 i1 i2 i3 i4 c1 c2 c3,
    version_tx E s pos = [(sys_tx_id (m_nr (modat s pos)), 8, [5; b1; b2; b3; 0; s1; s2; s3]); (sys_tx_id (m_nr (modat s pos)), 8, [6; i1; i2; i3; i4; c1; c2; c3])] /\
    be [b1] = BOOTMAJ E /\ be [b2; b3] = BOOTMIN E /\ be [s1] = SWMAJ E /\ be [s2; s3] = SWMIN E /\
    be [i1; i2; i3; i4] = IDENT E /\ be [c1; c2; c3] = CHANGEIDX E.
Proof. exact version_decode. Qed.
Print Assumptions C16_version_bytes_decode.

Example C16_case :
  let f := sysmsg 20 [5;0;0;0;0;0;0;0] in
  reached E0 add2 (after add2) /\ step E0 f (after add2) = Ret (tt, after (add2 ++ [f])) /\
  addressed (after add2) (sys_id 20) [1]%nat /\
  sent (delta add2 [f]) = [(79, 8, [5;1;0;2;0;3;0;4]); (79, 8, [6;0;188;97;78;0;0;77])].
Proof.
  cbn zeta. ex. right. split; [vm_compute; discriminate|]. exists 1%nat. split; [vm_compute; lia|]. split; vm_compute; reflexivity.
Qed.

(** C18: below 2^24 the serial number of a status acknowledge, put into the last three bytes of a
    change-number, change-type, silent or awake message, is recognised ... *)
Theorem C18_announced_serial_accepted_partial : forall E s pos data,
  SERIAL E < 16777216 -> skipn 5 (firstn 8 data) = skipn 5 (snd (status_tx E s pos)) -> has_serial E data = true.
Proof. exact announced_serial. Qed.
Print Assumptions C18_announced_serial_accepted_partial.
(** ... and without the serial number the four messages have no effect (so [has_serial] is what decides). *)
Theorem C18_wrong_serial_ignored_partial : forall E pre s mo id data now s',
  reached E pre s -> sys_mo E mo = true -> needs_serial (byte_at data 0) = true -> id_nr id <> 1 -> has_serial E data = false ->
  step E (OpFrame mo id 8 data now) s = Ret (tt, s') -> s' = s.
Proof. intros E pre s mo id data now s'. exact (serial_refused E pre mo id data now s s'). Qed.
Print Assumptions C18_wrong_serial_ignored_partial.
(** C18, finding: a node whose serial number does not fit into 24 bits ignores all of these messages, whatever
    serial number they carry. *)
Theorem C18_large_serial_refuted : forall E pre s mo id data now s',
  16777216 <= SERIAL E -> reached E pre s -> sys_mo E mo = true -> needs_serial (byte_at data 0) = true -> id_nr id <> 1 ->
  step E (OpFrame mo id 8 data now) s = Ret (tt, s') -> s' = s.
Proof. exact large_serial. Qed.
Print Assumptions C18_large_serial_refuted.

Example C18_case :
  let f := sysmsg 10 ([33] ++ [109;111;100;49] ++ skipn 5 (snd (status_tx E0 (after add2) 0))) in
  reached E0 add2 (after add2) /\ SERIAL E0 < 16777216 /\ step E0 f (after add2) = Ret (tt, after (add2 ++ [f])) /\
  awake (after add2) 0 = true /\ awake (after (add2 ++ [f])) 0 = false.
Proof. cbn zeta. ex. vm_compute. reflexivity. Qed.
Example C18_large_case :
  let E1 := Env 8 32 50 true true true true 305419896 1 2 3 4 12345678 77 [0;0;0;0;0;0;0;0] in
  env_ok E1 /\ 16777216 <= SERIAL E1 /\ exists s, reached E1 [] s.
Proof.
  cbn zeta. split; [unfold env_ok; cbn; lia|]. split; [vm_compute; discriminate|].
  eexists. eexists. split; [|reflexivity]. exists mem0, slot_empty, [], 250. vm_compute. reflexivity.
Qed.

(** C19: a direct change-baud-rate message has no effect except that the known node reports an error. *)
Theorem C19_direct_refused : forall E pre s mo id data now s',
  reached E pre s -> sys_mo E mo = true -> byte_at data 0 = 2 -> id_nr id <> 1 ->
  step E (OpFrame mo id 8 data now) s = Ret (tt, s') ->
  s' = set_n_err s (n_err s') /\ (forall p, (p < length (tab_of s))%nat -> m_nr (modat s p) = id_nr id ->
     exists r, syserr_send (n_err s) E_NO_DIRECT LVL_INFO (m_nr (modat s 0)) = Some (n_err s', r)).
Proof. intros E pre s mo id data now s'. exact (baud_direct E pre mo id data now s s'). Qed.
Print Assumptions C19_direct_refused.
(** C19: a broadcast one, if the hardware can be stopped ([ok1]), sets the rate iff it is in the table and restores the
    mode; a failing restart ([ok2]) is reported.  If the hardware cannot be stopped the rate stays and the error is
    reported. *)
Theorem C19_broadcast : forall E pre s mo id data now s',
  reached E pre s -> sys_mo E mo = true -> byte_at data 0 = 2 -> id_nr id = 1 -> nmod s <> 0%nat ->
  byte_at data 1 < 256 -> byte_at data 2 < 256 -> step E (OpFrame mo id 8 data now) s = Ret (tt, s') ->
  if ok1 s then
    k_bdr (n_cfg s') = (if known_rate (frame_rate data) then frame_rate data else k_bdr (n_cfg s)) /\
    n_log s' = n_log s ++ (if known_rate (frame_rate data) then [EvRate (frame_rate data)] else []) /\
    h_mode (n_hw s') = h_mode (n_hw s) /\ n_tx s' = n_tx s /\ n_sync s' = n_sync s /\ n_sys s' = n_sys s /\ tab_of s' = tab_of s /\ k_silent (n_cfg s') = k_silent (n_cfg s) /\
    (if ok2 s then n_err s' = n_err s else exists r, syserr_send (n_err s) E_NOT_IMPLEMENTED LVL_INFO (m_nr (modat s 0)) = Some (n_err s', r))
  else
    k_bdr (n_cfg s') = k_bdr (n_cfg s) /\ n_log s' = n_log s /\ h_mode (n_hw s') = MODE_STOPPED /\
    exists r, syserr_send (n_err s) E_NOT_IMPLEMENTED LVL_INFO (m_nr (modat s 0)) = Some (n_err s', r).
Proof. intros E pre s mo id data now s'. exact (baud_broadcast E pre mo id data now s s'). Qed.
Print Assumptions C19_broadcast.

Example C19_case :
  let f := sysmsg 1 [2;1;244;0;0;0;0;0] in let g := sysmsg 1 [2;0;33;0;0;0;0;0] in let pre := add2 ++ [OpBaud 250; OpMode MODE_OPERATIONAL] in
  reached E0 pre (after pre) /\ step E0 f (after pre) = Ret (tt, after (pre ++ [f])) /\ step E0 g (after pre) = Ret (tt, after (pre ++ [g])) /\
  ok1 (after pre) = true /\ frame_rate [2;1;244;0;0;0;0;0] = 500 /\
  k_bdr (n_cfg (after pre)) = 250 /\ k_bdr (n_cfg (after (pre ++ [f]))) = 500 /\ k_bdr (n_cfg (after (pre ++ [g]))) = 250 /\
  h_mode (n_hw (after (pre ++ [f]))) = MODE_OPERATIONAL.
Proof. cbn zeta. ex. Qed.

(** C20: a direct stay-silent/awake message changes something only if it carries the serial number and the type of
    the addressed module; then exactly the silent/awake routine of that module runs. *)
Theorem C20_needs_number_serial_and_type : forall E pre s mo id data now s' st,
  reached E pre s -> sys_mo E mo = true -> silent_cmd (byte_at data 0) = Some st -> id_nr id <> 1 ->
  step E (OpFrame mo id 8 data now) s = Ret (tt, s') ->
  match entry_of_nr s (id_nr id) with
  | Some pos => if has_serial E data && has_type s pos data then set_silent_awake E pos st s = Ret (ERR_OK, s') else s' = s
  | None => s' = s
  end.
Proof. intros E pre s mo id data now s' st. exact (silent_message E pre mo id data now s s' st). Qed.
Print Assumptions C20_needs_number_serial_and_type.
(** C20: that routine sets the state of that module and leaves all other modules, the numbers, types, message
    objects and the reception state alone. *)
Theorem C20_only_that_module : forall E pre s pos st e s', reached E pre s -> set_silent_awake E pos st s = Ret (e, s') ->
  (forall p, p <> pos -> modat s' p = modat s p /\ silat s' p = silat s p) /\ nmod s' = nmod s /\ n_hw s' = n_hw s /\ n_sync s' = n_sync s /\ n_sys s' = n_sys s /\ n_err s' = n_err s /\
  (e = ERR_OK -> silat s' pos = st) /\ m_nr (modat s' pos) = m_nr (modat s pos) /\ m_type (modat s' pos) = m_type (modat s pos).
Proof. exact silent_awake_others_reached. Qed.
Print Assumptions C20_only_that_module.
(** C20: a broadcast one (and a broadcast change of number or type) is only reported as an error. *)
Theorem C20_broadcast_refused : forall E pre s mo id data now s',
  reached E pre s -> sys_mo E mo = true -> needs_serial (byte_at data 0) = true -> id_nr id = 1 ->
  step E (OpFrame mo id 8 data now) s = Ret (tt, s') -> s' = set_n_err s (n_err s') /\ exists e r, syserr_send (n_err s) e LVL_INFO (m_nr (modat s 0)) = Some (n_err s', r).
Proof. intros E pre s mo id data now s'. exact (broadcast_refused E pre mo id data now s s'). Qed.
Print Assumptions C20_broadcast_refused.

Example C20_case :
  let f := sysmsg 20 [33;109;111;100;50;30;116;222] in let g := sysmsg 20 [34;109;111;100;50;30;116;222] in let h := sysmsg 20 [33;109;111;100;49;30;116;222] in
  reached E0 add2 (after add2) /\ step E0 f (after add2) = Ret (tt, after (add2 ++ [f])) /\ step E0 h (after add2) = Ret (tt, after (add2 ++ [h])) /\
  has_serial E0 [33;109;111;100;50;30;116;222] && has_type (after add2) 1 [33;109;111;100;50;30;116;222] = true /\
  has_type (after add2) 1 [33;109;111;100;49;30;116;222] = false /\
  k_silent (n_cfg (after (add2 ++ [f]))) = [1;0;1;1;1;1;1;1] /\ k_silent (n_cfg (after (add2 ++ [h]))) = [1;1;1;1;1;1;1;1] /\
  k_silent (n_cfg (after (add2 ++ [f; g]))) = [1;1;1;1;1;1;1;1].
Proof. cbn zeta. ex. Qed.

(** C22: a system time message hands the encoded time to the callback (if any) and does nothing else. *)
Theorem C22_time_delivered : forall E pre s mo id data now s',
  reached E pre s -> sys_mo E mo = true -> heard s id = true -> byte_at data 0 = 7 -> bytes_ok data ->
  step E (OpFrame mo id 8 data now) s = Ret (tt, s') ->
  s' = set_n_log s (n_log s ++ match z_cbt (n_sys s) with
    | Some c => [EvTime c (be [byte_at data 2; byte_at data 3; byte_at data 4; byte_at data 5])
                   (if byte_at data 6 <? 128 then Z.of_N (byte_at data 6) else (Z.of_N (byte_at data 6) - 256)%Z) (negb (byte_at data 7 =? 0))]
    | None => [] end).
Proof. intros E pre s mo id data now s'. exact (time_message E pre mo id data now s s'). Qed.
Print Assumptions C22_time_delivered.

Example C22_case :
  let f := sysmsg 1 [7;0;1;2;3;4;254;1] in let pre := add2 ++ [OpSysCb None (Some 8) None] in
  reached E0 pre (after pre) /\ heard (after pre) (sys_id 1) = true /\ step E0 f (after pre) = Ret (tt, after (pre ++ [f])) /\
  delta pre [f] = [EvTime 8 16909060 (-2)%Z true].
Proof. cbn zeta. ex. Qed.

(** C26: a process request sends the cyclic data and then at most one error frame, that of the oldest pending
    error, and removes exactly that error ([st] is the error memory after failed transmissions of the cycle have been
    recorded) ... *)
Theorem C26_one_error_per_request : forall E pre s dlc now s',
  env_ok E -> reached E pre s -> numbers_ok s -> step E (request dlc now) s = Ret (tt, s') ->
  exists new1 new2 st, n_log s' = n_log s ++ new1 ++ new2 /\ reports (m_nr (modat s 0)) (n_err s) st /\
    (forall f, In f (sent new1) -> exists pos obj, fst (fst f) = get2 (x_id (n_tx s)) pos obj) /\
    sent new2 = match pending_errors st with [] => [] | e :: _ => error_tx s e end /\
    n_err s' = (if (es_count st =? 0)%nat then st else match es_get st with Some (st', _) => st' | None => st end).
Proof. intros E pre s dlc now s'. exact (process_errors E pre dlc now s s'). Qed.
Print Assumptions C26_one_error_per_request.
(** ... whose bytes decode to code, additional information, priority and group of the error. *)
Theorem C26_error_bytes_decode : forall e, e_code e < 4294967296 -> e_info e < 256 -> e_prio e < 256 -> e_group e < 256 ->
  exists c1 c2 c3 c4, error_frame e = [3; c1; c2; c3; c4; e_info e; e_prio e; e_group e] /\ be [c1; c2; c3; c4] = e_code e.
Proof. exact error_decode. Qed.
Print Assumptions C26_error_bytes_decode.

Example C26_case :
  let pre := add2 ++ [sysmsg 20 [99;0;0;0;0;0;0;0]] in let f := request 1 7 in
  reached E0 pre (after pre) /\ step E0 f (after pre) = Ret (tt, after (pre ++ [f])) /\ length (pending_errors (n_err (after pre))) = 1%nat /\
  map (fun x => fst (fst x)) (sent (delta pre [f])) = [1060; 1061; 1100; 39] /\ es_count (n_err (after (pre ++ [f]))) = 0%nat.
Proof. cbn zeta. ex. Qed.
