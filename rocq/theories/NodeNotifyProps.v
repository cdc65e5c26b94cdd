(** C83: messages of the master that tell the cycle time and request a factory reset. *)
From Verif Require Import Words ErrModel NodeModel NodeSpec NodeNotifySpec NodeNotify NodeEx.

(** The cycle time after one more operation: set by the application or by the master, bounded by the maximum, changed by nothing
    else. *)
Theorem C83_cycle_time : forall E pre o s s', reached E pre s -> step E o s = Ret (tt, s') ->
  y_cyc (n_sync s') =
    match o with
    | OpCycle t => N.min t (PMAX E)
    | _ => if master_tells E s o TELL_CYCLE then N.min (op_byte o 2) (PMAX E) else y_cyc (n_sync s)
    end.
Proof. exact cycle_after_step. Qed.
Print Assumptions C83_cycle_time.

(** The message changes nothing but the cycle time, and a time above the maximum is reported as an error. *)
Theorem C83_cycle_message : forall E pre o s s', reached E pre s -> step E o s = Ret (tt, s') -> master_tells E s o TELL_CYCLE = true ->
  s' = set_n_err (set_n_sync s (set_y_cyc (n_sync s) (N.min (op_byte o 2) (PMAX E)))) (n_err s') /\
  (if op_byte o 2 <=? PMAX E then n_err s' = n_err s
   else exists r, syserr_send (n_err s) E_CONFIG_INVALID LVL_INFO (m_nr (modat s 0)) = Some (n_err s', r)).
Proof. exact cycle_told. Qed.
Print Assumptions C83_cycle_message.

(** The callback for factory resets is called once by each such message, with its parameter, and by nothing else. *)
Theorem C83_reset_called : forall E pre o s s' new, reached E pre s -> step E o s = Ret (tt, s') -> n_log s' = n_log s ++ new ->
  resets new =
    if master_tells E s o TELL_RESET then match z_cbr (n_sys s) with Some c => [EvReset c (op_byte o 1)] | None => [] end else [].
Proof. exact reset_after_step. Qed.
Print Assumptions C83_reset_called.

(** It changes nothing in the library. *)
Theorem C83_reset_message : forall E pre o s s', reached E pre s -> step E o s = Ret (tt, s') -> master_tells E s o TELL_RESET = true ->
  s' = set_n_log s (n_log s ++ match z_cbr (n_sys s) with Some c => [EvReset c (op_byte o 1)] | None => [] end).
Proof. exact reset_told. Qed.
Print Assumptions C83_reset_message.

Example C83_case :
  let pre := add2 ++ [OpSysCb None None (Some 7)] in
  let f := sysmsg 20 [8;0;40;0;0;0;0;0] in let g := sysmsg 1 [8;99;200;0;0;0;0;0] in let h := sysmsg 1 [48;5;0;0;0;0;0;0] in
  reached E0 (pre ++ [f]) (after (pre ++ [f])) /\ master_tells E0 (after pre) f TELL_CYCLE = true /\
  step E0 f (after pre) = Ret (tt, after (pre ++ [f])) /\ y_cyc (n_sync (after (pre ++ [f]))) = 40 /\
  y_cyc (n_sync (after (pre ++ [f; g]))) = 50 /\ es_count (n_err (after (pre ++ [f; g]))) = 1%nat /\
  master_tells E0 (after pre) h TELL_RESET = true /\ delta pre [h] = [EvReset 7 5].
Proof. cbn zeta. ex. Qed.

(** Unlike the other requests with lasting effect (number, type, silent: C17, C20, C69) a reset needs no serial number and is
    obeyed as a broadcast. *)
Theorem C83_reset_unauthorised : forall E pre s id data now s' c, reached E pre s -> id_nr id = 1 -> nmod s <> 0%nat -> z_cbr (n_sys s) = Some c ->
  byte_at data 0 = TELL_RESET -> step E (OpFrame MO_SYS1 id 8 data now) s = Ret (tt, s') ->
  n_log s' = n_log s ++ [EvReset c (byte_at data 1)].
Proof. exact reset_broadcast. Qed.
Print Assumptions C83_reset_unauthorised.
