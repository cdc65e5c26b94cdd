(** Model of the search for the baud rate (reconnect): source/core/io_can_reconnect.c, the handlers of
    source/arch/canpie_adapter/io_can_main_hw_handler.c and lcsa_start (source/api/li_can_slv_api.c:100-288), build with
    LI_CAN_SLV_RECONNECT and LI_CAN_SLV_RECONNECT_MAIN_NODE, without monitor node, error storage, download information and the
    lock of the error handler.  Line numbers are those of io_can_reconnect.c unless a file is named.

    The outcomes of the CANpie driver are arguments of the events.  Simplification: a call that reads the clock several times
    sees at most two values, one for its comparisons and one for the time stamps it takes. *)
From Verif Require Import Words.

(** include/li_can_slv/core/io_can_types.h:123-129 *)
Inductive nmode := MInit | MStopped | MOperational | MListen.
(** include/li_can_slv/core/io_can_reconnect.h:82-89 *)
Inductive rstate := RDeactivated | ROff | RStartup | ROn | RIdle.
(** include/li_can_slv/core/io_can_reconnect.h:95-104 *)
Inductive rcause := CNoTraffic | CStartup | CMainEwrn | CMainBoff | CDownload.
(** include/li_can_slv/core/io_can_reconnect.h:61-63: what is pending *)
Inductive rpend := PNone | PLec | PMsg.
(** lcsa_state_t, include/li_can_slv/api/li_can_slv_api_types.h:53-60 *)
Inductive lstate := LRunning | LDownload | LReconnect | LInit | LStopped.
(** kinds of the last error, include/li_can_slv/arch/canpie_adapter/io_can_port.h:46-54 *)
Inductive lec := LecNone | LecStuff | LecForm | LecAck | LecBit1 | LecBit0 | LecCrc.
(** eCP_STATE_BUS_ACTIVE, _PASSIVE, _OFF, and the others *)
Inductive buss := BActive | BPassive | BOff | BOther.

(** can_reconnect and process_on_off (lines 144-162), li_can_slv_reconnect_main_node_msg_pending (line 127), li_can_slv_state
    and li_can_slv_mode (io_can.c:70-71), the current and the start-up rate (io_can_config.c); [r_hw] and [r_rate]: mode and
    rate of the controller.  Not kept: back, nr, id_on, id_off and back_time, which are only shown. *)
Record rec := Rec {
  r_state : rstate; r_cause : rcause; r_lec0 : N; r_time : N; r_idx : nat; r_idle : N; r_next : N; r_bdr : N;
  r_proc : bool; r_pend : rpend;
  r_ls : lstate; r_mode : nmode; r_cur : N; r_startup : N;
  r_hw : nmode; r_rate : N }.
Definition rec_zero : rec := Rec ROff CNoTraffic 0 0 0 0 0 0 false PNone LInit MInit 0 0 MStopped 0.

(** what is observed: changes of the controller's mode and rate that were accepted, rates tried by a search, frames given to
    the stack, calls of the application's callbacks *)
Inductive robs :=
| OMode (m : nmode)
| ORate (r : N)
| OTry (r : N)
| OProcessed
| OStartupStart | OStartupStop (r : N) | OOnlineStart | OOnlineStop (r : N).
Definition RM := rec -> rec * list robs.
Definition rseq (a b : RM) : RM := fun s => let '(s1, o1) := a s in let '(s2, o2) := b s1 in (s2, o1 ++ o2).
Notation "a ;;> b" := (rseq a b) (at level 61, right associativity).
Definition rset (f : rec -> rec) : RM := fun s => (f s, []).
Definition robserve (o : robs) : RM := fun s => (s, [o]).
Definition rif (c : rec -> bool) (a b : RM) : RM := fun s => if c s then a s else b s.
Definition rskip : RM := fun s => (s, []).

Definition w_state x s := Rec x (r_cause s) (r_lec0 s) (r_time s) (r_idx s) (r_idle s) (r_next s) (r_bdr s) (r_proc s) (r_pend s) (r_ls s) (r_mode s) (r_cur s) (r_startup s) (r_hw s) (r_rate s).
Definition w_cause x s := Rec (r_state s) x (r_lec0 s) (r_time s) (r_idx s) (r_idle s) (r_next s) (r_bdr s) (r_proc s) (r_pend s) (r_ls s) (r_mode s) (r_cur s) (r_startup s) (r_hw s) (r_rate s).
Definition w_lec0 x s := Rec (r_state s) (r_cause s) x (r_time s) (r_idx s) (r_idle s) (r_next s) (r_bdr s) (r_proc s) (r_pend s) (r_ls s) (r_mode s) (r_cur s) (r_startup s) (r_hw s) (r_rate s).
Definition w_time x s := Rec (r_state s) (r_cause s) (r_lec0 s) x (r_idx s) (r_idle s) (r_next s) (r_bdr s) (r_proc s) (r_pend s) (r_ls s) (r_mode s) (r_cur s) (r_startup s) (r_hw s) (r_rate s).
Definition w_idx x s := Rec (r_state s) (r_cause s) (r_lec0 s) (r_time s) x (r_idle s) (r_next s) (r_bdr s) (r_proc s) (r_pend s) (r_ls s) (r_mode s) (r_cur s) (r_startup s) (r_hw s) (r_rate s).
Definition w_idle x s := Rec (r_state s) (r_cause s) (r_lec0 s) (r_time s) (r_idx s) x (r_next s) (r_bdr s) (r_proc s) (r_pend s) (r_ls s) (r_mode s) (r_cur s) (r_startup s) (r_hw s) (r_rate s).
Definition w_next x s := Rec (r_state s) (r_cause s) (r_lec0 s) (r_time s) (r_idx s) (r_idle s) x (r_bdr s) (r_proc s) (r_pend s) (r_ls s) (r_mode s) (r_cur s) (r_startup s) (r_hw s) (r_rate s).
Definition w_bdr x s := Rec (r_state s) (r_cause s) (r_lec0 s) (r_time s) (r_idx s) (r_idle s) (r_next s) x (r_proc s) (r_pend s) (r_ls s) (r_mode s) (r_cur s) (r_startup s) (r_hw s) (r_rate s).
Definition w_proc x s := Rec (r_state s) (r_cause s) (r_lec0 s) (r_time s) (r_idx s) (r_idle s) (r_next s) (r_bdr s) x (r_pend s) (r_ls s) (r_mode s) (r_cur s) (r_startup s) (r_hw s) (r_rate s).
Definition w_pend x s := Rec (r_state s) (r_cause s) (r_lec0 s) (r_time s) (r_idx s) (r_idle s) (r_next s) (r_bdr s) (r_proc s) x (r_ls s) (r_mode s) (r_cur s) (r_startup s) (r_hw s) (r_rate s).
Definition w_ls x s := Rec (r_state s) (r_cause s) (r_lec0 s) (r_time s) (r_idx s) (r_idle s) (r_next s) (r_bdr s) (r_proc s) (r_pend s) x (r_mode s) (r_cur s) (r_startup s) (r_hw s) (r_rate s).
Definition w_mode x s := Rec (r_state s) (r_cause s) (r_lec0 s) (r_time s) (r_idx s) (r_idle s) (r_next s) (r_bdr s) (r_proc s) (r_pend s) (r_ls s) x (r_cur s) (r_startup s) (r_hw s) (r_rate s).
Definition w_cur x s := Rec (r_state s) (r_cause s) (r_lec0 s) (r_time s) (r_idx s) (r_idle s) (r_next s) (r_bdr s) (r_proc s) (r_pend s) (r_ls s) (r_mode s) x (r_startup s) (r_hw s) (r_rate s).
Definition w_startup x s := Rec (r_state s) (r_cause s) (r_lec0 s) (r_time s) (r_idx s) (r_idle s) (r_next s) (r_bdr s) (r_proc s) (r_pend s) (r_ls s) (r_mode s) (r_cur s) x (r_hw s) (r_rate s).
Definition w_hw x s := Rec (r_state s) (r_cause s) (r_lec0 s) (r_time s) (r_idx s) (r_idle s) (r_next s) (r_bdr s) (r_proc s) (r_pend s) (r_ls s) (r_mode s) (r_cur s) (r_startup s) x (r_rate s).
Definition w_rate x s := Rec (r_state s) (r_cause s) (r_lec0 s) (r_time s) (r_idx s) (r_idle s) (r_next s) (r_bdr s) (r_proc s) (r_pend s) (r_ls s) (r_mode s) (r_cur s) (r_startup s) (r_hw s) x.

(** outcomes of CpCoreCanMode for a mode and of CpCoreBitrate for a rate during the event; a call that fails has no effect *)
Record hwo := HwO { ok_mode : nmode -> bool; ok_rate : N -> bool }.

(** CpCoreCanMode *)
Definition cp_mode (h : hwo) (m : nmode) : RM := fun s => if ok_mode h m then (w_hw m s, [OMode m]) else (s, []).
(** io_can.c:330-341 li_can_slv_set_node_mode, io_can_main.c:546-569, io_can_main_hw.c:173-209.  The mode of the controller
    for LI_CAN_SLV_MODE_INIT is stopped. *)
Definition hw_of (m : nmode) : nmode := match m with MInit => MStopped | x => x end.
Definition set_mode (h : hwo) (m : nmode) : RM := rset (w_mode m) ;;> cp_mode h (hw_of m).
Definition mode_ok (h : hwo) (m : nmode) : bool := ok_mode h (hw_of m).

(** default rate table, io_can_main_hw.c:70-76 *)
Definition known_rate (r : N) : bool := (r =? 250) || (r =? 125) || (r =? 500) || (r =? 1000).
(** io_can_config.c:819-844 can_config_set_baudrate and io_can_main_hw.c:296-332: an unknown rate is no error, the result of
    CpCoreBitrate is ignored *)
Definition settable (s : rec) : bool := match r_mode s with MInit | MStopped => true | _ => false end.
Definition set_baud (h : hwo) (r : N) : RM := fun s =>
  if known_rate r then
    let s1 := w_cur r s in
    if settable s then if ok_rate h r then (w_rate r s1, [ORate r]) else (s1, []) else (s1, [])
  else (s, []).
Definition baud_ok (r : N) (s : rec) : bool := negb (known_rate r) || settable s.

(** lines 164-170 can_reconnect_bdr_table *)
Definition bdr_table : list N := [125; 1000; 500; 250].

(** 1036-1074 can_reconnect_next_baudrate; [late]: the clock, [sw]: the switch time in ticks *)
Definition next_baudrate (h : hwo) (late sw : N) : RM :=
  rset (fun s => w_idx (if (r_idx s <? 3)%nat then S (r_idx s) else 0%nat) s) ;;>
  set_mode h MStopped ;;>
  (fun s => (set_baud h (nth (r_idx s) bdr_table 0) ;;>
             rset (w_bdr (nth (r_idx s) bdr_table 0)) ;;>
             robserve (OTry (nth (r_idx s) bdr_table 0)) ;;>
             rif (fun _ => baud_ok (nth (r_idx s) bdr_table 0) s) (set_mode h MListen) rskip) s) ;;>
  rset (w_next (u32 (late + sw))).

(** 801-827 can_reconnect_on; [first]: id 1 *)
Definition reconnect_on (h : hwo) (first : bool) (late sw : N) : RM :=
  rset (w_ls LReconnect) ;;>
  rset (w_lec0 0) ;;>
  (if first then rset (w_idx 0) ;;> rset (w_next (u32 (late + sw))) else next_baudrate h late sw) ;;>
  rset (w_proc true).

(** 833-1030 can_reconnect_off *)
Definition off_end (baud : N) : RM := fun s =>
  match r_cause s with
  | CStartup | CNoTraffic => (rset (w_ls LInit) ;;> robserve (OStartupStop baud)) s
  | CMainEwrn | CMainBoff => (rset (w_ls LRunning) ;;> robserve (OOnlineStop baud)) s
  | CDownload => rset (w_ls LInit) s
  end.
Definition reconnect_off (h : hwo) : RM := fun s0 =>
  let baud := r_bdr s0 in
  (rset (w_proc false) ;;>
   set_mode h MStopped ;;>
   (fun s => (set_baud h baud ;;>
              if baud_ok baud s
              then set_mode h MOperational ;;>
                   (if mode_ok h MOperational then rset (w_ls LRunning) ;;> rset (w_state ROff) ;;> off_end baud
                    else rset (w_state ROff))
              else rset (w_state ROff)) s)) s0.

(** 344-365 li_can_slv_reconnect_startup; [wait]: CAN_RECONNECT_STARTUP_NO_TRAFFIC_TIME in ticks *)
Definition startup (h : hwo) (late sw wait : N) : RM :=
  rif (fun s => match r_state s with RStartup => true | _ => false end)
    (robserve OStartupStart ;;>
     rset (w_time (u32 (late + wait))) ;;>
     rset (w_cause CNoTraffic) ;;>
     rset (w_pend PNone) ;;>
     reconnect_on h true late sw)
    rskip.

(** 409-438 li_can_slv_reconnect_on_main_node_online and 446-475 li_can_slv_reconnect_on_main_node_recovery *)
Definition is_off (s : rec) : bool := match r_state s with ROff => true | _ => false end.
Definition not_stopped (s : rec) : bool := match r_ls s with LStopped => false | _ => true end.
Definition online (h : hwo) (c : rcause) (late sw : N) : RM :=
  rif (fun s => is_off s && not_stopped s)
    (robserve OOnlineStart ;;>
     set_mode h MStopped ;;>
     set_mode h MListen ;;>
     rset (w_state ROn) ;;>
     rset (w_cause c) ;;>
     rset (w_pend PLec) ;;>
     reconnect_on h false late sw)
    rskip.

(** 542-740 li_can_slv_reconnect_process; [chk]: LI_CAN_SLV_RECONNECT_PROCESS_STARTUP_CHECK_LEC, [now]: the clock *)
Definition to_idle (h : hwo) (late sw : N) : RM :=
  rset (w_lec0 0) ;;> next_baudrate h late sw ;;> rset (w_idle 0) ;;> rset (w_state RIdle).
Definition process (chk : bool) (h : hwo) (p : rpend) (l : lec) (now late sw : N) : RM := fun s =>
  if r_proc s then
    match r_state s with
    | RStartup =>
        match p with
        | PMsg => (rset (w_cause CStartup) ;;> reconnect_off h) s
        | _ =>
            if r_time s <? now then (rset (w_cause CNoTraffic) ;;> rset (w_bdr (r_startup s)) ;;> reconnect_off h) s
            else if (match p with PLec => true | _ => false end) || (chk && match l with LecNone => false | _ => true end)
            then (rset (w_cause CStartup) ;;> rset (w_state ROn) ;;> reconnect_on h false late sw) s
            else if r_next s <? now then next_baudrate h late sw s else (s, [])
        end
    | ROn =>
        match p, l with
        | PMsg, _ => reconnect_off h s
        | PLec, LecNone => if r_next s <? now then to_idle h late sw s else (s, [])
        | _, LecNone => reconnect_off h s
        | _, LecBit0 => (rset (w_lec0 (u16 (r_lec0 s + 1))) ;;> rif (fun s => 10 <=? r_lec0 s) (reconnect_off h) rskip) s
        | _, _ => (rset (w_lec0 0) ;;> if r_next s <? now then to_idle h late sw else rskip) s
        end
    | RIdle => (rset (w_idle (u16 (r_idle s + 1))) ;;> rif (fun s => 2 <? r_idle s) (rset (w_state ROn)) rskip) s
    | ROff | RDeactivated => (s, [])
    end
  else (s, []).

(** io_can_main_hw_handler.c:174-273 can_main_hw_handler_error, called by li_can_slv_process (io_can.c:291-328).  [mid]: a
    frame is received by interrupt after line 261 has read what is pending (its processing, if any, is not modelled). *)
Definition poll (chk mid : bool) (h : hwo) (b : buss) (l : lec) (now late sw : N) : RM :=
  (match b, l with
   | BActive, LecNone => rskip
   | _, _ =>
       rif is_off
         ((if match b, l with BOff, _ => true | _, LecNone => false | _, _ => true end
           then set_mode h MStopped ;;> set_mode h MListen ;;> online h CMainBoff late sw else rskip) ;;>
          (match b with BPassive => cp_mode h MListen ;;> online h CMainEwrn late sw | _ => rskip end))
         rskip
   end) ;;>
  (fun s => if is_off s then (s, [])
            else ((if mid then rset (w_pend PMsg) else rskip) ;;> process chk h (r_pend s) l now late sw) s).

(** io_can_main_hw_handler.c:111-160 can_main_hw_handler_rx; a frame of the master can change the rate
    (io_can_sys.c:349-359), every other frame is only noted as processed *)
Inductive frame := FBaud (r : N) | FOther.
Definition sys_baud (h : hwo) (r : N) : RM := fun s0 =>
  (set_mode h MStopped ;;>
   (if mode_ok h MStopped
    then (fun s => (set_baud h r ;;> if baud_ok r s then set_mode h (r_mode s0) else rskip) s)
    else rskip)) s0.
Definition rx (h : hwo) (f : frame) : RM :=
  rset (w_pend PMsg) ;;>
  rif is_off (robserve OProcessed ;;> match f with FBaud r => sys_baud h r | FOther => rskip end) rskip.

(** li_can_slv_api.c:100-260 lcsa_start; li_can_slv_reconnect_init returns LI_CAN_SLV_ERR_OK without SHOW_CAN_RECONNECT.  The
    results of lcsa_set_baudrate are overwritten (lines 160, 183).  274: running whatever was started *)
Definition start (h : hwo) (late sw wait : N) : RM := fun s0 =>
  (match r_ls s0 with
   | LDownload =>
       rset (w_state ROff) ;;> set_mode h MStopped ;;> set_baud h (r_startup s0) ;;>
       rset (w_cause CDownload) ;;> set_mode h MOperational ;;>
       (if mode_ok h MOperational then rset (w_ls LRunning) else rskip)
   | _ =>
       rset (w_state RStartup) ;;> set_mode h MStopped ;;> set_baud h (r_startup s0) ;;>
       startup h late sw wait ;;> set_mode h MListen ;;>
       (if mode_ok h MListen then rset (w_ls LRunning) else rskip)
   end) s0.

(** events: lcsa_init with a rate and whether it found a download to be acknowledged, lcsa_start, one call of
    li_can_slv_process, a received frame, a state set by the application *)
Inductive rev :=
| EInit (baud : N) (download : bool)
| EStart (h : hwo) (late : N)
| EPoll (mid : bool) (h : hwo) (b : buss) (l : lec) (now late : N)
| ERx (h : hwo) (f : frame)
| ESetState (x : lstate).
(** build: CHECK_LEC, the switch time and the no-traffic time in ticks *)
Record rcfg := RCfg { g_chk : bool; g_sw : N; g_wait : N }.
Definition rstep (g : rcfg) (e : rev) : RM :=
  match e with
  | EInit baud dl => rset (w_startup baud) ;;> (if dl then rset (w_ls LDownload) else rskip)
  | EStart h late => start h late (g_sw g) (g_wait g)
  | EPoll mid h b l now late => poll (g_chk g) mid h b l now late (g_sw g)
  | ERx h f => rx h f
  | ESetState x => rset (w_ls x)
  end.
(** the history: state after each event with what was observed *)
Fixpoint rruns (g : rcfg) (s : rec) (es : list rev) : list (rev * list robs * rec) :=
  match es with
  | [] => []
  | e :: r => let '(s1, o) := rstep g e s in (e, o, s1) :: rruns g s1 r
  end.
Definition rend (g : rcfg) (s : rec) (es : list rev) : rec := fold_left (fun x e => fst (rstep g e x)) es s.
