(** Model of mode and rate of a node with two controllers: source/core/io_can.c, source/core/io_can_main.c,
    source/core/io_can_mon.c, source/core/io_can_reconnect.c, source/config/io_can_config.c, source/api/li_can_slv_api.c,
    source/sys/io_can_sys.c and source/arch/canpie_adapter/io_can_main_hw.c, io_can_mon_hw.c; build with LI_CAN_SLV_MON and
    LI_CAN_SLV_RECONNECT, without LI_CAN_SLV_MAIN_MON.

    Only what reaches the CANpie driver is kept: a function appends its driver calls, with their outcomes, to a list.  The
    outcome of call number n is [ans n].  Left out: when a search step is due and when a search ends (ReconModel), error
    messages, call-backs and the download information except for the rate stored in it. *)
From Verif Require Import Words ErrModel NodeModel.
From Verif Require Import ReconModel.

(** the two controllers, can_port_main and can_port_mon (io_can_main_hw.c:68, io_can_mon_hw.c:73) *)
Inductive who := Main | Mon.
(** CANPIE_MODE_STOP, _LISTEN_ONLY, _START *)
Inductive cmode := CStop | CListen | CStart.
(** CpCoreCanMode and CpCoreBitrate with controller, argument and outcome *)
Inductive call := CallMode (w : who) (m : cmode) (ok : bool) | CallRate (w : who) (r : N) (ok : bool).

(** li_can_slv_mode (io_can.c:71), can_config_bdr_tab and can_config_bdr_current (io_can_config.c:581-582), the rate of
    li_can_slv_xload_info_set_can_baudrate, can_reconnect.bdr_index and .back_bdr, li_can_slv_state being RUNNING, and the
    driver calls so far, oldest first *)
Record dual := Dual {
  d_mode : nmode; d_tab : list N; d_cur : N; d_saved : option N; d_idx : nat; d_back : N; d_run : bool; d_log : list call }.
Definition w_dmode x s := Dual x (d_tab s) (d_cur s) (d_saved s) (d_idx s) (d_back s) (d_run s) (d_log s).
Definition w_dcur x s := Dual (d_mode s) (d_tab s) x (d_saved s) (d_idx s) (d_back s) (d_run s) (d_log s).
Definition w_dsaved x s := Dual (d_mode s) (d_tab s) (d_cur s) x (d_idx s) (d_back s) (d_run s) (d_log s).
Definition w_didx x s := Dual (d_mode s) (d_tab s) (d_cur s) (d_saved s) x (d_back s) (d_run s) (d_log s).
Definition w_dback x s := Dual (d_mode s) (d_tab s) (d_cur s) (d_saved s) (d_idx s) x (d_run s) (d_log s).
Definition w_drun x s := Dual (d_mode s) (d_tab s) (d_cur s) (d_saved s) (d_idx s) (d_back s) x (d_log s).
Definition w_dlog x s := Dual (d_mode s) (d_tab s) (d_cur s) (d_saved s) (d_idx s) (d_back s) (d_run s) x.

(** a function: the error code it returns and the new state *)
Definition dfun := dual -> N * dual.
Definition dret (e : N) : dfun := fun s => (e, s).
Definition dset (f : dual -> dual) : dfun := fun s => (ERR_OK, f s).
(** the result of the first is ignored *)
Definition dthen (a b : dfun) : dfun := fun s => b (snd (a s)).
(** if (err == LI_CAN_SLV_ERR_OK) err = ...; *)
Definition dok (a b : dfun) : dfun := fun s => let '(e, s1) := a s in if e =? ERR_OK then b s1 else (e, s1).
Infix ";;+" := dthen (at level 61, right associativity).
Infix ";;&" := dok (at level 61, right associativity).

Section Driver.
Variable ans : nat -> bool.

(** CpCoreCanMode; the callers of the main controller look at the outcome (io_can_main_hw.c:173-209) *)
Definition cp_mode (w : who) (m : cmode) : dfun := fun s =>
  let ok := ans (length (d_log s)) in
  (if ok then ERR_OK else E_NOT_IMPLEMENTED, w_dlog (d_log s ++ [CallMode w m ok]) s).
(** CpCoreBitrate; nobody looks at the outcome *)
Definition cp_rate (w : who) (r : N) : dfun := fun s =>
  (ERR_OK, w_dlog (d_log s ++ [CallRate w r (ans (length (d_log s)))]) s).
(** io_can_mon_hw.c ignores the outcomes *)
Definition mon_mode (m : cmode) : dfun := cp_mode Mon m ;;+ dret ERR_OK.

(** io_can_main.c:546-569 can_main_enable, io_can_main_hw.c:173-209 *)
Definition main_enable : dfun := fun s =>
  match d_mode s with
  | MOperational => cp_mode Main CStart s
  | MListen => cp_mode Main CListen s
  | _ => cp_mode Main CStop s
  end.
(** io_can_mon.c:283-286 can_mon_enable, io_can_mon_hw.c:156-169 can_mon_hw_enable *)
Definition mon_enable : dfun := fun s =>
  match d_mode s with MListen => mon_mode CListen s | _ => mon_mode CStart s end.
(** io_can_mon.c:291-294 can_mon_disable, io_can_mon_hw.c:179-184 can_mon_hw_disable *)
Definition mon_disable : dfun := mon_mode CStop.
(** io_can.c:330-341 li_can_slv_set_node_mode: the second result replaces the first *)
Definition dset_mode (m : nmode) : dfun := dset (w_dmode m) ;;+ main_enable ;;+ mon_enable.

(** the rates of the switches in io_can_main_hw.c:302-323 and io_can_mon_hw.c:245-267 *)
Definition rate_known (r : N) : bool := (r =? 125) || (r =? 250) || (r =? 500) || (r =? 1000).
(** io_can_main_hw.c:296-332 can_main_hw_set_baudrate *)
Definition main_rate (r : N) : dfun := fun s =>
  match d_mode s with
  | MInit | MStopped => if rate_known r then cp_rate Main r s else (E_INVALID_BAUDRATE, s)
  | _ => (E_INVALID_BAUDRATE, s)
  end.
(** io_can_mon_hw.c:241-279 can_mon_hw_set_baudrate *)
Definition mon_rate (r : N) : dfun :=
  mon_mode CStop ;;+
  (if rate_known r then
     cp_rate Mon r ;;+ (fun s => match d_mode s with MOperational => mon_mode CStart s | _ => mon_mode CListen s end)
   else mon_mode CStart ;;+ dret E_INVALID_BAUDRATE).
(** io_can_config.c:819-844 can_config_set_baudrate; lcsa_set_baudrate calls it (li_can_slv_api.c) *)
Fixpoint rate_loop (tab : list N) (rate err : N) : dfun :=
  match tab with
  | [] => dret err
  | r :: rest =>
      if rate =? r then fun s =>
        let '(e, s1) := (dset (w_dcur r) ;;+ (main_rate r ;;& mon_rate r) ;;& dset (w_dsaved (Some rate))) s in
        rate_loop rest rate e s1
      else rate_loop rest rate err
  end.
Definition dset_rate (rate : N) : dfun := fun s => rate_loop (d_tab s) rate ERR_OK s.

(** io_can_sys.c:349-359: the baud rate message *)
Definition bus_rate (rate : N) : dfun := fun s =>
  (dset_mode MStopped ;;& dset_rate rate ;;& dset_mode (d_mode s)) s.
(** li_can_slv_api.c:189-203 and 238-258: start without a search *)
Definition go_online (rate : N) : dfun :=
  dset_mode MStopped ;;+ dset_rate rate ;;& dset_mode MOperational ;;& dset (w_drun true).
(** li_can_slv_api.c:168-184: start with a search; io_can_reconnect.c:816-817 *)
Definition go_search (rate : N) : dfun :=
  dset_mode MStopped ;;+ dset_rate rate ;;+ dset (w_didx 0%nat) ;;+ dset_mode MListen.
(** io_can_reconnect.c:164-170 can_reconnect_bdr_table *)
Definition search_tab : list N := [125; 1000; 500; 250].
(** io_can_reconnect.c:1036-1074 can_reconnect_next_baudrate *)
Definition search_next : dfun := fun s0 =>
  let i := if (d_idx s0 <? 3)%nat then S (d_idx s0) else 0%nat in
  let r := nth i search_tab 0 in
  (mon_disable ;;+ dset (w_didx i) ;;+ dset_mode MStopped ;;+
   (fun s => let '(e, s1) := dset_rate r s in
             let s2 := w_dback r s1 in
             if e =? ERR_OK then dset_mode MListen s2 else (e, s2)) ;;+
   mon_enable) s0.
(** io_can_reconnect.c:409-475 li_can_slv_reconnect_on_main_node_online and _recovery: modes, then can_reconnect_on with an
    id other than 1 *)
Definition search_begin : dfun :=
  dset (w_drun false) ;;+ dset_mode MStopped ;;+ dset_mode MListen ;;+ search_next.
(** io_can_reconnect.c:833-893 can_reconnect_off *)
Definition search_end : dfun := fun s0 =>
  (mon_disable ;;+ dset_mode MStopped ;;+ dset_rate (d_back s0) ;;& dset_mode MOperational ;;& dset (w_drun true)) s0.

(** the calls of the library or of the bus: set the mode of the node, set the rate, a baud rate message, lcsa_start without
    and with a search (the argument: the rate given to lcsa_init), begin of a search when the error counters require it, a
    step of the search, its end, its end without traffic (io_can_reconnect.c:562-570) *)
Inductive dop :=
| DMode (m : nmode) | DRate (r : N) | DBus (r : N) | DStart (r : N) | DSearchStart (r : N) | DSearch | DNext | DEnd
| DEndSilent (r : N).
Definition dstep (o : dop) : dfun :=
  match o with
  | DMode m => dset_mode m
  | DRate r => dset_rate r
  | DBus r => bus_rate r
  | DStart r => go_online r
  | DSearchStart r => go_search r
  | DSearch => search_begin
  | DNext => search_next
  | DEnd => search_end
  | DEndSilent r => dset (w_dback r) ;;+ search_end
  end.
Fixpoint drun (ops : list dop) (s : dual) : dual :=
  match ops with [] => s | o :: r => drun r (snd (dstep o s)) end.
End Driver.

(** after lcsa_init: default table (io_can_main_hw.c:70-76), nothing set *)
Definition dual0 : dual := Dual MInit [250; 125; 500; 1000] 0 None 0 0 false [].
