(** The whole receive path of the main node: the callback of the CAN driver and the handlers it calls, on top of
    NodeModel (whose [frame_rx] is the handler for synchronous and system messages). *)
From Verif Require Import Words ErrModel NodeModel.

(** what the asynchronous services are given: a control message for the queue of received control messages
    (io_can_async.c can_async_send_data_to_async_ctrl_rx_queue; the queue itself is AsyncModel), data for the tunnel
    (li_can_slv_port_async_tunnel_data_rx_handle, a function of the application) *)
Inductive handed := HCtl (nr : N) (data : list byte) | HTunnel (dlc : N) (data : list byte).

(** io_can_async_handler.c:83: canid - 0x0600u is computed with 32 bits, the number has 16 *)
Definition ctl_nr (id : N) : N := u16 (N.shiftr (u32 (id + 4294965760)) 2 + 1).

Section Serv.
Variable E : env.

(** io_can_async_handler.c:75-233 can_async_handler_rx: one test per position of the table of control objects
    (8 positions at most).  The error the queue may return is reported in the same way as elsewhere; queue and error
    are left out here. *)
Definition async_rx (mo : nat) (id : N) (data : list byte) : M (list handed) :=
  gets (fun s =>
    if negb (N.land (bit mo) (h_mask_ctrl (n_hw s)) =? 0)
    then map (fun _ => HCtl (ctl_nr id) data) (filter (Nat.eqb mo) (k_actrl (n_cfg s)))
    else []).
(** io_can_async_handler.c:237-255 can_async_handler_data_rx *)
Definition tunnel_rx (mo : nat) (dlc : N) (data : list byte) : list handed :=
  if (mo =? MO_ASYNC_DATA)%nat then [HTunnel dlc data] else [].

(** arch/canpie_adapter/io_can_main_hw_handler.c:111-161 can_main_hw_handler_rx: [ext] tells a 29-bit frame, [data] are
    the 8 bytes of the buffer after the copy.  More than 8 data bytes would be copied behind the buffer.
    The reconnect part (lines 117-134) is ReconModel; the tunnel is built in together with the control messages. *)
Definition main_rx (ext : bool) (mo : nat) (id dlc : N) (data : list byte) (now : N) : M (list handed) :=
  if ext then ret []
  else
    guard (dlc <=? 8) ;;;
    frame_rx E mo id dlc data now ;;;
    a <- (if ASY E then async_rx mo id data else ret []) ;;
    ret (a ++ (if ASY E then tunnel_rx mo dlc data else [])).
End Serv.
