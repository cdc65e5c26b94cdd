(** Model of the asynchronous tunnel, source/async/io_can_async.c, build with LI_CAN_SLV_ASYNC_TUNNEL and OUTER, without
    SPS_MONITOR_CONNECTION_TYPE_LP.  Line numbers are those of io_can_async.c.

    Control messages are those of configured modules that are awake (lines 363-385, properties C35).  The outcomes of the
    port functions are arguments of the operation.  [None]: an access outside an array, or a call that does not return. *)
From Verif Require Import Words ErrModel NodeModel LookModel AsyncModel.

(** include/li_can_slv/error/io_can_errno.h *)
Definition E_TNL_ALREADY_USED := can_err 1.
Definition E_TNL_WRONG_STATE := can_err 2.
Definition E_TNL_BUSY := can_err 64.
Definition E_TNL_UNKNOWN_COMMAND := can_err 100.
Definition E_TNL_HNDL_NOT_DEFINED := can_err 109.

(** include/li_can_slv/async/io_can_async.h:97-102 *)
Inductive tstate := TFree | TActive | TShutdown.

(** can_async_tunnel (lines 171-181), can_async_tunnel_tmpTXobj (lines 203-218) and the data transmit queue *)
Record tun := Tun {
  tn_state : tstate; tn_prim : N; tn_sec : N; tn_own : N; tn_delay : N; tn_ctype : N;
  tx_data : list byte; tx_used : nat; tn_q : dtq }.
Definition QLEN : nat := 4.   (* CAN_ASYNC_DATA_TX_QUEUE_LENGTH, line 100 *)
Definition tun_zero : tun := Tun TFree 125 125 125 0 0 (repeat 0 8) 0 (dtq_zero QLEN).

Definition set_tstate (t : tun) (x : tstate) : tun := Tun x (tn_prim t) (tn_sec t) (tn_own t) (tn_delay t) (tn_ctype t) (tx_data t) (tx_used t) (tn_q t).
Definition set_tx (t : tun) (d : list byte) (u : nat) : tun := Tun (tn_state t) (tn_prim t) (tn_sec t) (tn_own t) (tn_delay t) (tn_ctype t) d u (tn_q t).
Definition set_q (t : tun) (q : dtq) : tun := Tun (tn_state t) (tn_prim t) (tn_sec t) (tn_own t) (tn_delay t) (tn_ctype t) (tx_data t) (tx_used t) q.
(** lines 525-531, 562-565: back to the defaults *)
Definition set_free (t : tun) : tun := Tun TFree 125 125 125 (tn_delay t) (tn_ctype t) (tx_data t) (tx_used t) (tn_q t).

(** observations: control messages given to the controller, data messages put into the queue, data messages given to and
    accepted by the controller, the identifier the data receive object listens to, calls of the port *)
Inductive tobs :=
| TCtrl (id : N) (data : list byte)
| TQueued (f : dframe)
| TSent (f : dframe)
| TListen (id : N)
| TPortXon | TPortXoff.

(** 773-841 can_async_tnl_ctl_response *)
Inductive tresp := ROpenAck | RClose | RCloseAck | ROpenDeny (e : N) | RCloseDeny (e : N).
Definition err_bytes (e : N) : list byte :=
  let d := u16 e in [u8 (N.shiftr d 24); u8 (N.land (N.shiftr d 16) 255); u8 (N.land (N.shiftr d 8) 255); u8 (N.land d 255)].
Definition resp_bytes (t : tun) (r : tresp) (prim : N) : list byte :=
  match r with
  | ROpenAck => [3; u8 prim; 0; 0; 0; u8 (N.shiftr (tn_delay t) 8); u8 (N.land (tn_delay t) 255); 0]
  | RClose => [2; u8 prim; 0; 0; 0; 0; 0; 0]
  | RCloseAck => [4; u8 prim; 0; 0; 0; 0; 0; 0]
  | ROpenDeny e => [5; u8 prim; 0; 0] ++ err_bytes e
  | RCloseDeny e => [6; u8 prim; 0; 0] ++ err_bytes e
  end.
Definition respond (t : tun) (r : tresp) (prim own : N) : tobs := TCtrl (ident_of CtrlTx own 0) (resp_bytes t r prim).

(** outcomes of li_can_slv_port_async_tunnel_open_handle, _free_handle and _clear_rx_buffer_handle *)
Record pouts := POuts { po_open : N; po_free : N; po_clear : N }.

(** 344-632 can_async_rx, the tunnel messages *)
Definition tunnel_rx (t : tun) (nr : N) (data : list byte) (p : pouts) : option (tun * N * list tobs) :=
  match nth_error data 0, nth_error data 1, nth_error data 4, nth_error data 5, nth_error data 6 with
  | Some code, Some peer, Some d4, Some d5, Some d6 =>
    let mine := (tn_prim t =? peer) in
    if code =? 10 then                                                   (* 431-437 XON *)
      match tn_state t with
      | TActive => if mine then Some (t, ERR_OK, [TPortXon]) else Some (t, ERR_OK, [])
      | _ => Some (t, ERR_OK, [])
      end
    else if code =? 9 then                                               (* 439-445 XOFF *)
      match tn_state t with
      | TActive => if mine then Some (t, ERR_OK, [TPortXoff]) else Some (t, ERR_OK, [])
      | _ => Some (t, ERR_OK, [])
      end
    else if code =? 1 then                                               (* 447-517 OPEN *)
      match tn_state t with
      | TFree =>
          if po_open p =? ERR_OK then
            let t1 := Tun TActive peer nr nr (N.shiftl d5 8 + d6) d4 (tx_data t) (tx_used t) (tn_q t) in
            if d4 =? 0
            then Some (t1, ERR_OK, [TListen (u16 ((nr + 65535) * 4 + 1538)); respond t1 ROpenAck peer nr])
            else Some (t1, ERR_OK, [respond t1 (ROpenDeny E_TNL_HNDL_NOT_DEFINED) peer nr])   (* the handle is never set, line 224 *)
          else Some (t, po_open p, [respond t (ROpenDeny (po_open p)) peer nr])
      | _ => Some (t, ERR_OK, [respond t (ROpenDeny E_TNL_ALREADY_USED) peer nr])
      end
    else if code =? 2 then                                               (* 519-538 CLOSE *)
      if po_free p =? ERR_OK
      then Some (set_free t, ERR_OK, [respond t RCloseAck peer nr])
      else Some (t, po_free p, [respond t (RCloseDeny (po_free p)) peer nr])
    else if code =? 8 then                                               (* 540-542, 851-869 RESET_PORT *)
      match tn_state t with
      | TActive => Some (t, ERR_OK, if po_clear p =? ERR_OK then [TPortXon] else [])
      | _ => Some (t, ERR_OK, [])
      end
    else if code =? 4 then                                               (* 548-562 CLOSE_ACK *)
      match tn_state t with
      | TShutdown => if mine && (tn_own t =? nr) then Some (set_free t, po_free p, []) else Some (t, ERR_OK, [])
      | _ => Some (t, ERR_OK, [])
      end
    else if code =? 6 then                                               (* 567-578 CLOSE_DENY *)
      match tn_state t with
      | TShutdown => if mine && (tn_own t =? nr) then Some (set_tstate t TActive, ERR_OK, []) else Some (t, ERR_OK, [])
      | _ => Some (t, ERR_OK, [])
      end
    else if (code =? 3) || (code =? 5) then Some (t, ERR_OK, [])         (* 545, 564 OPEN_ACK, OPEN_DENY *)
    else Some (t, E_TNL_UNKNOWN_COMMAND, [])                             (* 627; messages of other services are not modelled here *)
  | _, _, _, _, _ => None
  end.

(** 730-756 the transmit handler on the queue *)
Definition tunnel_handle (t : tun) (hw : N) : option (tun * N * list tobs) :=
  match dtq_handle QLEN (tn_q t) hw with
  | Some (q, (e, Some f)) => Some (set_q t q, e, if e =? ERR_OK then [TSent f] else [])
  | Some (q, (e, None)) => Some (set_q t q, e, [])
  | None => None
  end.

(** 946-950 do { enqueue } while (err != OK): the transmit handler runs between two attempts with the outcomes [irqs]; when
    these are used up the call has not returned *)
Fixpoint enqueue_loop (t : tun) (irqs : list N) : option (tun * list tobs) :=
  match dtq_put QLEN (tn_q t) (tn_own t) DSlave (N.of_nat (tx_used t)) (tx_data t) with
  | None => None
  | Some (q, e) =>
      if e =? ERR_OK
      then Some (set_q t q, [TQueued (ident_of AsyncTx (tn_own t) 0, N.of_nat (tx_used t), firstn (tx_used t) (tx_data t))])
      else match irqs with
           | [] => None
           | hw :: rest =>
               match tunnel_handle (set_q t q) hw with
               | None => None
               | Some (t1, _, o1) => match enqueue_loop t1 rest with None => None | Some (t2, o2) => Some (t2, o1 ++ o2) end
               end
           end
  end.

(** 925-968 can_async_tunnel_putc; [lock]: calls of putc or of the flush function that are running already (the variable
    can_async_tnl_lock; its increments are taken as atomic) *)
Definition putc (t : tun) (lock : nat) (dat : byte) (irqs : list N) : option (tun * N * list tobs) :=
  if (lock + 1 =? 1)%nat then
    match tn_state t with
    | TActive =>
        match upd (tx_data t) (tx_used t) dat with
        | None => None
        | Some d =>
            let t1 := set_tx t d (tx_used t + 1) in
            if (tx_used t1 =? 8)%nat
            then match enqueue_loop t1 irqs with None => None | Some (t2, o) => Some (set_tx t2 (tx_data t2) 0, ERR_OK, o) end
            else Some (t1, ERR_OK, [])
        end
    | _ => Some (t, E_TNL_WRONG_STATE, [])
    end
  else Some (t, E_TNL_BUSY, []).

(** 976-1010 can_async_tunnel_process_tx_data; [now]: system ticks, [thr]: can_port_msec_2_ticks(50) *)
Definition flush (t : tun) (lock : nat) (now thr : N) : option (tun * N * list tobs) :=
  if (lock + 1 =? 1)%nat then
    match tn_state t with
    | TActive =>
        if (0 <? tx_used t)%nat && (u32 (N.of_nat (tx_used t) + thr) <? now) then
          match dtq_put QLEN (tn_q t) (tn_own t) DSlave (N.of_nat (tx_used t)) (tx_data t) with
          | None => None
          | Some (q, e) =>
              if e =? ERR_OK
              then Some (set_tx (set_q t q) (tx_data t) 0, e, [TQueued (ident_of AsyncTx (tn_own t) 0, N.of_nat (tx_used t), firstn (tx_used t) (tx_data t))])
              else Some (set_q t q, e, [])
          end
        else Some (t, ERR_OK, [])
    | _ => Some (t, E_TNL_WRONG_STATE, [])
    end
  else Some (t, E_TNL_BUSY, []).

(** 1022-1038 can_async_tunnel_shutdown *)
Definition shutdown (t : tun) : tun * N * list tobs :=
  match tn_state t with
  | TActive => (set_tstate t TShutdown, ERR_OK, [respond t RClose (tn_prim t) (tn_own t)])
  | _ => (t, E_TNL_WRONG_STATE, [])
  end.
(** 876-892 can_async_xon, 899-916 can_async_xoff *)
Definition xonoff (t : tun) (code : N) : tun * N * list tobs :=
  match tn_state t with
  | TActive => (t, ERR_OK, [TCtrl (ident_of CtrlTx (tn_own t) 0) [code; u8 (tn_prim t); 0; 0; 0; 0; 0; 0]])
  | _ => (t, E_TNL_WRONG_STATE, [])
  end.

Inductive top :=
| OMsg (nr : N) (data : list byte) (p : pouts)
| OPutc (lock : nat) (dat : byte) (irqs : list N)
| OFlush (lock : nat) (now thr : N)
| OHandle (hw : N)
| OShutdown
| OXon | OXoff.
Definition tstep (t : tun) (o : top) : option (tun * (N * list tobs)) :=
  let pack r := match r with Some (t1, e, obs) => Some (t1, (e, obs)) | None => None end in
  match o with
  | OMsg nr d p => pack (tunnel_rx t nr d p)
  | OPutc l d i => pack (putc t l d i)
  | OFlush l n th => pack (flush t l n th)
  | OHandle hw => pack (tunnel_handle t hw)
  | OShutdown => pack (Some (shutdown t))
  | OXon => pack (Some (xonoff t 10))
  | OXoff => pack (Some (xonoff t 9))
  end.
