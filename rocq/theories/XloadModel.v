(** Model of the download and upload protocol: source/xload/li_can_slv_xload.c and the dispatch of control messages in
    source/async/io_can_async.c:344-632, in the build with LI_CAN_SLV_DLOAD, LI_CAN_SLV_ULOAD and the internal buffer,
    without tunnel, boot loader, LIDIS and QTP.  Line numbers are those of li_can_slv_xload.c unless a file is named.

    Application handlers are programs that may call the stack: buffer functions, answers, termination, upload.  A
    handler may behave differently at every call: the behaviour is an argument of the operation that leads to the call.
    [None] is an access outside an array, or an upload call that does not return (its clock readings run out). *)
From Verif Require Import Words ErrModel NodeModel LookModel XBufModel.

(** include/li_can_slv/error/io_can_errno.h *)
Definition E_UNKNOWN_COMPONENT := can_err 52.
Definition E_DL_IN_PROGRESS := can_err 53.
Definition E_COUNT_NOT_MATCH := can_err 57.
Definition E_UNKNOWN_COMMAND := can_err 100.
Definition E_DLOAD_ADD_HANDLE := can_err 114.
Definition E_ULOAD_ADD_HANDLE := can_err 115.

(** include/li_can_slv/xload/li_can_slv_xload_buffer_types.h:52-60 li_can_slv_xload_component_t; characters are bytes *)
Record comp := Comp { c_nr : N; c_name : list byte; c_crc : N; c_id : N; c_index : N; c_type : list byte }.
Definition comp_zero : comp := Comp 0 (repeat 0 9) 0 0 0 (repeat 0 5).
Definition set_name (c : comp) (n : list byte) : comp := Comp (c_nr c) n (c_crc c) (c_id c) (c_index c) (c_type c).
Definition set_cnr (c : comp) (n : N) : comp := Comp n (c_name c) (c_crc c) (c_id c) (c_index c) (c_type c).
Definition set_index (c : comp) (i : N) : comp := Comp (c_nr c) (c_name c) (c_crc c) (c_id c) i (c_type c).
Definition set_ctype (c : comp) (t : list byte) : comp := Comp (c_nr c) (c_name c) (c_crc c) (c_id c) (c_index c) t.
Definition set_crcid (c : comp) (crc id : N) : comp := Comp (c_nr c) (c_name c) crc id (c_index c) (c_type c).
(** can_port_memory_set(&name[0], 0x00U, 8U) *)
Definition clear_name (c : comp) : comp := set_name c (repeat 0 8 ++ skipn 8 (c_name c)).

(** the handler variables, lines 125-135, and the callbacks of io_can_sys.c and io_can_reconnect.c that are registered in
    the same way *)
Inductive hkind := HStart | HVersion | HStartReq | HBlockEnd | HEnd | HInfo | HUpStart | HBlockAck
                 | HTime | HFactory | HOnlineStart | HOnlineStop | HStartupStart | HStartupStop.
Definition hidx (k : hkind) : nat :=
  match k with
  | HStart => 0 | HVersion => 1 | HStartReq => 2 | HBlockEnd => 3 | HEnd => 4 | HInfo => 5 | HUpStart => 6 | HBlockAck => 7
  | HTime => 8 | HFactory => 9 | HOnlineStart => 10 | HOnlineStop => 11 | HStartupStart => 12 | HStartupStop => 13
  end.

(** xload_in_progress *)
Inductive prog_st := InProgress | Idle.

(** The static variables: dload_buffer (ring buffer and counters), xload_component, xload_component_version_request,
    xload_in_progress and the handlers; [x_own] is the component the application passes to li_can_slv_dload_start.
    A registered handler is a number that identifies the function. *)
Record xst := XSt {
  x_prog : prog_st; x_comp : comp; x_vers : comp; x_own : comp;
  x_buf : xbuf; x_objs : N; x_bytes : N; x_bend : N; x_maxb : N; x_delay : N;
  x_hand : list (option N)
}.
Definition xst_zero (size : nat) : xst :=
  XSt Idle comp_zero comp_zero comp_zero (xb_zero size) 0 0 0 0 0 (repeat None 14).

Definition set_prog (s : xst) p := XSt p (x_comp s) (x_vers s) (x_own s) (x_buf s) (x_objs s) (x_bytes s) (x_bend s) (x_maxb s) (x_delay s) (x_hand s).
Definition set_comp (s : xst) c := XSt (x_prog s) c (x_vers s) (x_own s) (x_buf s) (x_objs s) (x_bytes s) (x_bend s) (x_maxb s) (x_delay s) (x_hand s).
Definition set_vers (s : xst) c := XSt (x_prog s) (x_comp s) c (x_own s) (x_buf s) (x_objs s) (x_bytes s) (x_bend s) (x_maxb s) (x_delay s) (x_hand s).
Definition set_own (s : xst) c := XSt (x_prog s) (x_comp s) (x_vers s) c (x_buf s) (x_objs s) (x_bytes s) (x_bend s) (x_maxb s) (x_delay s) (x_hand s).
Definition set_xbuf (s : xst) b := XSt (x_prog s) (x_comp s) (x_vers s) (x_own s) b (x_objs s) (x_bytes s) (x_bend s) (x_maxb s) (x_delay s) (x_hand s).
Definition set_cnts (s : xst) o n := XSt (x_prog s) (x_comp s) (x_vers s) (x_own s) (x_buf s) o n (x_bend s) (x_maxb s) (x_delay s) (x_hand s).
Definition set_bend (s : xst) e := XSt (x_prog s) (x_comp s) (x_vers s) (x_own s) (x_buf s) (x_objs s) (x_bytes s) e (x_maxb s) (x_delay s) (x_hand s).
Definition set_pace (s : xst) m d := XSt (x_prog s) (x_comp s) (x_vers s) (x_own s) (x_buf s) (x_objs s) (x_bytes s) (x_bend s) m d (x_hand s).
Definition set_hand (s : xst) h := XSt (x_prog s) (x_comp s) (x_vers s) (x_own s) (x_buf s) (x_objs s) (x_bytes s) (x_bend s) (x_maxb s) (x_delay s) h.

(** what can be observed: control messages given to the controller (identifier and eight bytes), handler calls with the
    component they see, and the results of buffer functions called by the application *)
Inductive xobs :=
| XFrame (id : N) (data : list byte)
| XCalled (k : hkind) (h : N) (c : comp)
| XUsed (o : xop) (r : xout).

(** state, observations, failure *)
Definition X (A : Type) := xst -> option (A * xst * list xobs).
Definition xret {A} (a : A) : X A := fun s => Some (a, s, []).
Definition xbind {A B} (m : X A) (f : A -> X B) : X B := fun s =>
  match m s with
  | None => None
  | Some (a, s1, o1) => match f a s1 with None => None | Some (r, s2, o2) => Some (r, s2, o1 ++ o2) end
  end.
Definition xget : X xst := fun s => Some (s, s, []).
Definition xmod (f : xst -> xst) : X unit := fun s => Some (tt, f s, []).
Definition xobserve (o : xobs) : X unit := fun s => Some (tt, s, [o]).
Definition xfail {A} : X A := fun _ => None.
Notation "x <-- m ;; f" := (xbind m (fun x => f)) (at level 61, m at next level, right associativity).
Notation "m ;> f" := (xbind m (fun _ => f)) (at level 61, right associativity).

(** io_can_async.c:640-666 can_async_send_data_to_async_ctrl_tx_queue for a slave: always LI_CAN_SLV_ERR_OK, the result of
    the controller is ignored.  A frame in the model is one given to the controller. *)
Definition xsend (nr : N) (data : list byte) : X N := xobserve (XFrame (ident_of CtrlTx nr 0) data) ;> xret ERR_OK.

Definition hi16 (x : N) : byte := u8 (N.shiftr (N.land x 65280) 8).
Definition be32 (x : N) : list byte :=
  [u8 (N.shiftr (N.land x 4278190080) 24); u8 (N.shiftr (N.land x 16711680) 16); u8 (N.shiftr (N.land x 65280) 8); u8 (N.land x 255)].

(** 158-187 li_can_slv_dload_start_ackn *)
Definition start_ackn (nr maxb delay : N) : X N :=
  xmod (fun s => set_cnts s 0 0) ;>
  xmod (fun s => let b := x_buf s in set_xbuf s (XBuf (xb_data b) 0 0 0 (xb_rstore b) (xb_nstore b))) ;>
  xsend nr [25; hi16 maxb; u8 (N.land maxb 255); u8 delay; 0; 0; 0; 0].

(** 352-375 li_can_slv_dload_version_answer *)
Definition version_answer (nr index crc id : N) : X N :=
  xsend nr ([24; u8 index; u8 (N.shiftr crc 8); u8 crc] ++ be32 id).

(** 821-836 li_can_slv_dload_end_ackn *)
Definition end_ackn (nr : N) : X N :=
  xmod (fun s => set_comp s (clear_name (x_comp s))) ;>
  rc <-- xsend nr [27; 0; 0; 0; 0; 0; 0; 0] ;;
  xmod (fun s => set_prog s Idle) ;>
  xret rc.

(** 846-871 li_can_slv_dload_termination *)
Definition termination (nr error : N) : X N :=
  xmod (fun s => set_comp s (clear_name (x_comp s))) ;>
  let e := N.lor (msg_sg_expand error) MSG_GROUP_CAN in
  rc <-- xsend nr ([28] ++ be32 e ++ [0; 0; u8 (N.lor (N.shiftr MSG_GROUP_CAN 24) (msg_extract_subgroup e))]) ;;
  xmod (fun s => set_prog s Idle) ;>
  xret rc.

(** 916-939 li_can_slv_uload_info_answer *)
Definition info_answer (nr index size : N) : X N := xsend nr ([83; u8 index] ++ be32 size ++ [0; 0]).

(** 1206-1226 li_can_slv_uload_data_block_end (the loop runs once because the send function reports success) *)
Definition ul_block_end (nr : N) : X N :=
  s <-- xget ;;
  xsend nr [22; hi16 (x_bytes s); u8 (N.land (x_bytes s) 255); hi16 (x_objs s); u8 (N.land (x_objs s) 255); 0; 0; 0].

(** 1183-1198 li_can_slv_uload_end; block_status is never read and not modelled *)
Definition ul_end (nr : N) : X N := xsend nr [23; 0; 0; 0; 0; 0; 0; 0].

(** 1039-1055: fill [n] bytes of a message from data[bytes_cnt_of_block..] *)
Fixpoint fill (n : nat) (data : list byte) (len cnt : N) : option (list byte * N) :=
  match n with
  | O => Some ([], cnt)
  | S n' =>
      if cnt <? len then
        match nth_error data (N.to_nat cnt) with
        | None => None
        | Some x => match fill n' data len (u16 (cnt + 1)) with Some (l, c) => Some (x :: l, c) | None => None end
        end
      else match fill n' data len cnt with Some (l, c) => Some (0 :: l, c) | None => None end
  end.

(** 1057-1105 ULOAD_STATE_SEND_MESSAGE and the return to ULOAD_STATE_FILL_BUFFER.  [ticks] are the values the system clock
    returns, one for each reading: one per polling of line 1058 and one after each transmission (line 1102).
    [old] is systick_old, the comparison is in uint32_t.  The result tells whether the function returned. *)
Fixpoint ul_loop (data : list byte) (len : N) (msg : list byte) (old : N) (ticks : list N) : X bool :=
  match ticks with
  | [] => xret false
  | now :: rest =>
      s <-- xget ;;
      if u32 (old + x_delay s) <? now then
        _ <-- xsend (c_nr (x_comp s)) (21 :: msg) ;;
        xmod (fun s => set_cnts s (u16 (x_objs s + 1)) (x_bytes s)) ;>
        s <-- xget ;;
        if x_bytes s <? len then
          match rest with
          | [] => xret false
          | now2 :: rest2 =>
              match fill 7 data len (x_bytes s) with
              | None => xfail
              | Some (m, c) => xmod (fun s => set_cnts s (x_objs s) c) ;> ul_loop data len m now2 rest2
              end
          end
        else _ <-- ul_block_end (c_nr (x_comp s)) ;; xret (match rest with [] => false | _ => true end)
      else ul_loop data len msg old rest
  end.

(** 1021-1111 li_can_slv_uload_data_from_buffer; [len] is data_length *)
Definition upload (data : list byte) (len : N) (ticks : list N) : X bool :=
  xmod (fun s => set_cnts s 0 (x_bytes s)) ;>
  match ticks with
  | [] => xret false
  | t0 :: rest =>
      s <-- xget ;;
      match fill 7 data len (x_bytes s) with
      | None => xfail
      | Some (m, c) => xmod (fun s => set_cnts s (x_objs s) c) ;> ul_loop data len m t0 rest
      end
  end.

(** ** the application *)
Inductive acall :=
| ABuf (o : xop)                              (* functions of li_can_slv_xload_buffer.c *)
| AGetComp                                    (* read / write the component passed to the handler; name[] has nine elements *)
| ASetComp (c : comp)
| AStartAckn (nr maxb delay : N)
| AEndAckn (nr : N)
| ATerminate (nr err : N)
| AVersionAnswer (nr index crc id : N)
| AInfoAnswer (nr index size : N)
| AUpload (data : list byte) (len : N) (ticks : list N)
| AUlEnd (nr : N)
| AActive.                                    (* 1382-1392 li_can_slv_xload_active *)
Inductive aout := ADone | ARc (e : N) | AComp (c : comp) | AUse (r : xout) | AIs (b : bool).
(** a handler: calls, and finally its return value, the status it leaves (true: LI_CAN_SLV_XLOAD_STACK_END_HANDLING) and the
    size it reports *)
Inductive hprog := HFin (rc : N) (stack_end : bool) (size : N) | HCall (c : acall) (k : aout -> hprog).

(** which component the handler got *)
Inductive target := TComp | TVers | TOwn.
Definition get_comp (t : target) (s : xst) : comp := match t with TComp => x_comp s | TVers => x_vers s | TOwn => x_own s end.
Definition put_comp (t : target) (c : comp) (s : xst) : xst := match t with TComp => set_comp s c | TVers => set_vers s c | TOwn => set_own s c end.

Definition rc_of (m : X N) : X aout := rc <-- m ;; xret (ARc rc).
Definition acall_run (size : nat) (t : target) (c : acall) : X aout :=
  match c with
  | ABuf o => s <-- xget ;;
      match xb_step size (x_buf s) o with
      | None => xfail
      | Some (b, r) => xmod (fun s => set_xbuf s b) ;> xobserve (XUsed o r) ;> xret (AUse r)
      end
  | AGetComp => s <-- xget ;; xret (AComp (get_comp t s))
  | ASetComp c => if (length (c_name c) =? 9)%nat then xmod (put_comp t c) ;> xret ADone else xfail
  | AStartAckn nr m d => rc_of (start_ackn nr m d)
  | AEndAckn nr => rc_of (end_ackn nr)
  | ATerminate nr e => rc_of (termination nr e)
  | AVersionAnswer nr i c d => rc_of (version_answer nr i c d)
  | AInfoAnswer nr i z => rc_of (info_answer nr i z)
  | AUpload d l ts => ok <-- upload d l ts ;; if ok then xret (ARc ERR_OK) else xfail
  | AUlEnd nr => rc_of (ul_end nr)
  | AActive => s <-- xget ;; xret (AIs (match x_prog s with InProgress => true | Idle => false end))
  end.
Fixpoint hrun (size : nat) (t : target) (p : hprog) : X (N * bool * N) :=
  match p with
  | HFin rc e z => xret (rc, e, z)
  | HCall c k => r <-- acall_run size t c ;; hrun size t (k r)
  end.

(** "if (NULL != handler) rc = handler(...); else rc = ERR_MSG_CAN_DLOAD_UNKNOWN_COMPONENT;"; without a call the status is
    the initial LI_CAN_SLV_XLOAD_STACK_END_HANDLING and the size 0 *)
Definition call_handler (size : nat) (k : hkind) (t : target) (p : hprog) : X (N * bool * N) :=
  s <-- xget ;;
  match nth (hidx k) (x_hand s) None with
  | None => xret (E_UNKNOWN_COMPONENT, true, 0)
  | Some h => xobserve (XCalled k h (get_comp t s)) ;> hrun size t p
  end.

(** ** requests; [d] are the eight bytes of the message *)
(** 390-398 and 890-898: eight six-bit characters in the bytes 2..7 *)
Definition name6 (d : list byte) : list byte :=
  let b i := nth i d 0 in
  [ u8 (32 + N.shiftr (b 2%nat) 2);
    u8 (32 + N.shiftl (N.land (b 2%nat) 3) 4 + N.shiftr (N.land (b 3%nat) 240) 4);
    u8 (32 + N.shiftl (N.land (b 3%nat) 15) 2 + N.shiftr (N.land (b 4%nat) 192) 6);
    u8 (32 + N.land (b 4%nat) 63);
    u8 (32 + N.shiftr (N.land (b 5%nat) 252) 2);
    u8 (32 + N.shiftl (N.land (b 5%nat) 3) 4 + N.shiftr (N.land (b 6%nat) 240) 4);
    u8 (32 + N.shiftl (N.land (b 6%nat) 15) 2 + N.shiftr (N.land (b 7%nat) 192) 6);
    u8 (32 + N.land (b 7%nat) 63); 0 ].

(** 1238-1293 dload_version_request_pre_handle *)
Definition version_pre (size : nat) (nr : N) (p : hprog) : X N :=
  s <-- xget ;;
  (match nth (hidx HVersion) (x_hand s) None with
   | Some _ => xmod (fun s => set_vers s (set_cnr (x_vers s) nr))
   | None => xret tt
   end) ;>
  r <-- call_handler size HVersion TVers p ;;
  let '(rc, stack_end, _) := r in
  xmod (fun s => set_vers s (clear_name (x_vers s))) ;>
  if rc =? ERR_OK then
    if stack_end then s <-- xget ;; version_answer nr (c_index (x_vers s)) (c_crc (x_vers s)) (c_id (x_vers s)) else xret rc
  else _ <-- termination nr rc ;; xret rc.

(** 385-406 *)
Definition version_short (size : nat) (nr : N) (d : list byte) (p : hprog) : X N :=
  xmod (fun s => set_vers s (set_name (set_index (x_vers s) (nth 1 d 0)) (name6 d))) ;> version_pre size nr p.
(** 416-432 *)
Definition version_long1 (d : list byte) : X N :=
  xmod (fun s => set_vers s (set_name (set_index (x_vers s) (nth 1 d 0)) (firstn 6 (skipn 2 d) ++ skipn 6 (c_name (x_vers s))))) ;> xret ERR_OK.
(** 443-461 *)
Definition version_long2 (size : nat) (nr : N) (d : list byte) (p : hprog) : X N :=
  xmod (fun s => set_vers s (set_name (x_vers s) (firstn 6 (c_name (x_vers s)) ++ [nth 2 d 0; nth 3 d 0; 0]))) ;> version_pre size nr p.

(** 470-488 *)
Definition start_request1 (d : list byte) : X N :=
  s <-- xget ;;
  (match x_prog s with
   | Idle => xmod (fun s => set_comp s (set_name (x_comp s) (firstn 7 (skipn 1 d) ++ skipn 7 (c_name (x_comp s)))))
   | InProgress => xret tt
   end) ;> xret ERR_OK.

(** 500-580; the module number is in the table (it was looked up before the dispatch), so the type is found *)
Definition start_request2 (size : nat) (type : list byte) (nr : N) (d : list byte) (p : hprog) : X N :=
  s <-- xget ;;
  rc <-- (match x_prog s with
   | Idle =>
       xmod (fun s => set_prog s InProgress) ;>
       xmod (fun s => set_comp s (set_name (x_comp s) (firstn 7 (c_name (x_comp s)) ++ [nth 1 d 0; 0]))) ;>
       xmod (fun s => set_comp s (set_crcid (x_comp s) (u16 (N.shiftl (nth 2 d 0) 8 + nth 3 d 0))
                (u32 (N.shiftl (nth 4 d 0) 24 + N.shiftl (nth 5 d 0) 16 + N.shiftl (nth 6 d 0) 8 + nth 7 d 0)))) ;>
       xmod (fun s => set_comp s (set_ctype (set_cnr (x_comp s) nr) type)) ;>
       r <-- call_handler size HStartReq TComp p ;; xret (fst (fst r))
   | InProgress => xret E_DL_IN_PROGRESS
   end) ;;
  if rc =? ERR_OK then xret rc else _ <-- termination nr rc ;; xret rc.

(** 590-620: the loop of seven additions stops at the first error *)
Definition dload_data (size : nat) (nr : N) (d : list byte) : X N :=
  s <-- xget ;;
  match xb_add_loop size (x_buf s) (firstn 7 (skipn 1 d)) with
  | None => xfail
  | Some (b, rc) =>
      xmod (fun s => set_xbuf s b) ;>
      if rc =? ERR_OK then xmod (fun s => set_cnts s (u16 (x_objs s + 1)) (u16 (x_bytes s + 7))) ;> xret rc
      else _ <-- termination nr rc ;; xret rc
  end.

(** 1301-1312 dload_block_ackn *)
Definition block_ackn (nr : N) : X N := xsend nr [26; 0; 0; 0; 0; 0; 0; 0].

(** 631-698 *)
Definition block_end (size : nat) (nr : N) (d : list byte) (p : hprog) : X N :=
  let bytes := u16 (N.shiftl (nth 1 d 0) 8 + nth 2 d 0) in
  let objs := u16 (N.shiftl (nth 3 d 0) 8 + nth 4 d 0) in
  s <-- xget ;;
  if objs =? x_objs s then
    xmod (fun s => set_bend s (u16 (x_bytes s + 65536 - bytes))) ;>
    s <-- xget ;;
    (if 0 <? x_bend s then
       xmod (fun s => set_xbuf s (fst (xb_remove size (x_buf s) (N.to_nat (x_bend s))))) ;> xmod (fun s => set_bend s 0)
     else xret tt) ;>
    r <-- call_handler size HBlockEnd TComp p ;;
    let rc := fst (fst r) in
    if rc =? ERR_OK then _ <-- block_ackn nr ;; xmod (fun s => set_cnts s 0 0) ;> xret rc
    else _ <-- termination nr rc ;; xret rc
  else _ <-- termination nr E_COUNT_NOT_MATCH ;; xret E_COUNT_NOT_MATCH.

(** 709-764 *)
Definition dload_end (size : nat) (nr : N) (p : hprog) : X N :=
  r <-- call_handler size HEnd TComp p ;;
  let '(rc, stack_end, _) := r in
  if rc =? ERR_OK then if stack_end then end_ackn nr else xret rc
  else _ <-- termination nr rc ;; xret rc.

(** 771-812 li_can_slv_dload_start; LI_CAN_SLV_XLOAD_MAX_BYTES_PER_BLOCK_HEX_DLOAD is the buffer size minus 56, the delay is a
    build constant *)
Definition dload_start (size : nat) (delay : N) (p : hprog) : X N :=
  xmod (fun s => set_prog s InProgress) ;>
  r <-- call_handler size HStart TOwn p ;;
  let rc := fst (fst r) in
  s <-- xget ;;
  if rc =? ERR_OK then start_ackn (c_nr (x_own s)) (N.of_nat size - 56) delay
  else _ <-- termination (c_nr (x_own s)) rc ;; xret rc.

(** 1321-1376 uload_info_request_pre_handle and 885-906 *)
Definition info_short (size : nat) (nr : N) (d : list byte) (p : hprog) : X N :=
  xmod (fun s => set_comp s (set_name (set_index (x_comp s) (nth 1 d 0)) (name6 d))) ;>
  s <-- xget ;;
  (match nth (hidx HInfo) (x_hand s) None with
   | Some _ => xmod (fun s => set_comp s (set_cnr (x_comp s) nr))
   | None => xret tt
   end) ;>
  r <-- call_handler size HInfo TComp p ;;
  let '(rc, stack_end, z) := r in
  xmod (fun s => set_comp s (clear_name (x_comp s))) ;>
  if rc =? ERR_OK then
    if stack_end then s <-- xget ;; info_answer nr (c_index (x_comp s)) z else xret rc
  else _ <-- termination nr rc ;; xret rc.

(** 950-965 *)
Definition ul_request1 (nr : N) (d : list byte) : X N :=
  xmod (fun s => set_cnts s 0 0) ;>
  xmod (fun s => set_comp s (set_cnr (x_comp s) nr)) ;>
  start_request1 d.

(** 977-1014 *)
Definition ul_request2 (size : nat) (nr : N) (d : list byte) (p : hprog) : X N :=
  s <-- xget ;;
  rc <-- (match x_prog s with
   | Idle =>
       xmod (fun s => set_prog s InProgress) ;>
       xmod (fun s => set_comp s (set_name (set_cnr (x_comp s) nr) (firstn 7 (c_name (x_comp s)) ++ [nth 1 d 0; 0]))) ;>
       xmod (fun s => set_pace s (u16 (N.shiftl (nth 2 d 0) 8 + nth 3 d 0)) (nth 4 d 0)) ;>
       r <-- call_handler size HUpStart TComp p ;; xret (fst (fst r))
   | InProgress => xret E_DL_IN_PROGRESS
   end) ;;
  if rc =? ERR_OK then xret rc else _ <-- termination nr rc ;; xret rc.

(** 1121-1140 *)
Definition ul_block_ackn (size : nat) (p : hprog) : X N := r <-- call_handler size HBlockAck TComp p ;; xret (fst (fst r)).

(** io_can_async.c:344-632 can_async_rx; codes include/li_can_slv/async/io_can_async.h:60-77 *)
Definition async_rx (size : nat) (tab : list modl) (silent : list N) (nr : N) (d : list byte) (p : hprog) : X N :=
  let '(pos, st, found) := nr_valid tab silent nr in
  if found =? 0 then xret ERR_OK
  else if st =? SILENT then xret ERR_OK
  else
    let c := nth 0 d 0 in
    if c =? 16 then version_short size nr d p
    else if c =? 17 then version_long1 d
    else if c =? 18 then version_long2 size nr d p
    else if c =? 19 then start_request1 d
    else if c =? 20 then start_request2 size (m_type (nth pos tab modl0)) nr d p
    else if c =? 21 then dload_data size nr d
    else if c =? 22 then block_end size nr d p
    else if c =? 23 then dload_end size nr p
    else if c =? 24 then xret ERR_OK                  (* version answer *)
    else if c =? 25 then xret ERR_OK                  (* start acknowledge *)
    else if c =? 26 then ul_block_ackn size p
    else if c =? 27 then xmod (fun s => set_prog s Idle) ;> xret ERR_OK   (* 1149-1155 li_can_slv_uload_end_ackn *)
    else if c =? 28 then xmod (fun s => set_prog s Idle) ;> xret ERR_OK   (* 1165-1173 li_can_slv_uload_termination *)
    else if c =? 80 then info_short size nr d p
    else if c =? 29 then ul_request1 nr d
    else if c =? 30 then ul_request2 size nr d p
    else xret E_UNKNOWN_COMMAND.

(** ** registrations: lines 193-340 (eight setters), io_can_sys.c can_sys_set_system_time_cbk and
    li_can_slv_sys_set_factory_reset_cbk, io_can_reconnect.c:747-791 (four setters, no return value).  [None] is NULL. *)
Definition set_error (k : hkind) : N :=
  match k with
  | HStart | HVersion | HStartReq | HBlockEnd | HEnd => E_DLOAD_ADD_HANDLE
  | HInfo | HUpStart | HBlockAck => E_ULOAD_ADD_HANDLE
  | _ => ERR_OK
  end.
Definition register (k : hkind) (h : option N) : X N :=
  s <-- xget ;;
  match nth (hidx k) (x_hand s) None with
  | None => xmod (fun s => set_hand s (set_nth (x_hand s) (hidx k) h)) ;> xret ERR_OK
  | Some _ => xret (set_error k)
  end.

(** ** operations: a received control message, a call of the application outside of a handler, a registration *)
Inductive xlop :=
| LRx (tab : list modl) (silent : list N) (nr : N) (d : list byte) (p : hprog)
| LCall (c : acall)
| LStart (c : comp) (delay : N) (p : hprog)
| LReg (k : hkind) (h : option N).
Definition xl_step (size : nat) (o : xlop) : X N :=
  match o with
  | LRx tab silent nr d p => async_rx size tab silent nr d p
  | LCall c => _ <-- acall_run size TOwn c ;; xret ERR_OK
  | LStart c delay p => xmod (fun s => set_own s c) ;> dload_start size delay p
  | LReg k h => register k h
  end.
Fixpoint xl_run (size : nat) (ops : list xlop) : X (list N) :=
  match ops with
  | [] => xret []
  | o :: r => e <-- xl_step size o ;; es <-- xl_run size r ;; xret (e :: es)
  end.
