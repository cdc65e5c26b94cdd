(** Node and tunnel together: the tunnel messages redefine the message object of the asynchronous data, and what passes that
    object is given to the port of the tunnel.  The parts are modelled in NodeModel, NodeServModel and TunnelModel. *)
From Verif Require Import Words ErrModel NodeModel LookModel AsyncModel TunnelModel.
From Verif Require NodeServModel.

Record tnode := TNode { w_node : node; w_tun : tun }.
(** a call or frame of the node model, an operation of the tunnel model (OMsg: a control message), a frame with asynchronous data
    on the bus *)
Inductive wop := WNode (o : op) | WTun (o : top) | WData (id dlc : N) (data : list byte) (now : N).
(** observations: those of the tunnel, and data given to li_can_slv_port_async_tunnel_data_rx_handle *)
Inductive wobs := WObs (o : tobs) | WPort (dlc : N) (data : list byte).

Section Tun.
Variable E : env.
(** source/async/io_can_async.c:472 the object of the asynchronous data gets the identifier of the module that opens the tunnel;
    the result of can_main_define_msg_obj is not used *)
Fixpoint listen (obs : list tobs) : M unit :=
  match obs with
  | [] => ret tt
  | TListen id :: r => ignore (define_obj E MO_ASYNC_DATA id MASK_ONE 8 true SvAsync false) ;;; listen r
  | _ :: r => listen r
  end.
(** io_can_async.c:367-385 a control message is for a module in the table that is not silent *)
Definition ctl_known (s : node) (o : top) : bool :=
  match o with
  | OMsg nr _ _ => let '(_, st, found) := nr_valid (tab_of s) (k_silent (n_cfg s)) nr in negb (found =? 0) && negb (st =? SILENT)
  | _ => true
  end.
(** the acceptance filter of a message object, as in [passes] of the specification *)
Definition accepts (s : node) (mo : nat) (id : N) : bool :=
  match nth mo (h_filt (n_hw s)) None with Some (f, m) => N.land (N.lxor id f) m =? 0 | None => false end.
Definition to_port (h : NodeServModel.handed) : list wobs :=
  match h with NodeServModel.HTunnel dlc data => [WPort dlc data] | _ => [] end.
Definition wstep (w : tnode) (o : wop) : res (list wobs * tnode) :=
  match o with
  | WNode o => match step E o (w_node w) with Ret (_, s) => Ret ([], TNode s (w_tun w)) | Undef => Undef | Hang => Hang end
  | WTun o =>
      if ctl_known (w_node w) o then
        match tstep (w_tun w) o with
        | Some (t, (_, obs)) => match listen obs (w_node w) with Ret (_, s) => Ret (map WObs obs, TNode s t) | Undef => Undef | Hang => Hang end
        | None => Undef
        end
      else Ret ([], w)
  | WData id dlc data now =>
      if accepts (w_node w) MO_ASYNC_DATA id then
        match NodeServModel.main_rx E false MO_ASYNC_DATA id dlc data now (w_node w) with
        | Ret (h, s) => Ret (flat_map to_port h, TNode s (w_tun w)) | Undef => Undef | Hang => Hang
        end
      else Ret ([], w)
  end.
Fixpoint wrun (ops : list wop) (w : tnode) : res (list wobs * tnode) :=
  match ops with
  | [] => Ret ([], w)
  | o :: r => match wstep w o with
              | Ret (a, w1) => match wrun r w1 with Ret (c, w2) => Ret (a ++ c, w2) | x => x end
              | x => x
              end
  end.
End Tun.
