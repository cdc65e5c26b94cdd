(** Specification for C97: which data messages reach the user of the tunnel. *)
From Verif Require Import Words ErrModel NodeModel NodeSpec LookModel AsyncModel TunnelModel NodeTunModel.
From Verif Require TunnelSpec.

(** data given to the port of the tunnel *)
Definition port_data (out : list wobs) : list (N * list byte) := flat_map (fun o => match o with WPort dlc d => [(dlc, d)] | _ => [] end) out.
(** the tunnel is open for this module *)
Definition open_for (w : tnode) (nr : N) : Prop := exists peer, TunnelSpec.owner (w_tun w) = Some (nr, peer).
Definition closed (w : tnode) : Prop := TunnelSpec.owner (w_tun w) = None.
(** an opening was acknowledged on the bus *)
Definition acknowledged (out : list wobs) : Prop := exists o, In (WObs o) out /\ TunnelSpec.is_open_ack o.
(** operations that neither add modules nor change numbers or types, with values of the C types *)
Definition steady (E : env) (o : wop) : Prop :=
  match o with
  | WNode o => plain E o /\ forall d nr rxs txs, o <> OpAdd d nr rxs txs
  | WTun o => TunnelSpec.top_ok o
  | WData id dlc data _ => id < 2048 /\ dlc <= 8
  end.
(** values of the C types; all operations of the node, also additions and changes of numbers, are allowed *)
Definition fits (o : wop) : Prop :=
  match o with WNode _ => True | WTun o => TunnelSpec.top_ok o | WData id dlc _ _ => id < 2048 /\ dlc <= 8 end.
(** [w] is reached after the operations [ops] since the initialisation of node and tunnel *)
Definition wreached (E : env) (ops : list wop) (out : list wobs) (w : tnode) : Prop :=
  exists s0, booted E s0 /\ wrun E ops (TNode s0 tun_zero) = Ret (out, w).
