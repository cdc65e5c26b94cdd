(** Specification of the query li_can_slv_xload_active (source/xload/li_can_slv_xload.c:1382-1392) in terms of messages. *)
From Verif Require Import Words ErrModel NodeModel LookModel LookSpec XBufModel AsyncSpec XloadModel.

(** the query, asked by the application in state [s], answers yes *)
Definition active (size : nat) (s : xst) : Prop := exists s' o, acall_run size TOwn AActive s = Some (AIs true, s', o).
(** messages that end a transfer: end acknowledge and termination, sent by the stack or the application *)
Definition end_sent (obs : list xobs) : Prop := exists id b rest, In (XFrame id (b :: rest)) obs /\ (b = 0x1B \/ b = 0x1C).
(** ... or received by a module that listens *)
Definition end_received (o : xlop) : Prop :=
  exists tab silent nr b rest p, o = LRx tab silent nr (b :: rest) p /\ listening tab silent nr /\ (b = 0x1B \/ b = 0x1C).
(** a transfer begins: the second message of a start request for a download or an upload, to a module that listens, or the
    start of a download by the application *)
Definition begins (o : xlop) : Prop :=
  (exists tab silent nr b rest p, o = LRx tab silent nr (b :: rest) p /\ listening tab silent nr /\ (b = 0x14 \/ b = 0x1E)) \/
  (exists c delay p, o = LStart c delay p).
