(** A roll call (C104): a master asks all nodes of a bus for their status and makes further messages from the answers it sees. *)
From Verif Require Import Words ErrModel NodeModel NodeSpec NodeUseSpec CommSpec.

(** a frame as it is seen on the bus: identifier, length, data *)
Definition seen := (N * N * list byte)%type.
(** the request: broadcast number 1, command 1; all nodes receive it *)
Definition roll_call (now : N) (ns ns1 : list station) : Prop := Forall2 (receives (sys_rx_id 1) [1; 0; 0; 0; 0; 0; 0; 0] now) ns ns1.
(** an answer: a frame with first byte 4 that the node gave to its controller while it handled the request *)
Definition answer (c c1 : station) (f : seen) : Prop :=
  exists new, n_log (st_node c1) = n_log (st_node c) ++ new /\ In f (sent new) /\ byte_at (snd f) 0 = 4.
Definition answered (ns ns1 : list station) (f : seen) : Prop :=
  exists i c c1, nth_error ns i = Some c /\ nth_error ns1 i = Some c1 /\ answer c c1 f.
(** what the master makes from an answer: the number is in the identifier, type and serial number are in the last seven bytes.  An order
    to stay silent (33) or to be awake (34) repeats these seven bytes. *)
Inductive wish := Sleep | Wake.
Record order := Order { o_to : seen; o_wish : wish; o_now : N }.
Definition its_number (f : seen) : N := id_nr (fst (fst f)).
Definition order_id (o : order) : N := sys_rx_id (its_number (o_to o)).
Definition order_data (o : order) : list byte := (match o_wish o with Sleep => 33 | Wake => 34 end) :: skipn 1 (snd (o_to o)).
(** a change of the number uses the last three bytes *)
Definition renumber (f : seen) (new now : N) : assignment :=
  Assign (byte_at (snd f) 5 * 65536 + byte_at (snd f) 6 * 256 + byte_at (snd f) 7) (its_number f) new now.
(** all nodes receive all orders *)
Inductive ordered : list order -> list station -> list station -> Prop :=
| ordered_none ns : ordered [] ns ns
| ordered_next o l ns ns1 ns2 : Forall2 (receives (order_id o) (order_data o) (o_now o)) ns ns1 -> ordered l ns1 ns2 -> ordered (o :: l) ns ns2.
(** a node whose modules have different numbers that fit into identifiers, and which its filters let pass (cf. C32) *)
Definition numbered (c : station) : Prop :=
  numbers_ok (st_node c) /\ numbers_differ (st_node c) /\
  forall q, (q < nmod (st_node c))%nat -> 2 <= number c q <= 128 /\ hears (st_env c) (st_node c) (number c q).
(** the frame by which module [q] answers *)
Definition answers_as (c : station) (q : nat) : seen := status_tx (st_env c) (st_node c) q.
Definition is_awake (c : station) (q : nat) : bool := awake (st_node c) q.
